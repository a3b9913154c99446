(** Components with array variables, and groups of components.

    An OpenMDAO component whose variables are arrays (one entry per node of a phase, or one entry per engine
    type) is a function of all the entries of its inputs.  [lift nn shared c] is the component that evaluates the
    scalar component [c] at every one of [nn] nodes, with the inputs in [shared] being scalars that all nodes
    read; its declared partials are the ones of [rows = arange(nn), cols = arange(nn)] for node inputs and a full
    column for shared inputs.  [run_group] executes components in order, as a group with an explicit (run once)
    nonlinear solver does; every output in [over] is left alone, which is what the override mechanism of
    /repo/aviary/variable_info/functions.py L280-395 does with an output whose value the user supplied. *)
From Coq Require Import Reals Lra Lia.
From Coquelicot Require Import Coquelicot.
From Verif Require Import Base Calc MathModel MathProofs Comp.
Open Scope list_scope.
Open Scope string_scope.
Local Open Scope R_scope.

(** Entry [k] of the array called [x]. *)
Definition venv := string -> nat -> R.
Definition vupd (e : venv) (i : string) (l : nat) (t : R) : venv :=
  fun x k => if String.eqb x i && Nat.eqb k l then t else e x k.

Record vcomp := {
  v_ins : list (string * nat);
  v_outs : list (string * nat);
  v_run : venv -> string -> nat -> R;
  v_jac : venv -> string -> nat -> string -> nat -> R
}.

(** [k] is an index of the array [x] of the list [l] of arrays with their sizes. *)
Definition entry (l : list (string * nat)) (x : string) (k : nat) : Prop := exists n, In (x, n) l /\ (k < n)%nat.

(** Every entry of the Jacobian is the derivative of that output entry with respect to that input entry. *)
Definition vexact (c : vcomp) (dom : venv -> Prop) : Prop :=
  forall e, dom e -> forall o k, entry (v_outs c) o k -> forall i l, entry (v_ins c) i l ->
  is_derive (fun t => v_run c (vupd e i l t) o k) (e i l) (v_jac c e o k i l).

(** What node [k] sees. *)
Definition slice (shared : string -> bool) (e : venv) (k : nat) : env := fun x => if shared x then e x 0%nat else e x k.

Definition lift (nn : nat) (shared : string -> bool) (c : comp) : vcomp := {|
  v_ins := map (fun x => (x, if shared x then 1%nat else nn)) (c_ins c);
  v_outs := map (fun x => (x, nn)) (c_outs c);
  v_run := fun e o k => out c (slice shared e k) o;
  v_jac := fun e o k i l =>
    if shared i || Nat.eqb k l then jac c (slice shared e k) o i else 0 |}.

Lemma slice_shared shared e i t k : shared i = true -> slice shared (vupd e i 0 t) k = upd (slice shared e k) i t.
Proof.
  intro S. apply FunctionalExtensionality.functional_extensionality. intro x. unfold slice, vupd, upd.
  destruct (String.eqb_spec x i) as [->|N]; [rewrite S; reflexivity|]. cbn. reflexivity.
Qed.

Lemma slice_same shared e i t k : shared i = false -> slice shared (vupd e i k t) k = upd (slice shared e k) i t.
Proof.
  intro S. apply FunctionalExtensionality.functional_extensionality. intro x. unfold slice, vupd, upd.
  destruct (String.eqb_spec x i) as [->|N]; [rewrite S, Nat.eqb_refl; reflexivity|]. cbn. reflexivity.
Qed.

Lemma slice_other shared e i t k l : shared i = false -> k <> l -> slice shared (vupd e i l t) k = slice shared e k.
Proof.
  intros S N. apply FunctionalExtensionality.functional_extensionality. intro x. unfold slice, vupd.
  destruct (String.eqb_spec x i) as [->|M]; [|reflexivity]. rewrite S.
  destruct (Nat.eqb_spec k l); [contradiction|reflexivity].
Qed.

Lemma lift_exact nn shared c dom : exact_partials c dom ->
  vexact (lift nn shared c) (fun e => forall k, (k < nn)%nat -> dom (slice shared e k)).
Proof.
  intros (_ & _ & A) e D o k (n & On & Kn) i l (m & Im & Lm). cbn in On, Im. apply in_map_iff in On.
  destruct On as (o' & E & Ho). inversion E; subst o' n. apply in_map_iff in Im. destruct Im as (i' & E' & Hi).
  inversion E'; subst i' m. specialize (A _ (D k Kn) o i Ho Hi). unfold exact_at in A.
  cbn [v_run v_jac lift]. destruct (shared i) eqn:S; cbn [orb].
  - assert (l = 0%nat) by lia. subst l. unfold slice at 2 in A. rewrite S in A.
    eapply is_derive_ext; [|exact A]. intro t. cbn. now rewrite slice_shared.
  - destruct (Nat.eqb_spec k l) as [<-|N].
    + unfold slice at 2 in A. rewrite S in A. eapply is_derive_ext; [|exact A]. intro t. cbn. now rewrite slice_same.
    + eapply is_derive_ext; [|apply (is_derive_const (V := R_NormedModule) (out c (slice shared e k) o))]. intro t. cbn.
      now rewrite slice_other.
Qed.

(** Sums over the entries of an array. *)
Fixpoint vsum (n : nat) (f : nat -> R) : R := match n with O => 0 | S m => vsum m f + f m end.

Lemma vsum_ext n f g : (forall k, (k < n)%nat -> f k = g k) -> vsum n f = vsum n g.
Proof. induction n; intro H; [reflexivity|]. cbn. rewrite IHn, H by (intros; try apply H; lia). reflexivity. Qed.

Lemma vsum_derive n (f : R -> nat -> R) x (d : nat -> R) :
  (forall k, (k < n)%nat -> is_derive (fun t => f t k) x (d k)) -> is_derive (fun t => vsum n (f t)) x (vsum n d).
Proof.
  induction n; intro H; cbn; [apply (is_derive_const (V := R_NormedModule))|].
  apply (is_derive_plus (fun t => vsum n (f t)) (fun t => f t n)); [apply IHn; intros; apply H; lia|apply H; lia].
Qed.

Lemma vsum_single n l a : (l < n)%nat -> vsum n (fun k => if Nat.eqb k l then a else 0) = a.
Proof.
  induction n; intro H; [lia|]. cbn. destruct (Nat.eq_dec l n) as [->|N].
  - rewrite Nat.eqb_refl. rewrite (vsum_ext n _ (fun _ => 0)).
    + assert (Z : forall m, vsum m (fun _ => 0) = 0) by (induction m; cbn; [reflexivity|lra]). rewrite Z. lra.
    + intros k K. destruct (Nat.eqb_spec k n); [lia|reflexivity].
  - rewrite IHn by lia. destruct (Nat.eqb_spec n l); [lia|]. lra.
Qed.

Lemma vsum_scal n a f : vsum n (fun k => a * f k) = a * vsum n f.
Proof. induction n; cbn; [ring|rewrite IHn; ring]. Qed.

Lemma vsum_plus n f g : vsum n (fun k => f k + g k) = vsum n f + vsum n g.
Proof. induction n; cbn; [ring|rewrite IHn; ring]. Qed.

(** A scalar component. *)
Definition scalar (c : comp) : vcomp := lift 1 (fun _ => true) c.

Definition sets (c : vcomp) (x : string) (k : nat) : bool :=
  match find (fun p => String.eqb (fst p) x) (v_outs c) with Some (_, n) => Nat.ltb k n | None => false end.

Definition run_one (over : string -> bool) (e : venv) (c : vcomp) : venv :=
  fun x k => if negb (over x) && sets c x k then v_run c e x k else e x k.

Definition run_group (over : string -> bool) (l : list vcomp) (e : venv) : venv := fold_left (run_one over) l e.

Definition no_override (_ : string) : bool := false.

Ltac red_group :=
  lazy -[Rplus Rminus Rmult Rdiv Rinv Ropp IZR Rlt_dec Rle_dec Req_EM_T pow pw modR floorR cos sin tan PI exp ln atan
         sqrt Rpower Rmax Rmin Rabs ltb leb eqb on ob oe vsum sin_int4].


Ltac red_group_in H :=
  lazy -[Rplus Rminus Rmult Rdiv Rinv Ropp IZR Rlt_dec Rle_dec Req_EM_T pow pw modR floorR cos sin tan PI exp ln atan
         sqrt Rpower Rmax Rmin Rabs ltb leb eqb on ob oe vsum sin_int4] in H.
