(** Proofs about the table routines of the Hamilton Standard propeller method. *)
From Coq Require Import Reals Lra Lia.
From Coquelicot Require Import Coquelicot.
From Verif Require Import Base Calc MathModel Comp HamData HamModel.
Open Scope list_scope.
Local Open Scope R_scope.

(** Strictly increasing. *)
Definition increasing (l : list R) : Prop := forall i j, (i < j < length l)%nat -> nth i l 0 < nth j l 0.

(** Parabola through three points. *)
Definition parabola (x0 y0 x1 y1 x2 y2 x : R) : R :=
  y0 * ((x - x1) * (x - x2)) / ((x0 - x1) * (x0 - x2)) + y1 * ((x - x0) * (x - x2)) / ((x1 - x0) * (x1 - x2))
  + y2 * ((x - x0) * (x - x1)) / ((x2 - x0) * (x2 - x1)).

(** The parabola through the table points k - 1, k and k + 1. *)
Definition par_at (xa ya : list R) (k : nat) (x : R) : R :=
  parabola (nth (k - 1) xa 0) (nth (k - 1) ya 0) (nth k xa 0) (nth k ya 0) (nth (k + 1) xa 0) (nth (k + 1) ya 0) x.

(** The interpolant between the nodes k and k + 1. *)
Definition piece (xa ya : list R) (k : nat) (x : R) : R :=
  if Nat.eqb k 0 then par_at xa ya 1 x
  else if Nat.eqb (k + 2) (length xa) then par_at xa ya k x
  else let w := (nth (k + 1) xa 0 - x) / (nth (k + 1) xa 0 - nth k xa 0) in
       w * par_at xa ya k x + (1 - w) * par_at xa ya (k + 1) x.

(** ** Indices *)
Lemma pyget_nth {A} (l : list A) (k : nat) d : (k < length l)%nat -> pyget l (Z.of_nat k) = Ok (nth k l d).
Proof.
  intro H. unfold pyget. replace (Z.of_nat k <? 0)%Z with false by (symmetry; apply Z.ltb_ge; lia).
  replace (Z.of_nat k <? 0)%Z with false by (symmetry; apply Z.ltb_ge; lia). rewrite Nat2Z.id.
  rewrite (nth_error_nth' l d H). reflexivity.
Qed.

Lemma pyget_z {A} (l : list A) (z : Z) k d : z = Z.of_nat k -> (k < length l)%nat -> pyget l z = Ok (nth k l d).
Proof. intros -> H. now apply pyget_nth. Qed.

Lemma ltb_true a b : a < b -> ltb a b = true.
Proof. intro H. unfold ltb. destruct (Rlt_dec a b); [reflexivity|contradiction]. Qed.
Lemma ltb_false a b : b <= a -> ltb a b = false.
Proof. intro H. unfold ltb. destruct (Rlt_dec a b); [lra|reflexivity]. Qed.
Lemma leb_true a b : a <= b -> leb a b = true.
Proof. intro H. unfold leb. destruct (Rle_dec a b); [reflexivity|contradiction]. Qed.
Lemma leb_false a b : b < a -> leb a b = false.
Proof. intro H. unfold leb. destruct (Rle_dec a b); [lra|reflexivity]. Qed.
Lemma eqb_true a b : a = b -> eqb a b = true.
Proof. intro H. unfold eqb. destruct (Req_EM_T a b); [reflexivity|contradiction]. Qed.
Lemma eqb_false a b : a <> b -> eqb a b = false.
Proof. intro H. unfold eqb. destruct (Req_EM_T a b); [contradiction|reflexivity]. Qed.

(** ** The search *)
Lemma find_node x l : forall i j, (j < length l)%nat -> (forall m, (m < j)%nat -> nth m l 0 < x) -> nth j l 0 = x ->
  find_from x l i = Some (true, (i + Z.of_nat j)%Z).
Proof.
  induction l as [|a l IH]; intros i j Hj Hm Hx; cbn [length] in Hj; [lia|]. cbn [find_from].
  destruct j as [|j].
  - cbn in Hx. rewrite eqb_true by exact Hx. rewrite Z.add_0_r. reflexivity.
  - pose proof (Hm 0%nat ltac:(lia)) as H0. cbn in H0. rewrite eqb_false by lra. rewrite ltb_false by lra.
    rewrite (IH (i + 1)%Z j); [do 2 f_equal; lia|lia| |exact Hx].
    intros m Lm. apply (Hm (S m)). lia.
Qed.

Lemma find_between x l : forall i j, (j < length l)%nat -> (forall m, (m < j)%nat -> nth m l 0 < x) -> x < nth j l 0 ->
  find_from x l i = Some (false, (i + Z.of_nat j)%Z).
Proof.
  induction l as [|a l IH]; intros i j Hj Hm Hx; cbn [length] in Hj; [lia|]. cbn [find_from].
  destruct j as [|j].
  - cbn in Hx. rewrite eqb_false by lra. rewrite ltb_true by exact Hx. rewrite Z.add_0_r. reflexivity.
  - pose proof (Hm 0%nat ltac:(lia)) as H0. cbn in H0. rewrite eqb_false by lra. rewrite ltb_false by lra.
    rewrite (IH (i + 1)%Z j); [do 2 f_equal; lia|lia| |exact Hx].
    intros m Lm. apply (Hm (S m)). lia.
Qed.

Lemma find_none x l : forall i, (forall m, (m < length l)%nat -> nth m l 0 < x) -> find_from x l i = None.
Proof.
  induction l as [|a l IH]; intros i Hm; cbn [find_from]; [reflexivity|].
  pose proof (Hm 0%nat ltac:(cbn; lia)) as H0. cbn in H0. rewrite eqb_false by lra. rewrite ltb_false by lra.
  apply IH. intros m Lm. apply (Hm (S m)). cbn; lia.
Qed.

Lemma nth_tl {A} (l : list A) k d : nth k (tl l) d = nth (S k) l d.
Proof. destruct l; [destruct k|]; reflexivity. Qed.
Lemma length_tl {A} (l : list A) : length (tl l) = (length l - 1)%nat.
Proof. destruct l; cbn; lia. Qed.

(** ** Cases of unint *)
Section Unint.
  Variables xa ya : list R.
  Hypothesis Inc : increasing xa.
  Hypothesis Len : (4 <= length xa <= length ya)%nat.

  Lemma unint_low x : x < nth 0 xa 0 -> unint xa ya x = Ok (nth 0 ya 0, 1%Z).
  Proof.
    intro H. unfold unint. rewrite (pyget_z xa 0 0 0) by lia. cbn [rbind]. rewrite ltb_true by exact H.
    rewrite (pyget_z ya 0 0 0) by lia. reflexivity.
  Qed.

  Lemma unint_high x : nth (length xa - 1) xa 0 < x -> unint xa ya x = Ok (nth (length xa - 1) ya 0, 2%Z).
  Proof.
    intro H. unfold unint. rewrite (pyget_z xa 0 0 0) by lia. cbn [rbind].
    pose proof (Inc 0%nat (length xa - 1)%nat ltac:(lia)) as H0. rewrite ltb_false by lra. rewrite eqb_false by lra.
    rewrite find_none.
    - rewrite (pyget_z ya _ (length xa - 1) 0) by lia. reflexivity.
    - intros m Hm. rewrite length_tl in Hm. rewrite nth_tl. destruct (Nat.eq_dec (S m) (length xa - 1)) as [->|N]; [exact H|].
      pose proof (Inc (S m)%nat (length xa - 1)%nat ltac:(lia)). lra.
  Qed.

  Lemma unint_node k : (k < length xa)%nat -> unint xa ya (nth k xa 0) = Ok (nth k ya 0, 0%Z).
  Proof.
    intro H. unfold unint. rewrite (pyget_z xa 0 0 0) by lia. cbn [rbind].
    destruct k as [|k].
    - rewrite ltb_false by lra. rewrite eqb_true by reflexivity. rewrite (pyget_z ya 0 0 0) by lia. reflexivity.
    - pose proof (Inc 0%nat (S k)%nat ltac:(lia)) as H0. rewrite ltb_false by lra. rewrite eqb_false by lra.
      rewrite (find_node _ _ 1 k).
      + rewrite (pyget_z ya _ (S k) 0) by lia. reflexivity.
      + rewrite length_tl. lia.
      + intros m Hm. rewrite nth_tl. apply Inc. lia.
      + rewrite nth_tl. reflexivity.
  Qed.

  Lemma coef_parabolas x0 x1 x2 x3 y0 y1 y2 y3 ra x : x0 < x1 -> x1 < x2 -> x2 < x3 ->
    (let '(c1, c2, c3, c4) := coef x0 x1 x2 x3 ra x in y0 * c1 + y1 * c2 + y2 * c3 + y3 * c4) =
    ra * parabola x0 y0 x1 y1 x2 y2 x + (1 - ra) * parabola x1 y1 x2 y2 x3 y3 x.
  Proof. intros. unfold coef, parabola. field. repeat split; lra. Qed.

  Lemma unint_between k x : (k + 1 < length xa)%nat -> nth k xa 0 < x < nth (k + 1) xa 0 ->
    unint xa ya x = Ok (piece xa ya k x, 0%Z).
  Proof.
    intros H [H1 H2]. unfold unint. rewrite (pyget_z xa 0 0 0) by lia. cbn [rbind].
    assert (H0 : nth 0 xa 0 < x).
    { destruct k; [exact H1|]. pose proof (Inc 0%nat (S k)%nat ltac:(lia)). lra. }
    rewrite ltb_false by lra. rewrite eqb_false by lra.
    rewrite (find_between _ _ 1 k).
    2:{ rewrite length_tl. lia. }
    2:{ intros m Hm. rewrite nth_tl. destruct (Nat.eq_dec (S m) k) as [->|N]; [exact H1|].
        pose proof (Inc (S m)%nat k%nat ltac:(lia)). lra. }
    2:{ rewrite nth_tl. replace (S k) with (k + 1)%nat by lia. exact H2. }
    rewrite (pyget_z xa _ (k + 1) 0) by lia. rewrite (pyget_z xa (1 + Z.of_nat k - 1) k 0) by lia. cbn [rbind].
    unfold piece. replace (1 + Z.of_nat k =? 1)%Z with (Nat.eqb k 0).
    2:{ destruct (Nat.eqb_spec k 0), (Z.eqb_spec (1 + Z.of_nat k) 1); try reflexivity; lia. }
    replace (1 + Z.of_nat k =? Z.of_nat (length xa) - 1)%Z with (Nat.eqb (k + 2) (length xa)).
    2:{ destruct (Nat.eqb_spec (k + 2) (length xa)), (Z.eqb_spec (1 + Z.of_nat k) (Z.of_nat (length xa) - 1)); try reflexivity; lia. }
    destruct (Nat.eqb_spec k 0) as [->|K0].
    - rewrite (pyget_z xa (0 + 1) 1 0), (pyget_z xa 0 0 0), (pyget_z xa (0 + 2) 2 0), (pyget_z xa (0 + 3) 3 0) by lia.
      cbn [rbind]. destruct (coef _ _ _ _ _ _) as [[[c1 c2] c3] c4] eqn:E.
      rewrite (pyget_z ya (0 + 1) 1 0), (pyget_z ya 0 0 0), (pyget_z ya (0 + 2) 2 0), (pyget_z ya (0 + 3) 3 0) by lia.
      cbn [rbind]. do 2 f_equal.
      pose proof (coef_parabolas (nth 0 xa 0) (nth 1 xa 0) (nth 2 xa 0) (nth 3 xa 0)
        (nth 0 ya 0) (nth 1 ya 0) (nth 2 ya 0) (nth 3 ya 0) 1 x (Inc 0%nat 1%nat ltac:(lia)) (Inc 1%nat 2%nat ltac:(lia)) (Inc 2%nat 3%nat ltac:(lia))) as C.
      rewrite E in C. rewrite C. unfold par_at. replace (1 - 1)%nat with 0%nat by lia. change (1 + 1)%nat with 2%nat. ring.
    - destruct (Nat.eqb_spec (k + 2) (length xa)) as [KN|KN].
      + rewrite (pyget_z xa (Z.of_nat (length xa) - 4 + 1) (k - 1) 0), (pyget_z xa (Z.of_nat (length xa) - 4) (k - 2) 0),
          (pyget_z xa (Z.of_nat (length xa) - 4 + 2) k 0), (pyget_z xa (Z.of_nat (length xa) - 4 + 3) (k + 1) 0) by lia.
        cbn [rbind]. destruct (coef _ _ _ _ _ _) as [[[c1 c2] c3] c4] eqn:E.
        rewrite (pyget_z ya (Z.of_nat (length xa) - 4 + 1) (k - 1) 0), (pyget_z ya (Z.of_nat (length xa) - 4) (k - 2) 0),
          (pyget_z ya (Z.of_nat (length xa) - 4 + 2) k 0), (pyget_z ya (Z.of_nat (length xa) - 4 + 3) (k + 1) 0) by lia.
        cbn [rbind]. do 2 f_equal.
        pose proof (coef_parabolas (nth (k - 2) xa 0) (nth (k - 1) xa 0) (nth k xa 0) (nth (k + 1) xa 0)
          (nth (k - 2) ya 0) (nth (k - 1) ya 0) (nth k ya 0) (nth (k + 1) ya 0) 0 x
          (Inc (k - 2)%nat (k - 1)%nat ltac:(lia)) (Inc (k - 1)%nat k%nat ltac:(lia)) (Inc k%nat (k + 1)%nat ltac:(lia))) as C.
        rewrite E in C. rewrite C. unfold par_at. ring.
      + rewrite (pyget_z xa (1 + Z.of_nat k - 2 + 1) k 0), (pyget_z xa (1 + Z.of_nat k - 2) (k - 1) 0),
          (pyget_z xa (1 + Z.of_nat k - 2 + 2) (k + 1) 0), (pyget_z xa (1 + Z.of_nat k - 2 + 3) (k + 2) 0) by lia.
        cbn [rbind]. destruct (coef _ _ _ _ _ _) as [[[c1 c2] c3] c4] eqn:E.
        rewrite (pyget_z ya (1 + Z.of_nat k - 2 + 1) k 0), (pyget_z ya (1 + Z.of_nat k - 2) (k - 1) 0),
          (pyget_z ya (1 + Z.of_nat k - 2 + 2) (k + 1) 0), (pyget_z ya (1 + Z.of_nat k - 2 + 3) (k + 2) 0) by lia.
        cbn [rbind]. do 2 f_equal.
        pose proof (coef_parabolas (nth (k - 1) xa 0) (nth k xa 0) (nth (k + 1) xa 0) (nth (k + 2) xa 0)
          (nth (k - 1) ya 0) (nth k ya 0) (nth (k + 1) ya 0) (nth (k + 2) ya 0)
          ((nth (k + 1) xa 0 - x) / (nth (k + 1) xa 0 - nth k xa 0)) x
          (Inc (k - 1)%nat k%nat ltac:(lia)) (Inc k%nat (k + 1)%nat ltac:(lia)) (Inc (k + 1)%nat (k + 2)%nat ltac:(lia))) as C.
        rewrite E in C. rewrite C. unfold par_at. replace (k + 1 - 1)%nat with k by lia.
        replace (k + 1 + 1)%nat with (k + 2)%nat by lia. reflexivity.
  Qed.
End Unint.

(** Every number is before, behind, on or between the nodes. *)
Lemma locate l x : (1 <= length l)%nat ->
  x < nth 0 l 0 \/ nth (length l - 1) l 0 < x \/ (exists k, (k < length l)%nat /\ x = nth k l 0) \/
  (exists k, (k + 1 < length l)%nat /\ nth k l 0 < x < nth (k + 1) l 0).
Proof.
  induction l as [|a l IH]; intro H; cbn [length] in H; [lia|].
  destruct l as [|b l].
  - cbn. destruct (Rtotal_order x a) as [L|[E|G]]; [now left| |now right; left].
    right; right; left. exists 0%nat. cbn. split; [lia|exact E].
  - destruct (IH ltac:(cbn; lia)) as [L|[Hi|[[k [K1 K2]]|[k [K1 K2]]]]].
    + cbn [nth] in L. destruct (Rtotal_order x a) as [L'|[E|G]].
      * now left.
      * right; right; left. exists 0%nat. cbn. split; [lia|exact E].
      * right; right; right. exists 0%nat. cbn. split; [lia|]. lra.
    + right; left. cbn [length] in *. replace (S (S (length l)) - 1)%nat with (S (S (length l) - 1)) by lia. exact Hi.
    + right; right; left. exists (S k). cbn [length] in *. split; [lia|exact K2].
    + right; right; right. exists (S k). cbn [length] in *. split; [lia|exact K2].
Qed.

(** ** Values and slopes at the nodes *)
Definition dparabola (x0 y0 x1 y1 x2 y2 x : R) : R :=
  y0 * (2 * x - x1 - x2) / ((x0 - x1) * (x0 - x2)) + y1 * (2 * x - x0 - x2) / ((x1 - x0) * (x1 - x2))
  + y2 * (2 * x - x0 - x1) / ((x2 - x0) * (x2 - x1)).
Definition dpar_at (xa ya : list R) (k : nat) (x : R) : R :=
  dparabola (nth (k - 1) xa 0) (nth (k - 1) ya 0) (nth k xa 0) (nth k ya 0) (nth (k + 1) xa 0) (nth (k + 1) ya 0) x.
Definition dpiece (xa ya : list R) (k : nat) (x : R) : R :=
  if Nat.eqb k 0 then dpar_at xa ya 1 x
  else if Nat.eqb (k + 2) (length xa) then dpar_at xa ya k x
  else let h := nth (k + 1) xa 0 - nth k xa 0 in
       let w := (nth (k + 1) xa 0 - x) / h in
       w * dpar_at xa ya k x + (1 - w) * dpar_at xa ya (k + 1) x - (par_at xa ya k x - par_at xa ya (k + 1) x) / h.

Lemma parabola_derive x0 y0 x1 y1 x2 y2 x : is_derive (parabola x0 y0 x1 y1 x2 y2) x (dparabola x0 y0 x1 y1 x2 y2 x).
Proof. unfold parabola, dparabola, Rdiv. auto_derive; [exact I|]. ring. Qed.
Lemma par_derive xa ya k x : is_derive (par_at xa ya k) x (dpar_at xa ya k x).
Proof. apply parabola_derive. Qed.

Lemma dparabola_continuous x0 y0 x1 y1 x2 y2 x : continuous (dparabola x0 y0 x1 y1 x2 y2) x.
Proof. apply (ex_derive_continuous (V := R_NormedModule)). unfold dparabola, Rdiv. auto_derive. exact I. Qed.

Lemma piece_derive xa ya k x : nth k xa 0 < nth (k + 1) xa 0 -> is_derive (piece xa ya k) x (dpiece xa ya k x).
Proof.
  intro H. unfold piece, dpiece. destruct (Nat.eqb k 0); [apply par_derive|].
  destruct (Nat.eqb (k + 2) (length xa)); [apply par_derive|].
  pose proof (par_derive xa ya k x) as A. pose proof (par_derive xa ya (k + 1) x) as B.
  set (f := par_at xa ya k) in *. set (g := par_at xa ya (k + 1)) in *.
  set (p := nth (k + 1) xa 0) in *. set (q := nth k xa 0) in *. cbv zeta.
  auto_derive; [split; [now exists (dpar_at xa ya k x)|split; [now exists (dpar_at xa ya (k + 1) x)|exact I]]|].
  replace (Derive (fun x0 : R => f x0) x) with (dpar_at xa ya k x) by (symmetry; now apply is_derive_unique).
  replace (Derive (fun x0 : R => g x0) x) with (dpar_at xa ya (k + 1) x) by (symmetry; now apply is_derive_unique).
  field. lra.
Qed.

Lemma dpiece_continuous xa ya k x : continuous (dpiece xa ya k) x.
Proof.
  unfold dpiece. destruct (Nat.eqb k 0); [apply dparabola_continuous|].
  destruct (Nat.eqb (k + 2) (length xa)); [apply dparabola_continuous|].
  apply (ex_derive_continuous (V := R_NormedModule)). unfold dpar_at, par_at, dparabola, parabola, Rdiv. auto_derive. exact I.
Qed.

Section Pieces.
  Variables xa ya : list R.
  Hypothesis Inc : increasing xa.
  Hypothesis Len : (4 <= length xa)%nat.

  Lemma par_at_node k m : (1 <= k)%nat -> (k + 1 < length xa)%nat -> m = (k - 1)%nat \/ m = k \/ m = (k + 1)%nat ->
    par_at xa ya k (nth m xa 0) = nth m ya 0.
  Proof.
    intros K1 K2 M. pose proof (Inc (k - 1)%nat k%nat ltac:(lia)). pose proof (Inc k%nat (k + 1)%nat ltac:(lia)).
    unfold par_at, parabola.
    destruct M as [-> | [-> | ->]]; field; repeat split; lra.
  Qed.

  Lemma piece_left k : (k + 1 < length xa)%nat -> piece xa ya k (nth k xa 0) = nth k ya 0.
  Proof.
    intro H. unfold piece. destruct (Nat.eqb_spec k 0) as [->|K0]; [apply par_at_node; lia|].
    destruct (Nat.eqb_spec (k + 2) (length xa)) as [KN|KN]; [apply par_at_node; lia|].
    pose proof (Inc k%nat (k + 1)%nat ltac:(lia)). rewrite !par_at_node by lia. cbv zeta. field. lra.
  Qed.

  Lemma piece_right k : (k + 1 < length xa)%nat -> piece xa ya k (nth (k + 1) xa 0) = nth (k + 1) ya 0.
  Proof.
    intro H. unfold piece. destruct (Nat.eqb_spec k 0) as [->|K0]; [apply par_at_node; lia|].
    destruct (Nat.eqb_spec (k + 2) (length xa)) as [KN|KN]; [apply par_at_node; lia|].
    pose proof (Inc k%nat (k + 1)%nat ltac:(lia)). rewrite !par_at_node by lia. cbv zeta. field. lra.
  Qed.

  (** The slope at a node is that of the parabola through the node and its neighbours. *)
  Lemma dpiece_left k : (1 <= k)%nat -> (k + 1 < length xa)%nat -> dpiece xa ya k (nth k xa 0) = dpar_at xa ya k (nth k xa 0).
  Proof.
    intros H1 H. unfold dpiece. destruct (Nat.eqb_spec k 0) as [->|K0]; [lia|].
    destruct (Nat.eqb_spec (k + 2) (length xa)) as [KN|KN]; [reflexivity|].
    pose proof (Inc k%nat (k + 1)%nat ltac:(lia)). rewrite !par_at_node by lia. cbv zeta. field. lra.
  Qed.

  Lemma dpiece_right k : (k + 2 < length xa)%nat ->
    dpiece xa ya k (nth (k + 1) xa 0) = dpar_at xa ya (k + 1) (nth (k + 1) xa 0).
  Proof.
    intro H. unfold dpiece. destruct (Nat.eqb_spec k 0) as [->|K0]; [reflexivity|].
    destruct (Nat.eqb_spec (k + 2) (length xa)) as [KN|KN]; [lia|].
    pose proof (Inc k%nat (k + 1)%nat ltac:(lia)). rewrite !par_at_node by lia. cbv zeta. field. lra.
  Qed.
End Pieces.

(** ** Gluing *)
Lemma glue_derive (f g h : R -> R) a l e : 0 < e -> is_derive f a l -> is_derive g a l -> f a = g a ->
  (forall x, a - e < x <= a -> h x = f x) -> (forall x, a <= x < a + e -> h x = g x) -> is_derive h a l.
Proof.
  intros He F G E Hf Hg. apply is_derive_Reals. apply is_derive_Reals in F. apply is_derive_Reals in G.
  intros eps Heps. destruct (F eps Heps) as [d1 D1]. destruct (G eps Heps) as [d2 D2].
  assert (Hd : 0 < Rmin (Rmin d1 d2) e).
  { repeat apply Rmin_pos; [apply cond_pos|apply cond_pos|exact He]. }
  exists (mkposreal _ Hd). intros t Ht Lt. cbn in Lt.
  pose proof (Rmin_l (Rmin d1 d2) e). pose proof (Rmin_r (Rmin d1 d2) e).
  pose proof (Rmin_l d1 d2). pose proof (Rmin_r d1 d2).
  assert (A1 : Rabs t < d1) by lra. assert (A2 : Rabs t < d2) by lra. assert (A3 : Rabs t < e) by lra.
  apply Rabs_def2 in A3. rewrite (Hf a) by lra.
  destruct (Rle_dec t 0).
  - rewrite (Hf (a + t)) by lra. now apply D1.
  - rewrite (Hg (a + t)) by lra. rewrite E. now apply D2.
Qed.

Lemma glue_continuous (f g h : R -> R) a e : 0 < e -> continuous f a -> continuous g a -> f a = g a -> h a = f a ->
  (forall x, a - e < x < a -> h x = f x) -> (forall x, a < x < a + e -> h x = g x) -> continuous h a.
Proof.
  intros He F G E Ha Hf Hg. apply continuity_pt_filterlim. apply continuity_pt_filterlim in F.
  apply continuity_pt_filterlim in G. intros eps Heps. destruct (F eps Heps) as [d1 [P1 D1]].
  destruct (G eps Heps) as [d2 [P2 D2]].
  exists (Rmin (Rmin d1 d2) e). split; [repeat apply Rmin_pos; assumption|].
  intros x [Dx Lx]. unfold dist, R_met, R_dist in *. cbn in *.
  pose proof (Rmin_l (Rmin d1 d2) e). pose proof (Rmin_r (Rmin d1 d2) e).
  pose proof (Rmin_l d1 d2). pose proof (Rmin_r d1 d2).
  assert (A3 : Rabs (x - a) < e) by lra. apply Rabs_def2 in A3. rewrite Ha.
  destruct (Rtotal_order x a) as [L|[L|L]].
  - rewrite (Hf x) by lra. apply D1. split; [exact Dx|]. unfold R_dist. lra.
  - subst x. destruct Dx as [_ N]. now elim N.
  - rewrite (Hg x) by lra. rewrite E. apply D2. split; [exact Dx|]. unfold R_dist. lra.
Qed.

Definition unint_val (xa ya : list R) (x : R) : R := match unint xa ya x with Ok (y, _) => y | Err _ => 0 end.

Section Smooth.
  Variables xa ya : list R.
  Hypothesis Inc : increasing xa.
  Hypothesis Len : (4 <= length xa <= length ya)%nat.
  Let f := unint_val xa ya.

  Lemma val_closed k x : (k + 1 < length xa)%nat -> nth k xa 0 <= x <= nth (k + 1) xa 0 -> f x = piece xa ya k x.
  Proof.
    intros H [H1 H2]. unfold f, unint_val. destruct (Req_dec x (nth k xa 0)) as [->|N1].
    - rewrite (unint_node xa ya Inc Len) by lia. symmetry. apply piece_left; [exact Inc|lia|lia].
    - destruct (Req_dec x (nth (k + 1) xa 0)) as [->|N2].
      + rewrite (unint_node xa ya Inc Len) by lia. symmetry. apply piece_right; [exact Inc|lia|lia].
      + rewrite (unint_between xa ya Inc Len k) by (try lia; lra). reflexivity.
  Qed.

  Lemma derive_inside k x : (k + 1 < length xa)%nat -> nth k xa 0 < x < nth (k + 1) xa 0 ->
    is_derive f x (dpiece xa ya k x).
  Proof.
    intros H [H1 H2]. pose proof (Inc k%nat (k + 1)%nat ltac:(lia)).
    apply (is_derive_ext_loc (piece xa ya k)); [|now apply piece_derive].
    assert (He : 0 < Rmin (x - nth k xa 0) (nth (k + 1) xa 0 - x)) by (apply Rmin_pos; lra).
    exists (mkposreal _ He). intros y Hy. change (Rabs (y - x) < Rmin (x - nth k xa 0) (nth (k + 1) xa 0 - x)) in Hy.
    pose proof (Rmin_l (x - nth k xa 0) (nth (k + 1) xa 0 - x)). pose proof (Rmin_r (x - nth k xa 0) (nth (k + 1) xa 0 - x)).
    assert (A : Rabs (y - x) < x - nth k xa 0) by lra. assert (B : Rabs (y - x) < nth (k + 1) xa 0 - x) by lra.
    apply Rabs_def2 in A. apply Rabs_def2 in B. symmetry. apply val_closed; [exact H|lra].
  Qed.

  Lemma derive_node k : (1 <= k)%nat -> (k + 1 < length xa)%nat ->
    is_derive f (nth k xa 0) (dpar_at xa ya k (nth k xa 0)).
  Proof.
    intros H1 H. pose proof (Inc (k - 1)%nat k%nat ltac:(lia)) as A. pose proof (Inc k%nat (k + 1)%nat ltac:(lia)) as B.
    assert (Ek : nth (k - 1 + 1) xa 0 = nth k xa 0) by (f_equal; lia).
    apply (glue_derive (piece xa ya (k - 1)) (piece xa ya k) f (nth k xa 0) _
      (Rmin (nth k xa 0 - nth (k - 1) xa 0) (nth (k + 1) xa 0 - nth k xa 0))).
    - apply Rmin_pos; lra.
    - replace (dpar_at xa ya k (nth k xa 0)) with (dpiece xa ya (k - 1) (nth k xa 0)).
      + apply piece_derive. rewrite Ek. exact A.
      + rewrite <- Ek at 1. rewrite (dpiece_right xa ya Inc ltac:(lia) (k - 1)) by lia.
        replace (k - 1 + 1)%nat with k by lia. reflexivity.
    - rewrite <- (dpiece_left xa ya Inc ltac:(lia) k) by lia. now apply piece_derive.
    - rewrite (piece_left xa ya Inc ltac:(lia) k) by lia. rewrite <- Ek.
      rewrite (piece_right xa ya Inc ltac:(lia) (k - 1)) by lia. f_equal; lia.
    - intros x Hx. apply val_closed; [lia|]. rewrite Ek.
      pose proof (Rmin_l (nth k xa 0 - nth (k - 1) xa 0) (nth (k + 1) xa 0 - nth k xa 0)). lra.
    - intros x Hx. apply val_closed; [lia|].
      pose proof (Rmin_r (nth k xa 0 - nth (k - 1) xa 0) (nth (k + 1) xa 0 - nth k xa 0)). lra.
  Qed.

  Lemma slope_continuous x : nth 0 xa 0 < x < nth (length xa - 1) xa 0 -> ex_derive f x /\ continuous (Derive f) x.
  Proof.
    intros [H1 H2]. destruct (locate xa x ltac:(lia)) as [L|[L|[[k [K ->]]|[k [K [K1 K2]]]]]]; [lra|lra| |].
    - assert (Kl : (1 <= k)%nat) by (destruct k; [lra|lia]).
      assert (Kr : (k + 1 < length xa)%nat).
      { destruct (Nat.eq_dec k (length xa - 1)) as [->|N]; [lra|lia]. }
      pose proof (derive_node k Kl Kr) as D.
      split; [now exists (dpar_at xa ya k (nth k xa 0))|].
      pose proof (Inc (k - 1)%nat k%nat ltac:(lia)) as A. pose proof (Inc k%nat (k + 1)%nat ltac:(lia)) as B.
      assert (Ek : nth (k - 1 + 1) xa 0 = nth k xa 0) by (f_equal; lia).
      assert (El : dpiece xa ya (k - 1) (nth k xa 0) = dpar_at xa ya k (nth k xa 0)).
      { rewrite <- Ek at 1. rewrite (dpiece_right xa ya Inc ltac:(lia) (k - 1)) by lia.
        replace (k - 1 + 1)%nat with k by lia. reflexivity. }
      apply (glue_continuous (dpiece xa ya (k - 1)) (dpiece xa ya k) (Derive f) (nth k xa 0)
        (Rmin (nth k xa 0 - nth (k - 1) xa 0) (nth (k + 1) xa 0 - nth k xa 0))).
      + apply Rmin_pos; lra.
      + apply dpiece_continuous.
      + apply dpiece_continuous.
      + rewrite El, (dpiece_left xa ya Inc ltac:(lia) k) by lia. reflexivity.
      + rewrite El. now apply is_derive_unique.
      + intros x Hx. pose proof (Rmin_l (nth k xa 0 - nth (k - 1) xa 0) (nth (k + 1) xa 0 - nth k xa 0)).
        apply is_derive_unique. apply derive_inside; [lia|]. rewrite Ek. lra.
      + intros x Hx. pose proof (Rmin_r (nth k xa 0 - nth (k - 1) xa 0) (nth (k + 1) xa 0 - nth k xa 0)).
        apply is_derive_unique. apply derive_inside; [lia|]. lra.
    - pose proof (derive_inside k x K (conj K1 K2)) as D.
      split; [now exists (dpiece xa ya k x)|].
      apply (glue_continuous (dpiece xa ya k) (dpiece xa ya k) (Derive f) x (Rmin (x - nth k xa 0) (nth (k + 1) xa 0 - x))).
      + apply Rmin_pos; lra.
      + apply dpiece_continuous.
      + apply dpiece_continuous.
      + reflexivity.
      + now apply is_derive_unique.
      + intros y Hy. pose proof (Rmin_l (x - nth k xa 0) (nth (k + 1) xa 0 - x)).
        apply is_derive_unique. apply derive_inside; [lia|]. lra.
      + intros y Hy. pose proof (Rmin_r (x - nth k xa 0) (nth (k + 1) xa 0 - x)).
        apply is_derive_unique. apply derive_inside; [lia|]. lra.
  Qed.
End Smooth.

(** Exact on quadratics. *)
Lemma parabola_exact x0 x1 x2 (q : R -> R) a b c x : x0 < x1 -> x1 < x2 -> (forall t, q t = a * t ^ 2 + b * t + c) ->
  parabola x0 (q x0) x1 (q x1) x2 (q x2) x = q x.
Proof. intros H1 H2 Q. rewrite !Q. unfold parabola. field. repeat split; lra. Qed.

Lemma unint_quadratic xa (q : R -> R) a b c x : increasing xa -> (4 <= length xa)%nat ->
  (forall t, q t = a * t ^ 2 + b * t + c) -> nth 0 xa 0 <= x <= nth (length xa - 1) xa 0 ->
  unint xa (map q xa) x = Ok (q x, 0%Z).
Proof.
  intros Inc Len Q H. set (ya := map q xa).
  assert (Ly : length ya = length xa) by apply map_length.
  assert (N : forall k, (k < length xa)%nat -> nth k ya 0 = q (nth k xa 0)).
  { intros k Hk. unfold ya. rewrite (nth_indep _ 0 (q 0)) by (rewrite map_length; exact Hk). apply map_nth. }
  assert (P : forall k, (1 <= k)%nat -> (k + 1 < length xa)%nat -> par_at xa ya k x = q x).
  { intros k K1 K2. unfold par_at. rewrite !N by lia.
    apply (parabola_exact _ _ _ q a b c); [apply Inc; lia|apply Inc; lia|exact Q]. }
  destruct (locate xa x ltac:(lia)) as [L|[L|[[k [K ->]]|[k [K [K1 K2]]]]]]; [lra|lra| |].
  - rewrite (unint_node xa ya Inc ltac:(lia)) by exact K. rewrite N by exact K. reflexivity.
  - rewrite (unint_between xa ya Inc ltac:(lia) k) by (try lia; lra). do 2 f_equal. unfold piece.
    destruct (Nat.eqb_spec k 0) as [->|K0]; [apply P; lia|].
    destruct (Nat.eqb_spec (k + 2) (length xa)) as [KN|KN]; [apply P; lia|].
    rewrite !P by lia. cbv zeta. ring.
Qed.

(** ** _biquad *)
Definition segment (T : list R) (lo : Z) (xs : list R) : Prop :=
  forall k, (k < length xs)%nat -> pyget T (lo + Z.of_nat k) = Ok (nth k xs 0).

Lemma segment_app pre xs post : segment (pre ++ xs ++ post) (Z.of_nat (length pre)) xs.
Proof.
  intros k Hk. rewrite (pyget_z _ _ (length pre + k) 0); [|lia|rewrite !app_length; lia].
  rewrite app_nth2 by lia. replace (length pre + k - length pre)%nat with k by lia. rewrite app_nth1 by exact Hk. reflexivity.
Qed.

Lemma first_ge_some T x xs : forall count lo j, segment T lo xs -> (count <= length xs)%nat -> (j < count)%nat ->
  (forall m, (m < j)%nat -> nth m xs 0 < x) -> x <= nth j xs 0 -> first_ge T x lo count = Ok (Some (lo + Z.of_nat j)%Z).
Proof.
  induction xs as [|a xs IH]; intros count lo j Sg Hc Hj Hm Hx; cbn [length] in *; [lia|].
  destruct count as [|c]; [lia|]. cbn [first_ge]. pose proof (Sg 0%nat ltac:(cbn; lia)) as S0.
  rewrite Z.add_0_r in S0. rewrite S0. cbn [rbind nth].
  destruct j as [|j].
  - rewrite leb_true by exact Hx. rewrite Z.add_0_r. reflexivity.
  - pose proof (Hm 0%nat ltac:(lia)) as H0. cbn in H0. rewrite leb_false by exact H0.
    rewrite (IH c (lo + 1)%Z j); [do 2 f_equal; lia| |lia|lia| |exact Hx].
    + intros k Hk. replace (lo + 1 + Z.of_nat k)%Z with (lo + Z.of_nat (S k))%Z by lia. apply (Sg (S k)). cbn; lia.
    + intros m Lm. apply (Hm (S m)). lia.
Qed.

Lemma first_ge_none T x xs : forall lo, segment T lo xs -> (forall m, (m < length xs)%nat -> nth m xs 0 < x) ->
  first_ge T x lo (length xs) = Ok None.
Proof.
  induction xs as [|a xs IH]; intros lo Sg Hm; cbn [length first_ge]; [reflexivity|].
  pose proof (Sg 0%nat ltac:(cbn; lia)) as S0. rewrite Z.add_0_r in S0. rewrite S0. cbn [rbind nth].
  pose proof (Hm 0%nat ltac:(cbn; lia)) as H0. cbn in H0. rewrite leb_false by exact H0. apply IH.
  - intros k Hk. replace (lo + 1 + Z.of_nat k)%Z with (lo + Z.of_nat (S k))%Z by lia. apply (Sg (S k)). cbn; lia.
  - intros m Lm. apply (Hm (S m)). cbn; lia.
Qed.

Definition nth4 (l : list R) (j : nat) : R * R * R * R := (nth j l 0, nth (j + 1) l 0, nth (j + 2) l 0, nth (j + 3) l 0).

Lemma four_of_segment T lo xs j : segment T lo xs -> (j + 3 < length xs)%nat ->
  four_of T (lo + Z.of_nat j) 1 = Ok (nth4 xs j).
Proof.
  intros Sg H. unfold four_of, nth4. rewrite (Sg j) by lia. cbn [rbind].
  replace (lo + Z.of_nat j + 1)%Z with (lo + Z.of_nat (j + 1))%Z by lia. rewrite (Sg (j + 1)%nat) by lia. cbn [rbind].
  replace (lo + Z.of_nat j + 2 * 1)%Z with (lo + Z.of_nat (j + 2))%Z by lia. rewrite (Sg (j + 2)%nat) by lia. cbn [rbind].
  replace (lo + Z.of_nat j + 3 * 1)%Z with (lo + Z.of_nat (j + 3))%Z by lia. rewrite (Sg (j + 3)%nat) by lia. reflexivity.
Qed.

Ltac same_start := match goal with |- Ok (_, _, ?a, _) = Ok (_, _, ?b, _) => replace b with a by lia; reflexivity end.

(** Search and coefficients of _biquad give what _unint gives, for any values. *)
Lemma stencil T lo xs x : segment T lo xs -> increasing xs -> (4 <= length xs)%nat ->
  exists x' k j ra, (j + 3 < length xs)%nat /\
    bq_search T lo (lo + Z.of_nat (length xs) - 1) x = Ok (x', k, (lo + Z.of_nat j)%Z, ra) /\
    forall ya, (length xs <= length ya)%nat -> unint xs ya x = Ok (dot4 (coef_of (nth4 xs j) ra x') (nth4 ya j), k).
Proof.
  intros Sg Inc Len.
  assert (Ct : Z.to_nat (lo + Z.of_nat (length xs) - 1 - lo + 1) = length xs) by lia.
  assert (Cf : forall j ra t ya, (j + 3 < length xs)%nat -> dot4 (coef_of (nth4 xs j) ra t) (nth4 ya j) =
    ra * par_at xs ya (j + 1) t + (1 - ra) * par_at xs ya (j + 2) t).
  { intros j ra t ya Hj. unfold dot4, coef_of, nth4, bq_coef, par_at, parabola.
    pose proof (Inc j (j + 1)%nat ltac:(lia)). pose proof (Inc (j + 1)%nat (j + 2)%nat ltac:(lia)).
    pose proof (Inc (j + 2)%nat (j + 3)%nat ltac:(lia)).
    replace (j + 1 - 1)%nat with j by lia. replace (j + 1 + 1)%nat with (j + 2)%nat by lia.
    replace (j + 2 - 1)%nat with (j + 1)%nat by lia. replace (j + 2 + 1)%nat with (j + 3)%nat by lia.
    field. repeat split; lra. }
  assert (Sx : forall j, (j < length xs)%nat -> pyget T (lo + Z.of_nat j) = Ok (nth j xs 0)) by exact Sg.
  assert (S0 : pyget T lo = Ok (nth 0 xs 0)).
  { rewrite <- (Sx 0%nat) by lia. f_equal. lia. }
  (* the node or interval that is found has index j *)
  assert (Main : forall j, (j < length xs)%nat -> (forall m, (m < j)%nat -> nth m xs 0 < x) -> x <= nth j xs 0 ->
    (1 <= j)%nat -> exists x' k i ra, (i + 3 < length xs)%nat /\
    bq_search T lo (lo + Z.of_nat (length xs) - 1) x = Ok (x', k, (lo + Z.of_nat i)%Z, ra) /\
    forall ya, (length xs <= length ya)%nat -> unint xs ya x = Ok (dot4 (coef_of (nth4 xs i) ra x') (nth4 ya i), k)).
  { intros j Hj Hm Hx J1. unfold bq_search. rewrite Ct.
    rewrite (first_ge_some T x xs (length xs) lo j Sg (le_n _) Hj Hm Hx). cbn [rbind].
    rewrite (Sx j) by exact Hj. cbn [rbind]. rewrite S0. cbn [rbind].
    replace (lo + Z.of_nat j <? lo + 1)%Z with false by (symmetry; apply Z.ltb_ge; lia). cbn [andb].
    assert (Un : forall ya, (length xs <= length ya)%nat -> unint xs ya x = Ok (piece xs ya (j - 1) x, 0%Z)).
    { intros ya Ly. destruct (Req_dec x (nth j xs 0)) as [->|N].
      - rewrite (unint_node xs ya Inc ltac:(lia)) by exact Hj. do 2 f_equal.
        pose proof (piece_right xs ya Inc ltac:(lia) (j - 1)%nat ltac:(lia)) as P.
        replace (j - 1 + 1)%nat with j in P by lia. now rewrite P.
      - apply (unint_between xs ya Inc ltac:(lia)); [lia|]. split; [apply Hm; lia|].
        replace (j - 1 + 1)%nat with j by lia. lra. }
    destruct (Z.leb_spec (lo + Z.of_nat j) (lo + 1)) as [L|L].
    - assert (j = 1%nat) by lia. subst j. exists x, 0%Z, 0%nat, 1. split; [lia|]. split; [same_start|].
      intros ya Ly. rewrite Un by exact Ly. rewrite Cf by lia. unfold piece. cbn [Nat.sub Nat.eqb]. do 2 f_equal. cbn [Nat.add]. ring.
    - destruct (Z.eqb_spec (lo + Z.of_nat j) (lo + Z.of_nat (length xs) - 1)) as [E|E].
      + exists x, 0%Z, (length xs - 4)%nat, 0. split; [lia|]. split; [same_start|].
        intros ya Ly. rewrite Un by exact Ly. rewrite Cf by lia. unfold piece.
        destruct (Nat.eqb_spec (j - 1) 0); [lia|]. destruct (Nat.eqb_spec (j - 1 + 2) (length xs)); [|lia].
        do 2 f_equal. replace (length xs - 4 + 2)%nat with (j - 1)%nat by lia. ring.
      + replace (lo + Z.of_nat j - 1)%Z with (lo + Z.of_nat (j - 1))%Z by lia. rewrite (Sx (j - 1)%nat) by lia. cbn [rbind].
        exists x, 0%Z, (j - 2)%nat, ((nth j xs 0 - x) / (nth j xs 0 - nth (j - 1) xs 0)). split; [lia|].
        split; [same_start|].
        intros ya Ly. rewrite Un by exact Ly. rewrite Cf by lia. unfold piece.
        destruct (Nat.eqb_spec (j - 1) 0); [lia|]. destruct (Nat.eqb_spec (j - 1 + 2) (length xs)); [lia|].
        replace (j - 1 + 1)%nat with j by lia. replace (j - 2 + 2)%nat with j by lia.
        replace (j - 2 + 1)%nat with (j - 1)%nat by lia. reflexivity. }
  destruct (locate xs x ltac:(lia)) as [L|[L|[[j [K E]]|[j [K [K1 K2]]]]]].
  - unfold bq_search. rewrite Ct. rewrite (first_ge_some T x xs (length xs) lo 0 Sg (le_n _)) by (try lia; lra).
    cbn [rbind Z.of_nat]. rewrite Z.add_0_r, S0. cbn [rbind].
    replace (lo <? lo + 1)%Z with true by (symmetry; apply Z.ltb_lt; lia). rewrite eqb_false by lra. cbn [andb negb].
    replace (lo <=? lo + 1)%Z with true by (symmetry; apply Z.leb_le; lia).
    exists (nth 0 xs 0), 1%Z, 0%nat, 1. split; [lia|]. split; [same_start|].
    intros ya Ly. rewrite (unint_low xs ya ltac:(lia)) by exact L. do 2 f_equal. rewrite Cf by lia.
    rewrite (par_at_node xs ya Inc Len (0 + 1)%nat 0%nat) by lia. ring.
  - unfold bq_search. rewrite Ct. rewrite (first_ge_none T x xs lo Sg).
    2:{ intros m Hm. destruct (Nat.eq_dec m (length xs - 1)) as [->|N]; [exact L|].
        pose proof (Inc m (length xs - 1)%nat ltac:(lia)). lra. }
    cbn [rbind]. replace (lo + Z.of_nat (length xs) - 1)%Z with (lo + Z.of_nat (length xs - 1))%Z by lia.
    rewrite (Sx (length xs - 1)%nat) by lia. cbn [rbind].
    exists (nth (length xs - 1) xs 0), 2%Z, (length xs - 4)%nat, 0. split; [lia|]. split; [same_start|].
    intros ya Ly. rewrite (unint_high xs ya Inc ltac:(lia)) by exact L. do 2 f_equal. rewrite Cf by lia.
    rewrite (par_at_node xs ya Inc Len (length xs - 4 + 2)%nat (length xs - 1)%nat) by lia. ring.
  - destruct j as [|j].
    + unfold bq_search. rewrite Ct. rewrite (first_ge_some T x xs (length xs) lo 0 Sg (le_n _)) by (try lia; lra).
      cbn [rbind Z.of_nat]. rewrite Z.add_0_r, S0. cbn [rbind].
      replace (lo <? lo + 1)%Z with true by (symmetry; apply Z.ltb_lt; lia). rewrite eqb_true by lra. cbn [andb negb].
      replace (lo <=? lo + 1)%Z with true by (symmetry; apply Z.leb_le; lia).
      exists x, 0%Z, 0%nat, 1. split; [lia|]. split; [same_start|].
      intros ya Ly. subst x. rewrite (unint_node xs ya Inc ltac:(lia)) by lia. do 2 f_equal. rewrite Cf by lia.
      rewrite (par_at_node xs ya Inc Len (0 + 1)%nat 0%nat) by lia. ring.
    + apply (Main (S j)); [exact K| |lra|lia]. intros m Hm. rewrite E. apply Inc. lia.
  - apply (Main (j + 1)%nat); [exact K| |lra|lia]. intros m Hm.
    destruct (Nat.eq_dec m j) as [->|N]; [exact K1|]. pose proof (Inc m j ltac:(lia)). lra.
Qed.

Lemma int_of_IZR z : int_of (IZR z) = z.
Proof.
  assert (I : forall a, Int_part (IZR a) = a).
  { intro a. unfold Int_part. rewrite <- (tech_up (IZR a) (a + 1)); [lia|apply IZR_lt; lia|rewrite plus_IZR; lra]. }
  unfold int_of. destruct (leb 0 (IZR z)); [apply I|]. rewrite <- opp_IZR, I. lia.
Qed.

Lemma nth_concat (rows : list (list R)) n : (forall r, In r rows -> length r = n) -> forall a b, (a < length rows)%nat ->
  (b < n)%nat -> nth (a * n + b) (concat rows) 0 = nth b (nth a rows []) 0.
Proof.
  induction rows as [|r rows IH]; intros Hl a b Ha Hb; cbn [length] in Ha; [lia|].
  cbn [concat]. pose proof (Hl r (or_introl eq_refl)) as Lr. destruct a as [|a].
  - cbn [Nat.mul Nat.add nth]. rewrite app_nth1 by lia. reflexivity.
  - cbn [nth]. rewrite app_nth2 by (cbn; lia). replace (S a * n + b - length r)%nat with (a * n + b)%nat by (cbn; lia).
    apply IH; [intros s Hs; apply Hl; now right|lia|exact Hb].
Qed.

Lemma concat_length_rows (rows : list (list R)) n : (forall r, In r rows -> length r = n) -> length (concat rows) = (length rows * n)%nat.
Proof.
  induction rows as [|r rows IH]; intro H; [reflexivity|]. cbn [concat length]. rewrite app_length, IH, (H r (or_introl eq_refl)).
  - cbn. lia.
  - intros s Hs. apply H. now right.
Qed.

Definition column (rows : list (list R)) (j : nat) : list R := map (fun r => nth j r 0) rows.

Lemma nth_column rows j a : (a < length rows)%nat -> nth a (column rows j) 0 = nth j (nth a rows []) 0.
Proof.
  intro H. unfold column. rewrite (nth_indep _ 0 (nth j [] 0)) by (rewrite map_length; exact H).
  apply (map_nth (fun r => nth j r 0)).
Qed.

(** The bivariate routine is the univariate routine along x for every y, followed by the univariate routine along y. *)
Lemma biquad_tensor pre xs ys rows post x y : increasing xs -> increasing ys -> (4 <= length xs)%nat -> (4 <= length ys)%nat ->
  length rows = length xs -> (forall r, In r rows -> length r = length ys) ->
  exists kx ky z,
    (forall ya, (length xs <= length ya)%nat -> exists v, unint xs ya x = Ok (v, kx)) /\
    unint ys (map (fun j => unint_val xs (column rows j) x) (seq 0 (length ys))) y = Ok (z, ky) /\
    biquad (pre ++ IZR (Z.of_nat (length xs)) :: IZR (Z.of_nat (length ys)) :: xs ++ ys ++ concat rows ++ post)
      (Z.of_nat (length pre)) x y = Ok (z, (kx + 3 * ky)%Z).
Proof.
  intros Ix Iy Lx Ly Lr Lc. set (T := pre ++ _). set (i := Z.of_nat (length pre)).
  set (nx := length xs) in *. set (ny := length ys) in *.
  assert (Sx : segment T (i + 2) xs).
  { unfold T, i. replace (Z.of_nat (length pre) + 2)%Z with (Z.of_nat (length (pre ++ [IZR (Z.of_nat nx); IZR (Z.of_nat ny)])))
      by (rewrite app_length; cbn; lia).
    replace (pre ++ _) with ((pre ++ [IZR (Z.of_nat nx); IZR (Z.of_nat ny)]) ++ xs ++ ys ++ concat rows ++ post)
      by (rewrite <- app_assoc; reflexivity). apply segment_app. }
  assert (Sy : segment T (i + 2 + Z.of_nat nx) ys).
  { unfold T, i. replace (Z.of_nat (length pre) + 2 + Z.of_nat nx)%Z with
      (Z.of_nat (length (pre ++ IZR (Z.of_nat nx) :: IZR (Z.of_nat ny) :: xs))) by (rewrite app_length; cbn; fold nx; lia).
    replace (pre ++ _) with ((pre ++ IZR (Z.of_nat nx) :: IZR (Z.of_nat ny) :: xs) ++ ys ++ concat rows ++ post)
      by (rewrite <- app_assoc; reflexivity). apply segment_app. }
  assert (Sv : segment T (i + 2 + Z.of_nat nx + Z.of_nat ny) (concat rows)).
  { unfold T, i. replace (Z.of_nat (length pre) + 2 + Z.of_nat nx + Z.of_nat ny)%Z with
      (Z.of_nat (length (pre ++ IZR (Z.of_nat nx) :: IZR (Z.of_nat ny) :: xs ++ ys)))
      by (rewrite app_length; cbn; rewrite app_length; fold nx ny; lia).
    replace (pre ++ _) with ((pre ++ IZR (Z.of_nat nx) :: IZR (Z.of_nat ny) :: xs ++ ys) ++ concat rows ++ post)
      by (rewrite <- app_assoc; cbn; rewrite <- app_assoc; reflexivity). apply segment_app. }
  assert (T0 : pyget T i = Ok (IZR (Z.of_nat nx))).
  { rewrite (pyget_z T i (length pre) 0); [|reflexivity|unfold T; rewrite app_length; cbn; lia].
    unfold T. rewrite app_nth2 by lia. rewrite Nat.sub_diag. reflexivity. }
  assert (T1 : pyget T (i + 1) = Ok (IZR (Z.of_nat ny))).
  { rewrite (pyget_z T (i + 1) (length pre + 1) 0); [|unfold i; lia|unfold T; rewrite app_length; cbn; lia].
    unfold T. rewrite app_nth2 by lia. replace (length pre + 1 - length pre)%nat with 1%nat by lia. reflexivity. }
  destruct (stencil T (i + 2) xs x Sx Ix Lx) as (x' & kx & jx & ra & Jx & Bx & Ux).
  destruct (stencil T (i + 2 + Z.of_nat nx) ys y Sy Iy Ly) as (y' & ky & jy & ray & Jy & By & Uy).
  exists kx, ky. eexists. split; [intros ya Hl; eexists; apply Ux; exact Hl|].
  split; [apply Uy; rewrite map_length, seq_length; lia|].
  unfold biquad. rewrite T0, T1. cbn [rbind]. rewrite !int_of_IZR. fold nx ny in Bx, By, Jx, Jy.
  rewrite Bx. cbn [rbind]. rewrite (four_of_segment T (i + 2) xs jx Sx) by exact Jx. cbn [rbind].
  replace (Z.of_nat ny =? 0)%Z with false by (symmetry; apply Z.eqb_neq; lia).
  replace (i + 2 + Z.of_nat nx - 1 + 1)%Z with (i + 2 + Z.of_nat nx)%Z by lia.
  rewrite By. cbn [rbind].
  assert (Vc : forall m, (m < 4)%nat ->
    four_of T (i + 2 + Z.of_nat nx + Z.of_nat ny - 1 + 1 + (i + 2 + Z.of_nat jx - i - 2) * Z.of_nat ny +
      (i + 2 + Z.of_nat nx + Z.of_nat jy - (i + 2 + Z.of_nat nx)) + Z.of_nat m) (Z.of_nat ny)
    = Ok (nth4 (column rows (jy + m)) jx)).
  { intros m Hm. unfold four_of, nth4.
    assert (P : forall a, (a < 4)%nat -> pyget T (i + 2 + Z.of_nat nx + Z.of_nat ny - 1 + 1 + (i + 2 + Z.of_nat jx - i - 2) * Z.of_nat ny +
      (i + 2 + Z.of_nat nx + Z.of_nat jy - (i + 2 + Z.of_nat nx)) + Z.of_nat m + Z.of_nat a * Z.of_nat ny)
      = Ok (nth (jx + a) (column rows (jy + m)) 0)).
    { intros a Ha. rewrite nth_column by (fold nx in Lr; lia). rewrite <- (nth_concat rows ny Lc) by lia.
      rewrite <- Sv.
      - f_equal. rewrite Nat2Z.inj_add, Nat2Z.inj_mul. lia.
      - rewrite (concat_length_rows rows ny Lc). fold nx in Lr. rewrite Lr.
        apply Nat.lt_le_trans with ((jx + a) * ny + ny)%nat; [lia|]. replace ((jx + a) * ny + ny)%nat with ((jx + a + 1) * ny)%nat by lia.
        apply Nat.mul_le_mono_r. lia. }
    pose proof (P 0%nat ltac:(lia)) as P0. pose proof (P 1%nat ltac:(lia)) as P1. pose proof (P 2%nat ltac:(lia)) as P2.
    pose proof (P 3%nat ltac:(lia)) as P3. change (Z.of_nat 0) with 0%Z in P0. rewrite Z.mul_0_l, Z.add_0_r, Nat.add_0_r in P0.
    change (Z.of_nat 1) with 1%Z in P1. rewrite Z.mul_1_l in P1. change (Z.of_nat 2) with 2%Z in P2. change (Z.of_nat 3) with 3%Z in P3.
    rewrite P0. cbn [rbind]. rewrite P1. cbn [rbind]. rewrite P2. cbn [rbind]. rewrite P3. reflexivity. }
  pose proof (Vc 0%nat ltac:(lia)) as V0. change (Z.of_nat 0) with 0%Z in V0. rewrite Z.add_0_r in V0.
  rewrite V0. cbn [rbind].
  pose proof (Vc 1%nat ltac:(lia)) as V1. change (Z.of_nat 1) with 1%Z in V1. rewrite V1. cbn [rbind].
  pose proof (Vc 2%nat ltac:(lia)) as V2. change (Z.of_nat 2) with 2%Z in V2. rewrite V2. cbn [rbind].
  pose proof (Vc 3%nat ltac:(lia)) as V3. change (Z.of_nat 3) with 3%Z in V3. rewrite V3. cbn [rbind].
  rewrite (four_of_segment T _ ys jy Sy) by exact Jy. cbn [rbind].
  assert (N : forall m, (m < 4)%nat -> nth (jy + m) (map (fun j => unint_val xs (column rows j) x) (seq 0 ny)) 0
    = dot4 (coef_of (nth4 xs jx) ra x') (nth4 (column rows (jy + m)) jx)).
  { intros m Hm. rewrite (nth_indep _ 0 (unint_val xs (column rows 0) x)) by (rewrite map_length, seq_length; lia).
    rewrite (map_nth (fun j => unint_val xs (column rows j) x)), seq_nth by lia. unfold unint_val. rewrite Ux.
    - reflexivity.
    - unfold column. rewrite map_length. fold nx in Lr. fold nx. lia. }
  pose proof (N 0%nat ltac:(lia)) as N0. rewrite Nat.add_0_r in N0. 
  assert (N4 : nth4 (map (fun j => unint_val xs (column rows j) x) (seq 0 ny)) jy =
    (dot4 (coef_of (nth4 xs jx) ra x') (nth4 (column rows (jy + 0)) jx), dot4 (coef_of (nth4 xs jx) ra x') (nth4 (column rows (jy + 1)) jx),
     dot4 (coef_of (nth4 xs jx) ra x') (nth4 (column rows (jy + 2)) jx), dot4 (coef_of (nth4 xs jx) ra x') (nth4 (column rows (jy + 3)) jx))).
  { unfold nth4 at 1. rewrite N0, (N 1%nat), (N 2%nat), (N 3%nat) by lia. rewrite ?Nat.add_0_r. reflexivity. }
  rewrite N4. reflexivity.
Qed.
