(** Array bookkeeping of numpy and OpenMDAO: sparse Jacobians given by rows, columns and values, numpy index arrays,
    running sums and the banded matrices that differentiate them. *)
From Coq Require Import Reals Lra Lia.
From Coquelicot Require Import Coquelicot.
From Verif Require Import Base MathModel MathProofs Comp Vec CompMore.
Open Scope list_scope.
Open Scope string_scope.
Local Open Scope R_scope.

(** declare_partials(of, wrt, rows = rows, cols = cols) with [n] entries, after the values were assigned. *)
Definition sparse (n : nat) (rows cols : nat -> nat) (vals : nat -> R) (r c : nat) : R :=
  vsum n (fun p => if Nat.eqb (rows p) r && Nat.eqb (cols p) c then vals p else 0).

(** numpy index arrays as functions of the position: repeat(x, b), tile(x, n) with n = len(x). *)
Definition np_repeat {A} (x : nat -> A) (b p : nat) : A := x (p / b)%nat.
Definition np_tile {A} (x : nat -> A) (n p : nat) : A := x (p mod n)%nat.

Lemma vsum_zero n f : (forall k, (k < n)%nat -> f k = 0) -> vsum n f = 0.
Proof. induction n; intro H; [reflexivity|]. cbn. rewrite IHn, H by (intros; try apply H; lia). lra. Qed.

Lemma vsum_only n f p : (p < n)%nat -> (forall k, (k < n)%nat -> k <> p -> f k = 0) -> vsum n f = f p.
Proof.
  intros P H. rewrite <- (vsum_single n p (f p) P). apply vsum_ext. intros k K.
  destruct (Nat.eqb_spec k p) as [->|N]; [reflexivity|auto].
Qed.

Lemma sparse_only n rows cols vals r c p : (p < n)%nat -> rows p = r -> cols p = c ->
  (forall q, (q < n)%nat -> rows q = r -> cols q = c -> q = p) -> sparse n rows cols vals r c = vals p.
Proof.
  intros P R C U. unfold sparse. rewrite (vsum_only _ _ p P).
  - now rewrite R, C, !Nat.eqb_refl.
  - intros q Q N. destruct (Nat.eqb_spec (rows q) r), (Nat.eqb_spec (cols q) c); cbn; try reflexivity.
    exfalso. auto.
Qed.

Lemma sparse_none n rows cols vals r c : (forall q, (q < n)%nat -> rows q = r -> cols q = c -> False) ->
  sparse n rows cols vals r c = 0.
Proof.
  intro U. apply vsum_zero. intros q Q. destruct (Nat.eqb_spec (rows q) r), (Nat.eqb_spec (cols q) c); cbn; try reflexivity.
  exfalso. eauto.
Qed.

(** Arrays of shape (n, m) are stored row by row. *)
Lemma div_pair a b m : (b < m)%nat -> ((a * m + b) / m = a)%nat.
Proof. intro H. symmetry. apply (Nat.div_unique _ _ _ b); lia. Qed.
Lemma mod_pair a b m : (b < m)%nat -> ((a * m + b) mod m = b)%nat.
Proof. intro H. symmetry. apply (Nat.mod_unique _ _ a); lia. Qed.
Lemma pair_of p m : (0 < m)%nat -> (p = (p / m) * m + p mod m)%nat.
Proof. intro H. rewrite (Nat.div_mod p m) at 1 by lia. lia. Qed.
Lemma pair_lt k j n m : (k < n)%nat -> (j < m)%nat -> (k * m + j < n * m)%nat.
Proof. intros. nia. Qed.
Lemma div_lt p n m : (p < n * m)%nat -> (p / m < n)%nat.
Proof. intro H. apply Nat.div_lt_upper_bound; nia. Qed.
Lemma mod_lt p n m : (p < n * m)%nat -> (p mod m < m)%nat.
Proof. intro H. apply Nat.mod_upper_bound. nia. Qed.

Lemma vsum_shift n f : vsum (S n) f = f 0%nat + vsum n (fun k => f (S k)).
Proof. induction n; [cbn; ring|]. change (vsum (S (S n)) f) with (vsum (S n) f + f (S n)). rewrite IHn. cbn. ring. Qed.

Lemma vsum_split n m f : vsum (n + m) f = vsum n f + vsum m (fun k => f (n + k)%nat).
Proof. induction m; [rewrite Nat.add_0_r; cbn; ring|]. rewrite Nat.add_succ_r. cbn. rewrite IHm. ring. Qed.

Lemma vsum_opp n f : vsum n (fun k => - f k) = - vsum n f.
Proof. induction n; cbn; [ring|rewrite IHn; ring]. Qed.

Lemma vsum_nonneg n f : (forall k, (k < n)%nat -> 0 <= f k) -> 0 <= vsum n f.
Proof. induction n; intro H; cbn; [lra|]. assert (0 <= f n) by (apply H; lia). assert (0 <= vsum n f) by (apply IHn; intros; apply H; lia). lra. Qed.

(** ** Running sums *)
(** np.tri(nn) *)
Definition tri (k r : nat) : R := if Nat.leb r k then 1 else 0.
(** Matrix product A @ B for matrices with nn columns and rows. *)
Definition matmul (nn : nat) (a b : nat -> nat -> R) (k l : nat) : R := vsum nn (fun r => a k r * b r l).
(** np.fill_diagonal(m[1:, :-1], first) and np.fill_diagonal(m[1:, 1:], second) on a matrix of zeros. *)
Definition two_diagonals (first second : nat -> R) (r c : nat) : R :=
  match r with
  | O => 0
  | S j => if Nat.eqb c j then first j else if Nat.eqb c (S j) then second j else 0
  end.
(** A matrix stored at the positions np.tril_indices(nn). *)
Definition lower (m : nat -> nat -> R) (k l : nat) : R := if Nat.leb l k then m k l else 0.

Lemma tri_mul nn m k l : (k < nn)%nat -> matmul nn tri m k l = vsum (S k) (fun r => m r l).
Proof.
  intro K. unfold matmul. replace nn with (S k + (nn - S k))%nat by lia. rewrite vsum_split.
  rewrite (vsum_zero (nn - S k)).
  - rewrite Rplus_0_r. apply vsum_ext. intros r R. unfold tri. destruct (Nat.leb_spec r k); [ring|lia].
  - intros r R. unfold tri. destruct (Nat.leb_spec (S k + r) k); [lia|ring].
Qed.

Lemma tri_diagonals nn first second k l : (k < nn)%nat ->
  lower (matmul nn tri (two_diagonals first second)) k l = vsum k (fun j => two_diagonals first second (S j) l).
Proof.
  intro K. unfold lower. rewrite tri_mul by assumption. rewrite vsum_shift. cbn [two_diagonals].
  destruct (Nat.leb_spec l k); [ring|]. symmetry. apply vsum_zero. intros j J.
  destruct (Nat.eqb_spec l j); [lia|]. destruct (Nat.eqb_spec l (S j)); [lia|]. reflexivity.
Qed.

Lemma vupd_same e x l t : vupd e x l t x l = t.
Proof. unfold vupd. now rewrite String.eqb_refl, Nat.eqb_refl. Qed.
Lemma vupd_index e x l t y k : k <> l -> vupd e x l t y k = e y k.
Proof. intro N. unfold vupd. destruct (String.eqb y x); [|reflexivity]. cbn. destruct (Nat.eqb_spec k l); [contradiction|reflexivity]. Qed.
Lemma vupd_name e x l t y k : y <> x -> vupd e x l t y k = e y k.
Proof. intro N. unfold vupd. destruct (String.eqb_spec y x); [contradiction|reflexivity]. Qed.
