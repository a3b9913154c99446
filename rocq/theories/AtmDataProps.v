(** The shipped atmosphere tables: what the cubics guarantee at every altitude of the table. *)
From Coq Require Import QArith Qreals Reals Lra Lia Psatz.
From Coquelicot Require Import Coquelicot.
From Verif Require Import Base Calc Comp AtmModel AtmProps AtmData.
Open Scope list_scope.
Local Open Scope R_scope.

(** ** Checks on exact rationals *)
Definition ltq (a b : Q) : bool := negb (Qle_bool b a).
Lemma ltq_R a b : ltq a b = true -> Q2R a < Q2R b.
Proof.
  unfold ltq. intro H. apply Qlt_Rlt. apply Qnot_le_lt. intro L. apply Qle_bool_iff in L. rewrite L in H. discriminate.
Qed.
Lemma leq_R a b : Qle_bool a b = true -> Q2R a <= Q2R b.
Proof. intro H. apply Qle_Rle. now apply Qle_bool_iff. Qed.

Definition width (q : tableQ) (i : nat) : Q := Qminus (nth i (q_alt q) 0%Q) (nth (pred i) (q_alt q) 0%Q).
Definition row (f : tableQ -> list coefQ) (q : tableQ) (i : nat) : coefQ := nth i (f q) zeroQ4.

(** Bernstein coefficients of a cubic on [0, w] *)
Definition b1 (c : coefQ) (w : Q) : Q := Qplus (j0 c) (Qmult (Qmult (j1 c) w) (1 # 3)).
Definition b2 (c : coefQ) (w : Q) : Q := Qplus (j0 c) (Qplus (Qmult (Qmult (j1 c) w) (2 # 3)) (Qmult (Qmult (j2 c) (Qmult w w)) (1 # 3))).
Definition b3 (c : coefQ) (w : Q) : Q := Qplus (j0 c) (Qmult w (Qplus (j1 c) (Qmult w (Qplus (j2 c) (Qmult w (j3 c)))))).

Definition inside (q : tableQ) : list nat := seq 1 (pred (length (q_alt q))).
Definition check_sorted (q : tableQ) : bool := forallb (fun i => ltq 0 (width q i)) (inside q).
Definition check_positive (f : tableQ -> list coefQ) (q : tableQ) : bool :=
  ltq 0 (j0 (row f q 0)) &&
  forallb (fun i => let c := row f q i in let w := width q i in ltq 0 (j0 c) && ltq 0 (b1 c w) && ltq 0 (b2 c w) && ltq 0 (b3 c w)) (inside q).
Definition check_decreasing (f : tableQ -> list coefQ) (q : tableQ) : bool :=
  forallb (fun i => let c := row f q i in let w := width q i in ltq (b1 c w) (j0 c) && ltq (b2 c w) (b1 c w) && ltq (b3 c w) (b2 c w)) (inside q).
(** Neighbouring cubics meet up to a relative tolerance. *)
Definition tolerance : Q := 1 # 1000000000000.
Definition check_joined (f : tableQ -> list coefQ) (q : tableQ) : bool :=
  (let a := j0 (row f q 0) in let b := j0 (row f q 1) in Qle_bool b (Qmult a (Qplus 1 tolerance)) && Qle_bool a (Qmult b (Qplus 1 tolerance))) &&
  forallb (fun i => let a := b3 (row f q i) (width q i) in let b := j0 (row f q (S i)) in
    Qle_bool b (Qmult a (Qplus 1 tolerance)) && Qle_bool a (Qmult b (Qplus 1 tolerance))) (inside q).
Definition check_steps (f : tableQ -> list coefQ) (q : tableQ) : bool :=
  forallb (fun i => Qle_bool (j0 (row f q (S i))) (j0 (row f q i))) (seq 0 (pred (length (q_alt q)))).
Definition check_rows (q : tableQ) : bool :=
  let n := length (q_alt q) in Nat.ltb 2 n && Nat.eqb (length (q_T q)) (S n) && Nat.eqb (length (q_P q)) (S n) && Nat.eqb (length (q_rho q)) (S n) && Nat.eqb (length (q_dT q)) (S n).


(** ** The same checks on decimals, without common denominators *)
Open Scope Z_scope.
Definition dadd (a b : decimal) : decimal :=
  if places a <=? places b then dec (10 ^ (places b - places a) * man a + man b) (places b)
  else dec (man a + 10 ^ (places a - places b) * man b) (places a).
Definition dmul (a b : decimal) : decimal := dec (man a * man b) (places a + places b).
Definition dneg (a : decimal) : decimal := dec (- man a) (places a).
Definition dsub (a b : decimal) : decimal := dadd a (dneg b).
Definition dpos (a : decimal) : bool := 0 <? man a.
Definition dnonneg (a : decimal) : bool := 0 <=? man a.
Definition int (k : Z) : decimal := dec k 0.

Definition okd (a : decimal) : Prop := 0 <= places a.
Lemma ten_pos e : 0 <= e -> Z.pos (Z.to_pos (10 ^ e)) = 10 ^ e.
Proof. intro H. apply Z2Pos.id. apply Z.pow_pos_nonneg; lia. Qed.
Lemma dadd_ok a b : okd a -> okd b -> okd (dadd a b).
Proof. unfold okd, dadd. destruct (_ <=? _); cbn; auto. Qed.
Lemma dmul_ok a b : okd a -> okd b -> okd (dmul a b).
Proof. unfold okd. cbn. lia. Qed.
Lemma dneg_ok a : okd a -> okd (dneg a).
Proof. exact (fun H => H). Qed.
Lemma dsub_ok a b : okd a -> okd b -> okd (dsub a b).
Proof. intros A B. apply dadd_ok; [exact A|exact B]. Qed.
Lemma int_ok k : okd (int k).
Proof. unfold okd. cbn. lia. Qed.
Lemma dadd_Q a b : okd a -> okd b -> (decQ (dadd a b) == decQ a + decQ b)%Q.
Proof.
  unfold okd, dadd, decQ, Qeq, Qplus. intros A B. destruct (Z.leb_spec (places a) (places b)) as [L|L]; cbn [man places Qnum Qden].
  - rewrite Pos2Z.inj_mul, !ten_pos by lia. assert (E : 10 ^ places b = 10 ^ (places b - places a) * 10 ^ places a) by (rewrite <- Z.pow_add_r by lia; f_equal; lia).
    rewrite E. ring.
  - rewrite Pos2Z.inj_mul, !ten_pos by lia. assert (E : 10 ^ places a = 10 ^ (places a - places b) * 10 ^ places b) by (rewrite <- Z.pow_add_r by lia; f_equal; lia).
    rewrite E. ring.
Qed.
Lemma dmul_Q a b : okd a -> okd b -> (decQ (dmul a b) == decQ a * decQ b)%Q.
Proof.
  unfold okd, dmul, decQ, Qeq, Qmult. intros A B. cbn [man places Qnum Qden]. rewrite Pos2Z.inj_mul, !ten_pos by lia.
  rewrite Z.pow_add_r by lia. ring.
Qed.
Lemma dneg_Q a : (decQ (dneg a) == - decQ a)%Q.
Proof. unfold dneg, decQ, Qeq, Qopp. cbn [man places Qnum Qden]. ring. Qed.
Lemma dsub_Q a b : okd a -> okd b -> (decQ (dsub a b) == decQ a - decQ b)%Q.
Proof. intros A B. unfold dsub. rewrite dadd_Q by assumption. rewrite dneg_Q. reflexivity. Qed.
Lemma int_Q k : (decQ (int k) == inject_Z k)%Q.
Proof. reflexivity. Qed.
Lemma dpos_Q a : dpos a = true -> (0 < decQ a)%Q.
Proof. unfold dpos, decQ, Qlt. intro H. cbn. apply Z.ltb_lt in H. lia. Qed.
Lemma dnonneg_Q a : dnonneg a = true -> (0 <= decQ a)%Q.
Proof. unfold dnonneg, decQ, Qle. intro H. cbn. apply Z.leb_le in H. lia. Qed.
Lemma ltq_Q a b : (a < b)%Q -> ltq a b = true.
Proof. intro H. unfold ltq. destruct (Qle_bool b a) eqn:E; [|reflexivity]. apply Qle_bool_iff in E. exfalso. apply (Qlt_not_le _ _ H E). Qed.
Lemma leq_Q a b : (a <= b)%Q -> Qle_bool a b = true.
Proof. apply Qle_bool_iff. Qed.

Definition zeroD4 : coefD := q4 (int 0) (int 0) (int 0) (int 0).
Definition width_d (d : tableD) (i : nat) : decimal := dsub (nth i (t_alt d) (int 0)) (nth (pred i) (t_alt d) (int 0)).
Definition row_d (f : tableD -> list coefD) (d : tableD) (i : nat) : coefD := nth i (f d) zeroD4.
(** Three times the second and the third Bernstein coefficient, and the last one *)
Definition e1 (c : coefD) (w : decimal) : decimal := dadd (dmul (int 3) (d0 c)) (dmul w (d1 c)).
Definition e2 (c : coefD) (w : decimal) : decimal := dadd (dmul (int 3) (d0 c)) (dmul w (dadd (dmul (int 2) (d1 c)) (dmul w (d2 c)))).
Definition e3 (c : coefD) (w : decimal) : decimal := dadd (d0 c) (dmul w (dadd (d1 c) (dmul w (dadd (d2 c) (dmul w (d3 c)))))).
Definition inside_d (d : tableD) : list nat := seq 1 (pred (length (t_alt d))).
Definition ok_num (a : decimal) : bool := 0 <=? places a.
Definition ok_coef (c : coefD) : bool := ok_num (d0 c) && ok_num (d1 c) && ok_num (d2 c) && ok_num (d3 c).
Definition check_ok (d : tableD) : bool :=
  forallb ok_num (t_alt d) && forallb ok_coef (t_T d) && forallb ok_coef (t_P d) && forallb ok_coef (t_rho d) && forallb ok_coef (t_dT d).
Definition check_sorted_d (d : tableD) : bool := forallb (fun i => dpos (width_d d i)) (inside_d d).
Definition check_positive_d (f : tableD -> list coefD) (d : tableD) : bool :=
  dpos (d0 (row_d f d 0)) &&
  forallb (fun i => let c := row_d f d i in let w := width_d d i in dpos (d0 c) && dpos (e1 c w) && dpos (e2 c w) && dpos (e3 c w)) (inside_d d).
(** The signs of the differences, divided by the width *)
Definition check_decreasing_d (f : tableD -> list coefD) (d : tableD) : bool :=
  forallb (fun i => let c := row_d f d i in let w := width_d d i in let y := dmul w (d2 c) in
    dpos (dneg (d1 c)) && dpos (dneg (dadd (d1 c) y)) &&
    dpos (dneg (dadd (d1 c) (dadd (dmul (int 2) y) (dmul (int 3) (dmul w (dmul w (d3 c)))))))) (inside_d d).
Definition one_more (a : decimal) : decimal := dmul (dec 1000000000001 12) a.
Definition near (a b : decimal) : bool := dnonneg (dsub (one_more a) b) && dnonneg (dsub (one_more b) a).
Definition check_joined_d (f : tableD -> list coefD) (d : tableD) : bool :=
  near (d0 (row_d f d 0)) (d0 (row_d f d 1)) &&
  forallb (fun i => near (e3 (row_d f d i) (width_d d i)) (d0 (row_d f d (S i)))) (inside_d d).
Definition check_steps_d (f : tableD -> list coefD) (d : tableD) : bool :=
  forallb (fun i => dnonneg (dsub (d0 (row_d f d i)) (d0 (row_d f d (S i))))) (seq 0 (pred (length (t_alt d)))).

Lemma inside_Q d : inside (tableQ_of d) = inside_d d.
Proof. unfold inside, inside_d. cbn [tableQ_of q_alt]. now rewrite map_length. Qed.
Lemma alt_Q d i : nth i (q_alt (tableQ_of d)) 0%Q = decQ (nth i (t_alt d) (int 0)).
Proof. cbn [tableQ_of q_alt]. exact (map_nth decQ (t_alt d) (int 0) i). Qed.
Definition column (f : tableD -> list coefD) (g : tableQ -> list coefQ) : Prop := forall d, g (tableQ_of d) = map coefQ_of (f d).
Lemma row_Q f g d i : column f g -> row g (tableQ_of d) i = coefQ_of (row_d f d i).
Proof. intro H. unfold row, row_d. rewrite H. exact (map_nth coefQ_of (f d) zeroD4 i). Qed.
Lemma ok_nth (l : list decimal) i : forallb ok_num l = true -> okd (nth i l (int 0)).
Proof.
  intro H. rewrite forallb_forall in H. destruct (le_lt_dec (length l) i) as [L|L]; [rewrite nth_overflow by exact L; apply int_ok|].
  apply Z.leb_le. apply (H _ (nth_In _ _ L)).
Qed.
Definition okc (c : coefD) : Prop := okd (d0 c) /\ okd (d1 c) /\ okd (d2 c) /\ okd (d3 c).
Lemma ok_row (l : list coefD) i : forallb ok_coef l = true -> okc (nth i l zeroD4).
Proof.
  intro H. rewrite forallb_forall in H. destruct (le_lt_dec (length l) i) as [L|L]; [rewrite nth_overflow by exact L; repeat split; apply int_ok|].
  specialize (H _ (nth_In l zeroD4 L)). unfold ok_coef in H. rewrite !andb_true_iff in H. unfold okc, okd. unfold ok_num in H. rewrite !Z.leb_le in H. tauto.
Qed.
Lemma width_ok d i : forallb ok_num (t_alt d) = true -> okd (width_d d i).
Proof. intro H. apply dsub_ok; now apply ok_nth. Qed.
Lemma width_Q d i : forallb ok_num (t_alt d) = true -> (width (tableQ_of d) i == decQ (width_d d i))%Q.
Proof. intro H. unfold width, width_d. rewrite !alt_Q. rewrite dsub_Q by (now apply ok_nth). reflexivity. Qed.

Ltac oks := repeat first [assumption | apply dadd_ok | apply dmul_ok | apply dsub_ok | apply int_ok | apply dneg_ok].
Section Row.
  Variables (c : coefD) (w : decimal).
  Hypothesis C : okc c.
  Hypothesis W : okd w.
  Let C0 := proj1 C. Let C1 := proj1 (proj2 C). Let C2 := proj1 (proj2 (proj2 C)). Let C3 := proj2 (proj2 (proj2 C)).
  Lemma e1_Q v : (v == decQ w -> decQ (e1 c w) == 3 * b1 (coefQ_of c) v)%Q.
  Proof. intro E. unfold e1, b1. cbn [coefQ_of j0 j1]. rewrite !dadd_Q, !dmul_Q by oks. rewrite int_Q, E. field. Qed.
  Lemma e2_Q v : (v == decQ w -> decQ (e2 c w) == 3 * b2 (coefQ_of c) v)%Q.
  Proof. intro E. unfold e2, b2. cbn [coefQ_of j0 j1 j2]. rewrite !dadd_Q, !dmul_Q, !dadd_Q, !dmul_Q by oks. rewrite !int_Q, E. field. Qed.
  Lemma e3_Q v : (v == decQ w -> decQ (e3 c w) == b3 (coefQ_of c) v)%Q.
  Proof. intro E. unfold e3, b3. cbn [coefQ_of j0 j1 j2 j3]. rewrite !dadd_Q, !dmul_Q, !dadd_Q, !dmul_Q, !dadd_Q, !dmul_Q by oks. rewrite E. reflexivity. Qed.
  Lemma e3_ok : okd (e3 c w). Proof. unfold e3. oks. Qed.
End Row.

Lemma third x : (0 < 3 * x -> 0 < x)%Q.
Proof. intro H. lra. Qed.

Lemma forallb_imp {A} (f g : A -> bool) l : (forall x, f x = true -> g x = true) -> forallb f l = true -> forallb g l = true.
Proof. intros I H. rewrite forallb_forall in *. intros x X. apply I, H, X. Qed.
Lemma sorted_of d : forallb ok_num (t_alt d) = true -> check_sorted_d d = true -> check_sorted (tableQ_of d) = true.
Proof.
  intros K H. unfold check_sorted. rewrite inside_Q. revert H. apply forallb_imp. intros i P. apply ltq_Q. rewrite width_Q by exact K. now apply dpos_Q.
Qed.
Section Transfer.
  Variables (f : tableD -> list coefD) (g : tableQ -> list coefQ) (d : tableD).
  Hypothesis Fg : column f g.
  Hypothesis Ka : forallb ok_num (t_alt d) = true.
  Hypothesis Kf : forallb ok_coef (f d) = true.
  Lemma positive_of : check_positive_d f d = true -> check_positive g (tableQ_of d) = true.
  Proof.
    unfold check_positive_d, check_positive. rewrite !andb_true_iff. intros (H0 & H). split.
    - rewrite (row_Q f g) by exact Fg. apply ltq_Q. now apply dpos_Q.
    - rewrite inside_Q. revert H. apply forallb_imp. intros i. cbv zeta. rewrite (row_Q f g) by exact Fg.
      pose proof (ok_row (f d) i Kf) as C. pose proof (width_ok d i Ka) as W. pose proof (width_Q d i Ka) as E. rewrite !andb_true_iff. intros (((P0 & P1) & P2) & P3).
      apply dpos_Q in P0, P1, P2, P3. rewrite (e1_Q _ _ C W _ E) in P1. rewrite (e2_Q _ _ C W _ E) in P2. rewrite (e3_Q _ _ C W _ E) in P3.
      repeat split; apply ltq_Q; try assumption; now apply third.
  Qed.
  Lemma near_of a b x y : okd a -> okd b -> (decQ a == x)%Q -> (decQ b == y)%Q -> near a b = true ->
    Qle_bool y (Qmult x (Qplus 1 tolerance)) && Qle_bool x (Qmult y (Qplus 1 tolerance)) = true.
  Proof.
    intros A B X Y H. unfold near in H. rewrite andb_true_iff in *. destruct H as (H1 & H2).
    assert (O : okd (dec 1000000000001 12)) by (unfold okd; cbn; lia).
    assert (T : (decQ (dec 1000000000001 12) == 1 + tolerance)%Q) by reflexivity.
    apply dnonneg_Q in H1, H2. unfold one_more in H1, H2.
    rewrite dsub_Q, dmul_Q, T in H1 by oks. rewrite dsub_Q, dmul_Q, T in H2 by oks. rewrite X, Y in H1, H2.
    split; apply leq_Q; lra.
  Qed.
  Lemma joined_of : check_joined_d f d = true -> check_joined g (tableQ_of d) = true.
  Proof.
    unfold check_joined_d, check_joined. cbv zeta. rewrite !andb_true_iff. intros (H0 & H). rewrite <- andb_true_iff. split.
    - rewrite !(row_Q f g) by exact Fg. apply (near_of _ _ _ _ (proj1 (ok_row (f d) 0 Kf)) (proj1 (ok_row (f d) 1 Kf))); [reflexivity|reflexivity|exact H0].
    - rewrite inside_Q. revert H. apply forallb_imp. intros i P. rewrite !(row_Q f g) by exact Fg.
      pose proof (ok_row (f d) i Kf) as C. pose proof (width_ok d i Ka) as W. pose proof (width_Q d i Ka) as E.
      apply (near_of _ _ _ _ (e3_ok _ _ C W) (proj1 (ok_row (f d) (S i) Kf)) (e3_Q _ _ C W _ E)); [reflexivity|exact P].
  Qed.
  Lemma steps_of : check_steps_d f d = true -> check_steps g (tableQ_of d) = true.
  Proof.
    unfold check_steps_d, check_steps. cbn [tableQ_of q_alt]. rewrite map_length. apply forallb_imp. intros i P. fold (tableQ_of d). rewrite !(row_Q f g) by exact Fg.
    apply dnonneg_Q in P. rewrite dsub_Q in P; [|exact (proj1 (ok_row (f d) i Kf))|exact (proj1 (ok_row (f d) (S i) Kf))].
    apply leq_Q. cbn [coefQ_of j0]. unfold row_d in *. lra.
  Qed.
  Lemma decreasing_of : check_sorted_d d = true -> check_decreasing_d f d = true -> check_decreasing g (tableQ_of d) = true.
  Proof.
    unfold check_sorted_d, check_decreasing_d, check_decreasing. rewrite inside_Q. cbv zeta. rewrite !forallb_forall. intros S H i I. specialize (S i I). specialize (H i I).
    rewrite (row_Q f g) by exact Fg. pose proof (ok_row (f d) i Kf) as C. fold (row_d f d i) in C. pose proof (width_ok d i Ka) as W. pose proof (width_Q d i Ka) as E.
    destruct C as (C0 & C1 & C2 & C3). rewrite !andb_true_iff in *. destruct H as ((H1 & H2) & H3).
    apply dpos_Q in S, H1, H2, H3. rewrite dneg_Q in H1, H2, H3. rewrite dadd_Q, dmul_Q in H2 by oks. rewrite !dadd_Q, !dmul_Q, !int_Q in H3 by oks.
    rewrite <- E in S, H2, H3. set (w := width (tableQ_of d) i) in *. unfold b1, b2, b3. cbn [coefQ_of j0 j1 j2 j3].
    set (x1 := decQ (d1 (row_d f d i))) in *. set (x2 := decQ (d2 (row_d f d i))) in *. set (x3 := decQ (d3 (row_d f d i))) in *.
    pose proof (Qmult_lt_0_compat _ _ S H1). pose proof (Qmult_lt_0_compat _ _ S H2). pose proof (Qmult_lt_0_compat _ _ S H3).
    change (inject_Z 2) with (2 # 1)%Q in *. change (inject_Z 3) with (3 # 1)%Q in *.
    repeat split; apply ltq_Q; nra.
  Qed.
End Transfer.
Lemma col_T : column t_T q_T. Proof. intro d. reflexivity. Qed.
Lemma col_P : column t_P q_P. Proof. intro d. reflexivity. Qed.
Lemma col_rho : column t_rho q_rho. Proof. intro d. reflexivity. Qed.
Lemma check_ok_all d : check_ok d = true ->
  forallb ok_num (t_alt d) = true /\ forallb ok_coef (t_T d) = true /\ forallb ok_coef (t_P d) = true /\ forallb ok_coef (t_rho d) = true.
Proof. unfold check_ok. rewrite !andb_true_iff. tauto. Qed.
Lemma lift (p : tableD -> bool) (q : tableQ -> bool) l : forallb check_ok l = true ->
  (forall d, check_ok d = true -> p d = true -> q (tableQ_of d) = true) -> forallb p l = true -> forallb q (map tableQ_of l) = true.
Proof.
  intros K I H. rewrite forallb_forall in *. intros x X. apply in_map_iff in X. destruct X as (d & <- & D). apply I; auto.
Qed.
Close Scope Z_scope.

(** ** From rationals to reals *)
Lemma Q2R_1 : Q2R 1 = 1. Proof. unfold Q2R. cbn. field. Qed.
Lemma Q2R_0 : Q2R 0 = 0. Proof. unfold Q2R. cbn. field. Qed.
Lemma Q2R_third : Q2R (1 # 3) = 1 / 3. Proof. unfold Q2R. cbn. field. Qed.
Lemma Q2R_thirds : Q2R (2 # 3) = 2 / 3. Proof. unfold Q2R. cbn. field. Qed.
Lemma Q2R_tolerance : Q2R tolerance = / 10 ^ 12. Proof. unfold Q2R, tolerance. cbn. field. Qed.

Local Opaque Q2R.
Section Cubic.
  Variables (c : coefQ) (w : Q).
  Hypothesis W : 0 < Q2R w.
  Let f := cubic_value (coef_of c).
  Lemma b3_end : Q2R (b3 c w) = f (Q2R w).
  Proof. unfold b3, f, cubic_value, coef_of. cbn. rewrite !Q2R_plus, !Q2R_mult, !Q2R_plus, !Q2R_mult, !Q2R_plus, !Q2R_mult. ring. Qed.
  Lemma b1_eq : Q2R (b1 c w) = k0 (coef_of c) + k1 (coef_of c) * Q2R w / 3.
  Proof. unfold b1. cbn. rewrite !Q2R_plus, !Q2R_mult, Q2R_third. field. Qed.
  Lemma b2_eq : Q2R (b2 c w) = k0 (coef_of c) + 2 * k1 (coef_of c) * Q2R w / 3 + k2 (coef_of c) * Q2R w ^ 2 / 3.
  Proof. unfold b2. cbn. rewrite !Q2R_plus, !Q2R_mult, Q2R_third, Q2R_thirds. field. Qed.

  Lemma bernstein_value x :
    f x * Q2R w ^ 3 = Q2R (j0 c) * (Q2R w - x) ^ 3 + 3 * Q2R (b1 c w) * x * (Q2R w - x) ^ 2 + 3 * Q2R (b2 c w) * x ^ 2 * (Q2R w - x) + Q2R (b3 c w) * x ^ 3.
  Proof. rewrite b1_eq, b2_eq, b3_end. unfold f, cubic_value. cbn. field. Qed.
  Lemma bernstein_slope x :
    cubic_slope (coef_of c) x * Q2R w ^ 3
    = 3 * ((Q2R (b1 c w) - Q2R (j0 c)) * (Q2R w - x) ^ 2 + 2 * (Q2R (b2 c w) - Q2R (b1 c w)) * x * (Q2R w - x) + (Q2R (b3 c w) - Q2R (b2 c w)) * x ^ 2).
  Proof. rewrite b1_eq, b2_eq, b3_end. unfold f, cubic_value, cubic_slope. cbn. field. Qed.

  Lemma positive_row x : ltq 0 (j0 c) = true -> ltq 0 (b1 c w) = true -> ltq 0 (b2 c w) = true -> ltq 0 (b3 c w) = true ->
    0 <= x <= Q2R w -> 0 < f x.
  Proof.
    intros A B C D X. apply ltq_R in A, B, C, D. rewrite Q2R_0 in *.
    apply (Rmult_lt_reg_r (Q2R w ^ 3)); [apply pow_lt, W|]. rewrite Rmult_0_l, bernstein_value.
    set (u := Q2R w - x). assert (U : 0 <= u) by (unfold u; lra).
    assert (0 <= Q2R (j0 c) * u ^ 3) by (apply Rmult_le_pos; [lra|now apply pow_le]).
    assert (0 <= 3 * Q2R (b1 c w) * x * u ^ 2) by (repeat apply Rmult_le_pos; try lra; now apply pow_le).
    assert (0 <= 3 * Q2R (b2 c w) * x ^ 2 * u) by (repeat apply Rmult_le_pos; lra).
    assert (0 <= Q2R (b3 c w) * x ^ 3) by (apply Rmult_le_pos; [lra|apply pow_le; lra]).
    destruct (Rle_lt_dec x 0) as [L|L].
    - assert (0 < Q2R (j0 c) * u ^ 3) by (apply Rmult_lt_0_compat; [lra|apply pow_lt; unfold u; lra]). lra.
    - assert (0 < Q2R (b3 c w) * x ^ 3) by (apply Rmult_lt_0_compat; [lra|now apply pow_lt]). lra.
  Qed.

  Lemma decreasing_row x y : ltq (b1 c w) (j0 c) = true -> ltq (b2 c w) (b1 c w) = true -> ltq (b3 c w) (b2 c w) = true ->
    0 <= x -> x < y -> y <= Q2R w -> f y < f x.
  Proof.
    intros A B C X XY Y. apply ltq_R in A, B, C.
    assert (S : forall z, x <= z <= y -> cubic_slope (coef_of c) z < 0).
    { intros z Z. apply (Rmult_lt_reg_r (Q2R w ^ 3)); [apply pow_lt, W|]. rewrite Rmult_0_l, bernstein_slope.
      set (u := Q2R w - z). assert (U : 0 <= u) by (unfold u; lra).
      assert (0 <= (Q2R (j0 c) - Q2R (b1 c w)) * u ^ 2) by (apply Rmult_le_pos; [lra|now apply pow_le]).
      assert (0 <= 2 * (Q2R (b1 c w) - Q2R (b2 c w)) * z * u) by (repeat apply Rmult_le_pos; lra).
      assert (0 <= (Q2R (b2 c w) - Q2R (b3 c w)) * z ^ 2) by (apply Rmult_le_pos; [lra|apply pow_le; lra]).
      destruct (Rle_lt_dec z 0) as [L|L].
      - assert (0 < (Q2R (j0 c) - Q2R (b1 c w)) * u ^ 2) by (apply Rmult_lt_0_compat; [lra|apply pow_lt; unfold u; lra]). lra.
      - assert (0 < (Q2R (b2 c w) - Q2R (b3 c w)) * z ^ 2) by (apply Rmult_lt_0_compat; [lra|now apply pow_lt]). lra. }
    destruct (MVT_gen f x y (cubic_slope (coef_of c))) as (z & Z & E).
    - intros z Z. apply cubic_derive.
    - intros z Z. apply continuity_pt_filterlim, (ex_derive_continuous f). eexists. apply cubic_derive.
    - rewrite Rmin_left, Rmax_right in Z by lra. specialize (S z Z). nra.
  Qed.
End Cubic.

(** ** The bins of a table *)
Section Table.
  Variable q : tableQ.
  Let n := length (q_alt q).
  Let t := table_of q.
  Definition low : R := Q2R (nth 0 (q_alt q) 0%Q).
  Definition high : R := Q2R (nth (pred n) (q_alt q) 0%Q).
  Hypothesis Rows : check_rows q = true.
  Hypothesis Sorted : check_sorted q = true.

  Lemma long : (2 < n)%nat.
  Proof. pose proof Rows as H. unfold check_rows in H. rewrite !andb_true_iff in H. apply Nat.ltb_lt. unfold n. tauto. Qed.
  Lemma in_inside i : In i (inside q) <-> (1 <= i < n)%nat.
  Proof. pose proof long. unfold inside. rewrite in_seq. fold n. lia. Qed.
  Lemma width_R i : (1 <= i < n)%nat -> Q2R (width q i) = alt t i - alt t (pred i) /\ 0 < Q2R (width q i).
  Proof.
    intro I. split; [unfold width; rewrite Q2R_minus; reflexivity|].
    pose proof Sorted as S. unfold check_sorted in S. rewrite forallb_forall in S. specialize (S i (proj2 (in_inside i) I)). apply ltq_R in S. now rewrite Q2R_0 in S.
  Qed.
  Lemma table_sorted : sorted t.
  Proof.
    assert (A : forall d i, (i + S d < n)%nat -> alt t i < alt t (i + S d)).
    { induction d as [|d IH]; intros i I.
      - destruct (width_R (i + 1) ltac:(lia)) as (E & P). replace (pred (i + 1)) with i in E by lia. lra.
      - specialize (IH i ltac:(lia)). destruct (width_R (i + S (S d)) ltac:(lia)) as (E & P). replace (pred (i + S (S d))) with (i + S d)%nat in E by lia. lra. }
    intros i j (L & H). change (size t) with n in H. replace j with (i + S (j - i - 1))%nat by lia. apply A. lia.
  Qed.

  (** Inside the table the look-up evaluates the cubic of the bin between its two altitudes. *)
  Lemma look_inside h : low <= h <= high ->
    (h = low /\ bin t h = 0%nat /\ offset t h = 0) \/
    ((1 <= bin t h < n)%nat /\ 0 < offset t h <= Q2R (width q (bin t h))).
  Proof.
    intro H. pose proof long as Ln. destruct (bin_spec t h) as (A & B & C). change (size t) with n in *.
    assert (L : (bin t h < n)%nat).
    { destruct (Nat.eq_dec (bin t h) n) as [E|]; [|lia]. specialize (B (pred n) ltac:(lia)). change (alt t (pred n)) with high in B. lra. }
    specialize (C L). unfold offset. destruct (bin t h) as [|i] eqn:E.
    - left. change (alt t 0%nat) with low in C. cbn [bin_left]. change (alt t 0%nat) with low. repeat split; lra.
    - right. split; [lia|]. destruct (width_R (S i) ltac:(lia)) as (W & _). cbn [pred] in W. specialize (B i ltac:(lia)). cbn [bin_left]. lra.
  Qed.

  Section Column.
    Variables (g : tableQ -> list coefQ) (f : table -> nat -> coef).
    Hypothesis F : forall i, f t i = coef_of (row g q i).

    Lemma table_positive h : check_positive g q = true -> low <= h <= high -> 0 < look t f h.
    Proof.
      intros P H. unfold check_positive in P. apply andb_true_iff in P. destruct P as (P0 & P). unfold look. rewrite F.
      destruct (look_inside h H) as [(_ & -> & ->)|(I & O)].
      - unfold cubic_value. cbn. apply ltq_R in P0. rewrite Q2R_0 in P0. lra.
      - rewrite forallb_forall in P. specialize (P _ (proj2 (in_inside _) I)). cbv zeta in P. rewrite !andb_true_iff in P. destruct P as (((P1 & P2) & P3) & P4).
        apply (positive_row _ (width q (bin t h))); try assumption; [apply width_R, I|lra].
    Qed.

    Lemma joined_R a b : Qle_bool b (Qmult a (Qplus 1 tolerance)) && Qle_bool a (Qmult b (Qplus 1 tolerance)) = true ->
      Q2R b <= Q2R a * (1 + / 10 ^ 12) /\ Q2R a <= Q2R b * (1 + / 10 ^ 12).
    Proof.
      intro H. apply andb_true_iff in H. destruct H as (A & B). apply leq_R in A, B. rewrite Q2R_mult, Q2R_plus, Q2R_1, Q2R_tolerance in A, B. split; assumption.
    Qed.

    (** The right limit at an altitude of the table is the first coefficient of the next bin. *)
    Lemma look_at i : (i < n)%nat -> look t f (alt t i) = match i with O => Q2R (j0 (row g q 0)) | S _ => Q2R (b3 (row g q i) (width q i)) end.
    Proof.
      intro I. assert (B : bin t (alt t i) = i).
      { apply (C35_bin t _ table_sorted). split; [change (size t) with n; lia|split].
        - intros j J. apply table_sorted. change (size t) with n. lia.
        - intros j J. change (size t) with n in J. destruct (Nat.eq_dec i j) as [->|N]; [lra|]. left. apply table_sorted. change (size t) with n. lia. }
      unfold look, offset. rewrite B, F. destruct i as [|i].
      - cbn [bin_left]. unfold cubic_value. cbn. ring.
      - destruct (width_R (S i) ltac:(lia)) as (W & _). cbn [bin_left pred] in *. rewrite b3_end, W. reflexivity.
    Qed.
    Lemma table_joined i : check_joined g q = true -> (i < n)%nat ->
      let v := look t f (alt t i) in let r := k0 (f t (S i)) in r <= v * (1 + / 10 ^ 12) /\ v <= r * (1 + / 10 ^ 12).
    Proof.
      intros J I. cbv zeta. rewrite look_at by exact I. rewrite F. change (k0 (coef_of (row g q (S i)))) with (Q2R (j0 (row g q (S i)))).
      unfold check_joined in J. cbv zeta in J. rewrite andb_true_iff in J. destruct J as (J0 & J). rewrite forallb_forall in J.
      destruct i as [|i]; apply joined_R; [exact J0|]. apply (J (S i)). apply in_inside. lia.
    Qed.

    Lemma steps i j : check_steps g q = true -> (i <= j)%nat -> (j < n)%nat -> Q2R (j0 (row g q j)) <= Q2R (j0 (row g q i)).
    Proof.
      intros S L J. unfold check_steps in S. rewrite forallb_forall in S. fold n in S. induction j as [|j IH].
      - replace i with 0%nat by lia. lra.
      - destruct (Nat.eq_dec i (Datatypes.S j)) as [->|N]; [lra|]. specialize (IH ltac:(lia) ltac:(lia)).
        specialize (S j ltac:(apply in_seq; lia)). apply leq_R in S. lra.
    Qed.

    Lemma table_decreasing h k : check_positive g q = true -> check_decreasing g q = true -> check_joined g q = true -> check_steps g q = true ->
      low <= h -> h < k -> k <= high ->
      look t f k < look t f h * (1 + / 10 ^ 12) /\ (bin t h = bin t k -> look t f k < look t f h).
    Proof.
      intros P D J Sp H HK K.
      assert (Ph : 0 < look t f h) by (apply table_positive; [exact P|lra]).
      assert (Pe : 0 < / 10 ^ 12) by (apply Rinv_0_lt_compat; lra).
      assert (Big : look t f h < look t f h * (1 + / 10 ^ 12)) by nra.
      pose proof (look_inside h ltac:(lra)) as Bh. pose proof (look_inside k ltac:(lra)) as Bk.
      assert (Bk' : (1 <= bin t k < n)%nat /\ 0 < offset t k <= Q2R (width q (bin t k))) by (destruct Bk as [(E & _)|Bk]; [lra|exact Bk]). clear Bk. destruct Bk' as (Ik & Ok).
      destruct (width_R _ Ik) as (Wk & Wp).
      pose proof D as D'. unfold check_decreasing in D'. rewrite forallb_forall in D'.
      pose proof (D' _ (proj2 (in_inside _) Ik)) as Dk. cbv zeta in Dk. rewrite !andb_true_iff in Dk. destruct Dk as ((D1 & D2) & D3).
      assert (Hk : look t f k < Q2R (j0 (row g q (bin t k)))).
      { unfold look. rewrite F. eapply Rlt_le_trans; [apply (decreasing_row _ _ Wp 0 (offset t k)); try assumption; lra|]. unfold cubic_value. cbn. lra. }
      assert (Ord : (bin t h <= bin t k)%nat).
      { destruct (bin_spec t h) as (_ & B & _). destruct (bin_spec t k) as (_ & _ & C). change (size t) with n in C. destruct (le_lt_dec (bin t h) (bin t k)) as [L|L]; [exact L|].
        specialize (B _ L). specialize (C ltac:(lia)). lra. }
      assert (Same : bin t h = bin t k -> look t f k < look t f h).
      { intro E. unfold look. rewrite !F, E. destruct Bh as [(_ & Z & _)|(Ih & Oh)]; [lia|].
        apply (decreasing_row _ _ Wp); try assumption; try lra. unfold offset. rewrite E. lra. }
      split; [|exact Same]. destruct (Nat.eq_dec (bin t h) (bin t k)) as [E|N]; [specialize (Same E); lra|].
      assert (Lt : (S (bin t h) <= bin t k)%nat) by lia.
      pose proof (steps (S (bin t h)) (bin t k) Sp Lt ltac:(lia)) as St.
      assert (Edge : look t f (alt t (bin t h)) <= look t f h).
      { destruct (bin_spec t h) as (_ & _ & C). change (size t) with n in C. specialize (C ltac:(lia)).
        destruct Bh as [(E & Z & _)|(Ih & Oh)]; [rewrite Z; change (alt t 0%nat) with low; rewrite E; lra|].
        destruct C as [C|C]; [|rewrite <- C; lra]. left.
        assert (B : bin t (alt t (bin t h)) = bin t h).
        { apply (C35_bin t _ table_sorted). split; [change (size t) with n; lia|split].
          - intros j Jj. apply table_sorted. change (size t) with n. lia.
          - intros j Jj. change (size t) with n in Jj. destruct (Nat.eq_dec (bin t h) j) as [<-|]; [lra|]. left. apply table_sorted. change (size t) with n. lia. }
        pose proof (D' _ (proj2 (in_inside _) Ih)) as Dh. cbv zeta in Dh. rewrite !andb_true_iff in Dh. destruct Dh as ((H1 & H2) & H3).
        destruct (width_R _ Ih) as (Wh & Whp).
        unfold look. rewrite !F, B. apply (decreasing_row _ _ Whp); try assumption; try lra; unfold offset in *; rewrite ?B.
        - lra.
        - assert (Eb : bin_left t (bin t h) = alt t (pred (bin t h))) by (destruct (bin t h); [lia|reflexivity]). rewrite Eb, Wh. lra. }
      destruct (table_joined (bin t h) J ltac:(lia)) as (Jr & _). rewrite F in Jr. change (k0 (coef_of (row g q (S (bin t h))))) with (Q2R (j0 (row g q (S (bin t h))))) in Jr.
      assert (look t f (alt t (bin t h)) * (1 + / 10 ^ 12) <= look t f h * (1 + / 10 ^ 12)) by (apply Rmult_le_compat_r; lra). lra.
    Qed.
  End Column.
End Table.

(** ** The shipped tables *)
Definition tables : list tableQ := [StandardAtm1976; MIL_SPEC_210A_Tropical; MIL_SPEC_210A_Polar; MIL_SPEC_210A_Hot; MIL_SPEC_210A_Cold;
  MarsReference2024; MarsEquatorCold; MarsEquatorHot; MarsHellasCold; MarsHellasHot; MarsPolarCold; MarsPolarHot; VenusReference2021].
Definition not_venus : list tableQ := firstn 12 tables.
Definition tablesD : list tableD := [StandardAtm1976_D; MIL_SPEC_210A_Tropical_D; MIL_SPEC_210A_Polar_D; MIL_SPEC_210A_Hot_D; MIL_SPEC_210A_Cold_D;
  MarsReference2024_D; MarsEquatorCold_D; MarsEquatorHot_D; MarsHellasCold_D; MarsHellasHot_D; MarsPolarCold_D; MarsPolarHot_D; VenusReference2021_D].
Lemma tables_D : tables = map tableQ_of tablesD. Proof. reflexivity. Qed.
Lemma not_venus_D : not_venus = map tableQ_of (firstn 12 tablesD). Proof. reflexivity. Qed.
Lemma tables_ok : forallb check_ok tablesD = true. Proof. vm_compute. reflexivity. Qed.
Lemma not_venus_ok : forallb check_ok (firstn 12 tablesD) = true. Proof. vm_compute. reflexivity. Qed.
Ltac by_decimals ok p := apply (lift p _ _ ok); [|vm_compute; reflexivity]; let d := fresh "d" in let K := fresh "K" in intros d K; apply check_ok_all in K; destruct K as (? & ? & ? & ?).

Lemma all_tables (check : tableQ -> bool) l q : forallb check l = true -> In q l -> check q = true.
Proof. intros F I. rewrite forallb_forall in F. now apply F. Qed.
Lemma tables_rows : forallb check_rows tables = true. Proof. vm_compute. reflexivity. Qed.
Lemma tables_sorted : forallb check_sorted tables = true.
Proof. rewrite tables_D. by_decimals tables_ok check_sorted_d. now apply sorted_of. Qed.
Lemma not_venus_tables q : In q not_venus -> In q tables.
Proof. intro H. unfold not_venus in H. rewrite <- (firstn_skipn 12 tables). apply in_or_app. now left. Qed.

(** Every table has one row of coefficients more than altitudes, its altitudes increase strictly, and altitude zero is one
    of them (get_atmosphere_data.py L65-67 looks for it). *)
Theorem C55_well_formed q : In q tables ->
  (length (q_T q) = S (length (q_alt q)) /\ length (q_P q) = S (length (q_alt q)) /\
   length (q_rho q) = S (length (q_alt q)) /\ length (q_dT q) = S (length (q_alt q))) /\
  (forall i j, (i < j < length (q_alt q))%nat -> Q2R (nth i (q_alt q) 0%Q) < Q2R (nth j (q_alt q) 0%Q)) /\
  (exists i, (i < length (q_alt q))%nat /\ Q2R (nth i (q_alt q) 0%Q) = 0).
Proof.
  intro H. pose proof (all_tables _ _ _ tables_rows H) as Rw. pose proof (all_tables _ _ _ tables_sorted H) as St. split; [|split].
  - unfold check_rows in Rw. rewrite !andb_true_iff, !Nat.eqb_eq in Rw. tauto.
  - exact (table_sorted q Rw St).
  - assert (Z : forallb (fun q => existsb (fun x => Qeq_bool x 0) (q_alt q)) tables = true) by (vm_compute; reflexivity).
    apply (all_tables _ _ _ Z) in H. apply existsb_exists in H. destruct H as (x & I & E). apply Qeq_bool_iff, Qeq_eqR in E. rewrite Q2R_0 in E.
    apply (In_nth _ _ 0%Q) in I. destruct I as (i & L & <-). exists i. auto.
Qed.
Print Assumptions C55_well_formed.
Example C55_witness_well_formed : length (q_alt StandardAtm1976) = 690%nat.
Proof. vm_compute. reflexivity. Qed.

(** The range of altitudes of a table, in metres. *)
Definition in_range (q : tableQ) (h : R) : Prop := low q <= h <= high q.

Lemma temperature_checks : forallb (check_positive q_T) tables = true.
Proof. rewrite tables_D. by_decimals tables_ok (check_positive_d t_T). apply positive_of; auto using col_T. Qed.
(** At every altitude of the table the temperature is positive, and outside Venus so are pressure and density. *)
Theorem C55_temperature_positive q h : In q tables -> in_range q h -> 0 < look (table_of q) akima_T h.
Proof.
  intros H R. apply (table_positive q (all_tables _ _ _ tables_rows H) (all_tables _ _ _ tables_sorted H) q_T akima_T); [reflexivity| |exact R].
  exact (all_tables _ _ _ temperature_checks H).
Qed.
Print Assumptions C55_temperature_positive.

Lemma pressure_checks : forallb (check_positive q_P) not_venus = true.
Proof. rewrite not_venus_D. by_decimals not_venus_ok (check_positive_d t_P). apply positive_of; auto using col_P. Qed.
Lemma density_checks : forallb (check_positive q_rho) not_venus = true.
Proof. rewrite not_venus_D. by_decimals not_venus_ok (check_positive_d t_rho). apply positive_of; auto using col_rho. Qed.
Theorem C55_pressure_density_positive q h : In q not_venus -> in_range q h ->
  0 < look (table_of q) akima_P h /\ 0 < look (table_of q) akima_rho h.
Proof.
  intros H R. pose proof (not_venus_tables q H) as I.
  split; [apply (table_positive q (all_tables _ _ _ tables_rows I) (all_tables _ _ _ tables_sorted I) q_P akima_P)
         |apply (table_positive q (all_tables _ _ _ tables_rows I) (all_tables _ _ _ tables_sorted I) q_rho akima_rho)];
    try reflexivity; try exact R; apply (all_tables _ not_venus); try exact H; [exact pressure_checks|exact density_checks].
Qed.
Print Assumptions C55_pressure_density_positive.
Lemma range_by q h x y : Q2R x <= h <= Q2R y -> Qle_bool (nth 0 (q_alt q) 0%Q) x = true -> Qle_bool y (nth (pred (length (q_alt q))) (q_alt q) 0%Q) = true -> in_range q h.
Proof. intros H A B. apply leq_R in A, B. unfold in_range, low, high. lra. Qed.
Example C55_witness_pressure_density_positive : In StandardAtm1976 not_venus /\ in_range StandardAtm1976 11000.
Proof.
  split; [left; reflexivity|]. apply (range_by _ _ (11000 # 1) (11000 # 1)); [|vm_compute; reflexivity|vm_compute; reflexivity].
  Local Transparent Q2R. unfold Q2R. cbn. lra.
Qed.

(** Two neighbouring cubics agree at the altitude between them up to one part in 10^12, so the look-up has no jumps beyond
    rounding. *)
Lemma T_joined : forallb (check_joined q_T) tables = true.
Proof. rewrite tables_D. by_decimals tables_ok (check_joined_d t_T). apply joined_of; auto using col_T. Qed.
Lemma P_joined : forallb (check_joined q_P) tables = true.
Proof. rewrite tables_D. by_decimals tables_ok (check_joined_d t_P). apply joined_of; auto using col_P. Qed.
Lemma rho_joined : forallb (check_joined q_rho) tables = true.
Proof. rewrite tables_D. by_decimals tables_ok (check_joined_d t_rho). apply joined_of; auto using col_rho. Qed.
Theorem C55_no_jumps q i : In q tables -> (i < length (q_alt q))%nat ->
  Forall (fun f => let v := look (table_of q) f (alt (table_of q) i) in let right := k0 (f (table_of q) (S i)) in
    right <= v * (1 + / 10 ^ 12) /\ v <= right * (1 + / 10 ^ 12)) [akima_T; akima_P; akima_rho].
Proof.
  intros H I. pose proof (all_tables _ _ _ tables_rows H) as Rw. pose proof (all_tables _ _ _ tables_sorted H) as St.
  constructor; [|constructor; [|constructor; [|constructor]]].
  - exact (table_joined q Rw St q_T akima_T ltac:(reflexivity) i (all_tables _ _ _ T_joined H) I).
  - exact (table_joined q Rw St q_P akima_P ltac:(reflexivity) i (all_tables _ _ _ P_joined H) I).
  - exact (table_joined q Rw St q_rho akima_rho ltac:(reflexivity) i (all_tables _ _ _ rho_joined H) I).
Qed.
Print Assumptions C55_no_jumps.
Example C55_witness_no_jumps : In VenusReference2021 tables /\ (20 < length (q_alt VenusReference2021))%nat.
Proof. split; [cbn; tauto|vm_compute; lia]. Qed.

(** In the standard atmosphere and the two equatorial Mars tables pressure and density fall with altitude: strictly within a
    bin and up to rounding at the altitudes of the table. *)
Definition falling : list tableQ := [StandardAtm1976; MarsEquatorCold; MarsEquatorHot].
Definition fallingD : list tableD := [StandardAtm1976_D; MarsEquatorCold_D; MarsEquatorHot_D].
Lemma falling_D : falling = map tableQ_of fallingD. Proof. reflexivity. Qed.
Lemma falling_ok : forallb check_ok fallingD = true. Proof. vm_compute. reflexivity. Qed.
Lemma falling_P : forallb (check_decreasing q_P) falling = true.
Proof.
  rewrite falling_D. by_decimals falling_ok (fun d => check_sorted_d d && check_decreasing_d t_P d). intro H'. apply andb_true_iff in H'.
  destruct H'. apply (decreasing_of t_P); auto using col_P.
Qed.
Lemma falling_rho : forallb (check_decreasing q_rho) falling = true.
Proof.
  rewrite falling_D. by_decimals falling_ok (fun d => check_sorted_d d && check_decreasing_d t_rho d). intro H'. apply andb_true_iff in H'.
  destruct H'. apply (decreasing_of t_rho); auto using col_rho.
Qed.
Lemma falling_P_steps : forallb (check_steps q_P) falling = true.
Proof. rewrite falling_D. by_decimals falling_ok (check_steps_d t_P). apply steps_of; auto using col_P. Qed.
Lemma falling_rho_steps : forallb (check_steps q_rho) falling = true.
Proof. rewrite falling_D. by_decimals falling_ok (check_steps_d t_rho). apply steps_of; auto using col_rho. Qed.
Theorem C55_falling q h k : In q falling -> in_range q h -> in_range q k -> h < k ->
  Forall (fun f => look (table_of q) f k < look (table_of q) f h * (1 + / 10 ^ 12) /\
    (bin (table_of q) h = bin (table_of q) k -> look (table_of q) f k < look (table_of q) f h)) [akima_P; akima_rho].
Proof.
  intros H Rh Rk L. assert (N : In q not_venus) by (destruct H as [<-|[<-|[<-|[]]]]; cbn; auto 20).
  pose proof (not_venus_tables q N) as I. pose proof (all_tables _ _ _ tables_rows I) as Rw. pose proof (all_tables _ _ _ tables_sorted I) as St.
  constructor; [|constructor; [|constructor]].
  - apply (table_decreasing q Rw St q_P akima_P); try reflexivity; try apply Rh; try apply Rk; try exact L.
    + exact (all_tables _ _ _ pressure_checks N). + exact (all_tables _ _ _ falling_P H). + exact (all_tables _ _ _ P_joined I). + exact (all_tables _ _ _ falling_P_steps H).
  - apply (table_decreasing q Rw St q_rho akima_rho); try reflexivity; try apply Rh; try apply Rk; try exact L.
    + exact (all_tables _ _ _ density_checks N). + exact (all_tables _ _ _ falling_rho H). + exact (all_tables _ _ _ rho_joined I). + exact (all_tables _ _ _ falling_rho_steps H).
Qed.
Print Assumptions C55_falling.
Example C55_witness_falling : in_range StandardAtm1976 0 /\ in_range StandardAtm1976 11000.
Proof.
  split; [apply (range_by _ _ (0 # 1) (0 # 1))|apply C55_witness_pressure_density_positive]; [|vm_compute; reflexivity|vm_compute; reflexivity].
  unfold Q2R. cbn. lra.
Qed.

(** ** Values at given altitudes *)
Lemma look_value q g f x i : check_rows q = true -> check_sorted q = true -> (forall i, f (table_of q) i = coef_of (row g q i)) ->
  (1 <= i < length (q_alt q))%nat -> ltq (nth (pred i) (q_alt q) 0%Q) x = true -> Qle_bool x (nth i (q_alt q) 0%Q) = true ->
  look (table_of q) f (Q2R x) = Q2R (b3 (row g q i) (Qminus x (nth (pred i) (q_alt q) 0%Q))).
Proof.
  intros Rw St F I A B. apply ltq_R in A. apply leq_R in B. pose proof (table_sorted q Rw St) as So.
  assert (E : bin (table_of q) (Q2R x) = i).
  { apply (C35_bin _ _ So). change (size (table_of q)) with (length (q_alt q)). split; [lia|split].
    - intros j J. destruct (Nat.eq_dec j (pred i)) as [->|N]; [exact A|]. apply (Rlt_trans _ (alt (table_of q) (pred i))); [|exact A]. apply So. cbn. lia.
    - intros j J. destruct (Nat.eq_dec i j) as [<-|N]; [exact B|]. apply (Rle_trans _ (alt (table_of q) i)); [exact B|]. left. apply So. cbn. lia. }
  unfold look, offset. rewrite E, F, b3_end. f_equal. rewrite Q2R_minus. destruct i; [lia|reflexivity].
Qed.

(** The Venus table gives a negative pressure and a negative density inside its range. *)
Theorem C55_venus_refuted : exists h, in_range VenusReference2021 h /\
  look (table_of VenusReference2021) akima_P h < 0 /\ look (table_of VenusReference2021) akima_rho h < 0.
Proof.
  assert (Rw : check_rows VenusReference2021 = true) by (vm_compute; reflexivity).
  assert (St : check_sorted VenusReference2021 = true) by (apply (all_tables _ _ _ tables_sorted); cbn [tables In]; tauto).
  exists (Q2R (143987 # 1)). split; [|split].
  - apply (range_by _ _ (143987 # 1) (143987 # 1)); [lra|vm_compute; reflexivity|vm_compute; reflexivity].
  - rewrite (look_value _ q_P akima_P _ 26 Rw St); [|reflexivity|vm_compute; lia|vm_compute; reflexivity|vm_compute; reflexivity].
    rewrite <- Q2R_0. apply ltq_R. vm_compute. reflexivity.
  - rewrite (look_value _ q_rho akima_rho _ 26 Rw St); [|reflexivity|vm_compute; lia|vm_compute; reflexivity|vm_compute; reflexivity].
    rewrite <- Q2R_0. apply ltq_R. vm_compute. reflexivity.
Qed.
Print Assumptions C55_venus_refuted.

(** In the hot and the cold table the pressure rises between 16040 m and 16120 m, by more than 0.4 percent. *)
Theorem C55_rising_refuted q : In q [MIL_SPEC_210A_Hot; MIL_SPEC_210A_Cold] ->
  in_range q 16040 /\ in_range q 16120 /\ look (table_of q) akima_P 16040 * (1 + 4 / 1000) < look (table_of q) akima_P 16120.
Proof.
  replace 16040 with (Q2R (16040 # 1)) by (unfold Q2R; cbn; field). replace 16120 with (Q2R (16120 # 1)) by (unfold Q2R; cbn; field).
  replace (1 + 4 / 1000) with (Q2R (1004 # 1000)) by (unfold Q2R; cbn; field).
  intros [<-|[<-|[]]].
  - assert (Rw : check_rows MIL_SPEC_210A_Hot = true) by (vm_compute; reflexivity).
    assert (St : check_sorted MIL_SPEC_210A_Hot = true) by (apply (all_tables _ _ _ tables_sorted); cbn [tables In]; tauto).
    split; [|split]; try (eapply range_by; [apply conj; apply Rle_refl|vm_compute; reflexivity|vm_compute; reflexivity]).
    rewrite !(look_value _ q_P akima_P _ 108 Rw St); try reflexivity; try (vm_compute; lia); try (vm_compute; reflexivity).
    rewrite <- Q2R_mult. apply ltq_R. vm_compute. reflexivity.
  - assert (Rw : check_rows MIL_SPEC_210A_Cold = true) by (vm_compute; reflexivity).
    assert (St : check_sorted MIL_SPEC_210A_Cold = true) by (apply (all_tables _ _ _ tables_sorted); cbn [tables In]; tauto).
    split; [|split]; try (eapply range_by; [apply conj; apply Rle_refl|vm_compute; reflexivity|vm_compute; reflexivity]).
    rewrite !(look_value _ q_P akima_P _ 111 Rw St); try reflexivity; try (vm_compute; lia); try (vm_compute; reflexivity).
    rewrite <- Q2R_mult. apply ltq_R. vm_compute. reflexivity.
Qed.
Print Assumptions C55_rising_refuted.

(** Above the standard table the last cubic runs on and gives a negative pressure. *)
Lemma look_above q g f x : check_rows q = true -> check_sorted q = true -> (forall i, f (table_of q) i = coef_of (row g q i)) ->
  ltq (nth (pred (length (q_alt q))) (q_alt q) 0%Q) x = true ->
  look (table_of q) f (Q2R x) = Q2R (b3 (row g q (length (q_alt q))) (Qminus x (nth (pred (length (q_alt q))) (q_alt q) 0%Q))).
Proof.
  intros Rw St F A. apply ltq_R in A. pose proof (table_sorted q Rw St) as So. pose proof (long q Rw) as Lg.
  assert (E : bin (table_of q) (Q2R x) = length (q_alt q)).
  { apply (C35_bin _ _ So). change (size (table_of q)) with (length (q_alt q)). split; [lia|split; [|intros; lia]].
    intros j J. destruct (Nat.eq_dec j (pred (length (q_alt q)))) as [->|N]; [exact A|]. apply (Rlt_trans _ (alt (table_of q) (pred (length (q_alt q))))); [|exact A]. apply So. cbn. lia. }
  unfold look, offset. rewrite E, F, b3_end. f_equal. rewrite Q2R_minus. destruct (length (q_alt q)); [lia|reflexivity].
Qed.
Theorem C55_above_refuted : exists h, look (table_of StandardAtm1976) akima_P h < 0 /\ look (table_of StandardAtm1976) akima_rho h < 0 /\ h <= high StandardAtm1976 + 10000.
Proof.
  assert (Rw : check_rows StandardAtm1976 = true) by (vm_compute; reflexivity).
  assert (St : check_sorted StandardAtm1976 = true) by (apply (all_tables _ _ _ tables_sorted); cbn [tables In]; tauto).
  set (x := Qplus (nth (pred (length (q_alt StandardAtm1976))) (q_alt StandardAtm1976) 0%Q) (10000 # 1)).
  exists (Q2R x). split; [|split].
  - rewrite (look_above _ q_P akima_P _ Rw St); [|reflexivity|vm_compute; reflexivity]. rewrite <- Q2R_0. apply ltq_R. vm_compute. reflexivity.
  - rewrite (look_above _ q_rho akima_rho _ Rw St); [|reflexivity|vm_compute; reflexivity]. rewrite <- Q2R_0. apply ltq_R. vm_compute. reflexivity.
  - unfold x, high. rewrite Q2R_plus. replace (Q2R (10000 # 1)) with 10000 by (unfold Q2R; cbn; field). lra.
Qed.
Print Assumptions C55_above_refuted.

(** ** Sea level *)
Lemma zero_at_spec l i : zero_at l = Some i -> (i < length l)%nat /\ Q2R (nth i l 0%Q) = 0.
Proof.
  revert i. induction l as [|x r IH]; intros i; cbn; [discriminate|]. destruct (Qeq_bool x 0) eqn:E.
  - intro H. injection H as <-. split; [lia|]. apply Qeq_bool_iff, Qeq_eqR in E. rewrite E. apply Q2R_0.
  - destruct (zero_at r) as [k|]; [|discriminate]. cbn. intro H. injection H as <-. destruct (IH k eq_refl). split; [lia|assumption].
Qed.
(** The look-up of the density at sea level never fails, and its result is the density of the component at altitude zero up
    to rounding. *)
Theorem C55_sea_level q : In q tables -> exists d, sea_level_density q = Some d /\
  let v := look (table_of q) akima_rho 0 in Q2R d <= v * (1 + / 10 ^ 12) /\ v <= Q2R d * (1 + / 10 ^ 12).
Proof.
  intro H. assert (Z : forallb (fun q => match zero_at (q_alt q) with Some _ => true | None => false end) tables = true) by (vm_compute; reflexivity).
  pose proof (all_tables _ _ _ Z H) as E. cbv beta in E. unfold sea_level_density. destruct (zero_at (q_alt q)) as [i|] eqn:A; [|discriminate].
  eexists. split; [reflexivity|]. destruct (zero_at_spec _ _ A) as (L & V).
  pose proof (table_joined q (all_tables _ _ _ tables_rows H) (all_tables _ _ _ tables_sorted H) q_rho akima_rho ltac:(reflexivity) i (all_tables _ _ _ rho_joined H) L) as J.
  cbv zeta in J |- *. change (alt (table_of q) i) with (Q2R (nth i (q_alt q) 0%Q)) in J. rewrite V in J. rewrite Nat.add_1_r. exact J.
Qed.
Print Assumptions C55_sea_level.
Example C55_witness_sea_level : exists d, sea_level_density StandardAtm1976 = Some d /\ (d == 12249989999999999 # 10000000000000000)%Q.
Proof. eexists. split; [vm_compute; reflexivity|]. vm_compute. reflexivity. Qed.

(** ** Gas law *)
(** At the altitudes of the standard table pressure, density and temperature obey the gas law of the component up to 0.03
    percent. *)
Definition gasQ : Q := Qdiv (831432 # 100) (2897 # 100).
Definition check_gas (q : tableQ) (eps : Q) : bool :=
  forallb (fun i => let p := j0 (row q_P q i) in let e := Qmult (Qmult (j0 (row q_rho q i)) gasQ) (j0 (row q_T q i)) in
    Qle_bool e (Qmult p (Qplus 1 eps)) && Qle_bool (Qmult p (Qminus 1 eps)) e) (inside q).
Lemma gas_law_of q eps i : check_rows q = true -> check_gas q eps = true -> (i + 1 < length (q_alt q))%nat ->
  let t := table_of q in
  let e := k0 (akima_rho t (S i)) * R_air (earth_air 0 false) * k0 (akima_T t (S i)) in
  let p := k0 (akima_P t (S i)) in
  p * (1 - Q2R eps) <= e <= p * (1 + Q2R eps).
Proof.
  intros Rw G I. unfold check_gas in G. rewrite forallb_forall in G.
  specialize (G (S i) ltac:(apply (in_inside _ Rw); lia)). cbv zeta in G. apply andb_true_iff in G. destruct G as (A & B). apply leq_R in A, B.
  assert (E : Q2R gasQ = R_air (earth_air 0 false)) by (unfold gasQ, earth_air, air_of, Rs, Q2R; cbn; field).
  rewrite !Q2R_mult, Q2R_plus in A. rewrite !Q2R_mult, Q2R_minus in B. rewrite Q2R_1, E in A, B. split; assumption.
Qed.
Lemma standard_gas : check_gas StandardAtm1976 (3 # 10000) = true. Proof. vm_compute. reflexivity. Qed.
Theorem C55_gas_law i : (i + 1 < length (q_alt StandardAtm1976))%nat ->
  let t := table_of StandardAtm1976 in
  let e := k0 (akima_rho t (S i)) * R_air (earth_air 0 false) * k0 (akima_T t (S i)) in
  let p := k0 (akima_P t (S i)) in
  p * (1 - 3 / 10000) <= e <= p * (1 + 3 / 10000).
Proof.
  intro I. cbv zeta. assert (F : 3 / 10000 = Q2R (3 # 10000)) by (unfold Q2R; cbn; field). rewrite F.
  apply (gas_law_of StandardAtm1976 (3 # 10000) i); [apply (all_tables _ _ _ tables_rows); left; reflexivity|exact standard_gas|exact I].
Qed.
Print Assumptions C55_gas_law.
Example C55_witness_gas_law : (0 + 1 < length (q_alt StandardAtm1976))%nat.
Proof. vm_compute. lia. Qed.
