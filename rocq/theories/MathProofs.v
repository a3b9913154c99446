From Coq Require Import Reals Lra Lia.
From Coquelicot Require Import Coquelicot.
From Verif Require Import Base MathModel Calc.
Local Open Scope R_scope.

(** ** The ideal sigmoid *)
Definition logistic (z : R) : R := 1 / (1 + exp (- z)).

Lemma logistic_bounds z : 0 < logistic z < 1.
Proof.
  unfold logistic. pose proof (exp_pos (- z)). split.
  - apply Rdiv_lt_0_compat; lra.
  - apply Rmult_lt_reg_r with (1 + exp (- z)); [lra|]. field_simplify; lra.
Qed.

Lemma logistic_incr a b : a < b -> logistic a < logistic b.
Proof.
  intro H. unfold logistic, Rdiv. rewrite !Rmult_1_l. apply Rinv_lt_contravar.
  - apply Rmult_lt_0_compat; apply one_plus_exp.
  - apply Rplus_lt_compat_l. apply exp_increasing. lra.
Qed.

Lemma logistic_reflect z : logistic z + logistic (- z) = 1.
Proof.
  unfold logistic. rewrite Ropp_involutive, exp_Ropp. pose proof (exp_pos z). field. lra.
Qed.

Lemma sigmoid_elem_logistic x x0 mu :
  sigmoid_elem x x0 mu = if Rlt_dec (-320) ((x - x0) / mu) then logistic ((x - x0) / mu) else 0.
Proof.
  unfold sigmoid_elem, logistic. destruct (Rlt_dec _ _); [|reflexivity].
  do 4 f_equal. unfold Rdiv. ring.
Qed.

Lemma sigmoid_range x x0 mu : 0 <= sigmoid_elem x x0 mu < 1 /\
  (-320 < (x - x0) / mu <-> 0 < sigmoid_elem x x0 mu).
Proof.
  rewrite sigmoid_elem_logistic. destruct (Rlt_dec _ _) as [H|H].
  - pose proof (logistic_bounds ((x - x0) / mu)). intuition lra.
  - intuition lra.
Qed.

Lemma sigmoid_center x0 mu : mu <> 0 -> sigmoid_elem x0 x0 mu = / 2.
Proof.
  intro M. rewrite sigmoid_elem_logistic. replace ((x0 - x0) / mu) with 0 by (field; exact M).
  destruct (Rlt_dec _ _); [|lra]. unfold logistic. rewrite Ropp_0, exp_0. lra.
Qed.

Lemma sigmoid_mono x y x0 mu : 0 < mu -> x <= y -> sigmoid_elem x x0 mu <= sigmoid_elem y x0 mu.
Proof.
  intros M H. rewrite !sigmoid_elem_logistic.
  assert (L : (x - x0) / mu <= (y - x0) / mu).
  { apply Rmult_le_compat_r; [left; now apply Rinv_0_lt_compat|lra]. }
  pose proof (logistic_bounds ((y - x0) / mu)).
  destruct (Rlt_dec _ _), (Rlt_dec _ _); try lra.
  destruct L as [L|L]; [left; now apply logistic_incr|]. rewrite L. lra.
Qed.

Lemma sigmoid_antimono x y x0 mu : mu < 0 -> x <= y -> sigmoid_elem y x0 mu <= sigmoid_elem x x0 mu.
Proof.
  intros M H. rewrite !sigmoid_elem_logistic.
  assert (L : (y - x0) / mu <= (x - x0) / mu).
  { pose proof (Rinv_lt_0_compat mu M). unfold Rdiv. nra. }
  pose proof (logistic_bounds ((x - x0) / mu)).
  destruct (Rlt_dec _ _), (Rlt_dec _ _); try lra.
  destruct L as [L|L]; [left; now apply logistic_incr|]. rewrite L. lra.
Qed.

Lemma sigmoid_reflect d x0 mu : mu <> 0 -> Rabs (d / mu) < 320 ->
  sigmoid_elem (x0 + d) x0 mu + sigmoid_elem (x0 - d) x0 mu = 1.
Proof.
  intros M H. rewrite !sigmoid_elem_logistic.
  replace ((x0 + d - x0) / mu) with (d / mu) by (field; exact M).
  replace ((x0 - d - x0) / mu) with (- (d / mu)) by (field; exact M).
  apply Rabs_def2 in H. destruct (Rlt_dec _ _), (Rlt_dec _ _); try lra. apply logistic_reflect.
Qed.

(** Complementary steepness: the pair used for blending in the GASP components sums to one. *)
Lemma sigmoid_complement x x0 mu : mu <> 0 -> Rabs ((x - x0) / mu) < 320 ->
  sigmoid_elem x x0 mu + sigmoid_elem x x0 (- mu) = 1.
Proof.
  intros M H. rewrite !sigmoid_elem_logistic.
  replace ((x - x0) / - mu) with (- ((x - x0) / mu)) by (field; exact M).
  apply Rabs_def2 in H. destruct (Rlt_dec _ _), (Rlt_dec _ _); try lra. apply logistic_reflect.
Qed.

(** How far the cut-off value is from the ideal one. *)
Lemma sigmoid_cut_error x x0 mu :
  Rabs (sigmoid_elem x x0 mu - logistic ((x - x0) / mu)) <= exp (-320).
Proof.
  rewrite sigmoid_elem_logistic. destruct (Rlt_dec _ _) as [H|H].
  - rewrite Rminus_eq_0, Rabs_R0. left. apply exp_pos.
  - set (z := (x - x0) / mu) in *. pose proof (logistic_bounds z).
    rewrite Rminus_0_l, Rabs_Ropp, Rabs_right by lra.
    unfold logistic. apply Rle_trans with (exp z).
    + pose proof (exp_pos (- z)). pose proof (exp_pos z).
      apply Rmult_le_reg_r with (1 + exp (- z)); [lra|].
      unfold Rdiv. rewrite Rmult_assoc, Rinv_l, Rmult_1_r by lra.
      rewrite Rmult_plus_distr_l, <- exp_plus. replace (z + - z) with 0 by ring. rewrite exp_0. lra.
    + destruct (Rle_lt_or_eq_dec z (-320)) as [L|L]; [lra| |].
      * left. now apply exp_increasing.
      * rewrite L. lra.
Qed.

Lemma logistic_derive x x0 mu : mu <> 0 ->
  is_derive (fun y => 1 / (1 + exp (- (y - x0) / mu))) x
            (exp (- (x - x0) / mu) / mu / ((1 + exp (- (x - x0) / mu)) * (1 + exp (- (x - x0) / mu)))).
Proof.
  intro M. pose proof (one_plus_exp (- (x - x0) / mu)) as P.
  auto_derive.
  - repeat split; trivial. apply Rgt_not_eq. unfold Rdiv in P. 
    replace (- (x + - x0) * / mu) with (- (x - x0) * / mu) by ring. exact P.
  - replace (- (x + - x0) * / mu) with (- (x - x0) / mu) by (unfold Rdiv, Rminus; ring).
    field. repeat split; first [exact M|lra].
Qed.

Lemma sigmoid_derive x x0 mu : mu <> 0 -> (x - x0) / mu <> -320 ->
  is_derive (fun y => sigmoid_elem y x0 mu) x (dsigmoid_elem x x0 mu).
Proof.
  intros M N.
  assert (C : continuous (fun y => (y - x0) / mu) x).
  { apply (ex_derive_continuous (fun y => (y - x0) / mu)). auto_derive. trivial. }
  unfold dsigmoid_elem. destruct (Rlt_dec (-320) ((x - x0) / mu)) as [H|H].
  - apply is_derive_near with (g := fun y => 1 / (1 + exp (- (y - x0) / mu))) (P := fun y => -320 < (y - x0) / mu).
    + now apply (locally_cont_gt (fun y => (y - x0) / mu)).
    + intros y Hy. unfold sigmoid_elem. destruct (Rlt_dec _ _); [reflexivity|lra].
    + now apply logistic_derive.
  - apply is_derive_near with (g := fun _ => 0) (P := fun y => (y - x0) / mu < -320).
    + apply (locally_cont_lt (fun y => (y - x0) / mu)); [exact C|lra].
    + intros y Hy. unfold sigmoid_elem. destruct (Rlt_dec _ _); [lra|reflexivity].
    + auto_derive; trivial.
Qed.

(** At the cut-off the computed function jumps, so it has no derivative there. *)
Lemma sigmoid_cut_not_continuous x0 mu : 0 < mu -> ~ continuous (fun y => sigmoid_elem y x0 mu) (x0 - 320 * mu).
Proof.
  intros M C.
  assert (E : sigmoid_elem (x0 - 320 * mu) x0 mu = 0).
  { unfold sigmoid_elem. replace ((x0 - 320 * mu - x0) / mu) with (-320) by (field; lra).
    destruct (Rlt_dec _ _); [lra|reflexivity]. }
  pose proof (logistic_bounds (-320)) as B.
  pose proof (locally_cont_lt _ _ (logistic (-320)) C) as L. simpl in L. rewrite E in L.
  specialize (L (proj1 B)). destruct L as [eps L]. pose proof (cond_pos eps) as Pe.
  specialize (L (x0 - 320 * mu + eps / 2)).
  assert (Bl : ball (x0 - 320 * mu) eps (x0 - 320 * mu + eps / 2)).
  { unfold ball; simpl. unfold AbsRing_ball, abs, minus, plus, opp; simpl.
    rewrite Rabs_right; lra. }
  specialize (L Bl). rewrite sigmoid_elem_logistic in L.
  assert (G : -320 < (x0 - 320 * mu + eps / 2 - x0) / mu).
  { replace ((x0 - 320 * mu + eps / 2 - x0) / mu) with (-320 + eps / 2 / mu) by (field; lra).
    assert (0 < eps / 2 / mu) by (apply Rdiv_lt_0_compat; lra). lra. }
  destruct (Rlt_dec _ _); [|lra]. pose proof (logistic_incr _ _ G). lra.
Qed.

Lemma sigmoid_cut_no_derivative x0 mu : 0 < mu -> ~ ex_derive (fun y => sigmoid_elem y x0 mu) (x0 - 320 * mu).
Proof. intros M D. apply (sigmoid_cut_not_continuous x0 mu M). apply (ex_derive_continuous (fun y => sigmoid_elem y x0 mu)). exact D. Qed.

(** ** Whole-call statements *)
Lemma sigmoidX_arr xs a mu : mu <> 0 -> sigmoidX (Arr xs) (Scal a) mu = Ok (Arr (map (fun v => sigmoid_elem v a mu) xs)).
Proof. intro M. unfold sigmoidX. now destruct (Req_EM_T mu 0). Qed.
Lemma sigmoidX_scal v a mu : mu <> 0 -> sigmoidX (Scal v) (Scal a) mu = Ok (Scal (sigmoid_scalar v a mu)).
Proof. intro M. unfold sigmoidX. now destruct (Req_EM_T mu 0). Qed.
Lemma dSigmoidXdx_arr xs a mu : mu <> 0 -> dSigmoidXdx (Arr xs) (Scal a) mu = Ok (Arr (map (fun v => dsigmoid_elem v a mu) xs)).
Proof. intro M. unfold dSigmoidXdx. now destruct (Req_EM_T mu 0). Qed.

Lemma dSigmoidXdx_scal_error v a mu : mu <> 0 -> dSigmoidXdx (Scal v) (Scal a) mu = Err UnboundLocalError.
Proof. intro M. unfold dSigmoidXdx. now destruct (Req_EM_T mu 0). Qed.
Lemma zero_mu_error x a : sigmoidX x a 0 = Err ValueError /\ dSigmoidXdx x a 0 = Err ValueError.
Proof. unfold sigmoidX, dSigmoidXdx. destruct (Req_EM_T 0 0); [split; reflexivity|lra]. Qed.

(** Scalar and array branches agree when |mu| <= 1 up to the negligible cut-off, but not for large mu. *)
Lemma scalar_array_agree x x0 mu : -320 < (x - x0) * mu -> -320 < (x - x0) / mu ->
  sigmoid_scalar x x0 mu = sigmoid_elem x x0 mu.
Proof. intros H1 H2. unfold sigmoid_scalar, sigmoid_elem. destruct (Rlt_dec _ _), (Rlt_dec _ _); lra. Qed.

Lemma scalar_small_mu x x0 mu : 0 < mu <= 1 -> Rabs (sigmoid_scalar x x0 mu - logistic ((x - x0) / mu)) <= exp (-320).
Proof.
  intros [M1 M2]. unfold sigmoid_scalar. destruct (Rlt_dec _ _) as [H|H].
  - replace (1 / (1 + exp (- (x - x0) / mu))) with (logistic ((x - x0) / mu)).
    + rewrite Rminus_eq_0, Rabs_R0. left. apply exp_pos.
    + unfold logistic. do 4 f_equal. unfold Rdiv. ring.
  - assert (G : ~ -320 < (x - x0) / mu).
    { intro G. apply H. assert (K : (x - x0) < 0 \/ 0 <= x - x0) by lra. destruct K as [K|K].
      - assert (1 <= / mu) by (rewrite <- Rinv_1 at 1; apply Rinv_le_contravar; lra).
        unfold Rdiv in G. assert (mu <= / mu) by lra. nra.
      - nra. }
    pose proof (sigmoid_cut_error x x0 mu) as E. rewrite sigmoid_elem_logistic in E.
    destruct (Rlt_dec _ _); [lra|exact E].
Qed.

Lemma scalar_large_mu_wrong : exists x x0 mu,
  0 < mu /\ sigmoid_scalar x x0 mu = 0 /\ 1 / 5 < sigmoid_elem x x0 mu.
Proof.
  exists (-20), 0, 20. split; [lra|]. split.
  - unfold sigmoid_scalar. destruct (Rlt_dec _ _); [lra|reflexivity].
  - rewrite sigmoid_elem_logistic. replace ((-20 - 0) / 20) with (-1) by field.
    destruct (Rlt_dec _ _); [|lra]. unfold logistic. replace (- -1) with 1 by ring.
    pose proof exp_le_3. pose proof (exp_pos 1).
    apply Rmult_lt_reg_r with (1 + exp 1); [lra|]. field_simplify; lra.
Qed.

(** Array of thresholds: the sigmoid accepts it, its derivative raises as soon as one element is cut off. *)
Lemma array_threshold_agrees xs a mu : mu <> 0 -> length a = length xs -> length a <> 1%nat ->
  sigmoidX (Arr xs) (Arr a) mu = Ok (Arr (map2 (fun v b => sigmoid_elem v b mu) xs a)) /\
  (dSigmoidXdx (Arr xs) (Arr a) mu = Ok (Arr (map2 (fun v b => dsigmoid_elem v b mu) xs a)) <->
   Forall (fun p => -320 < (fst p - snd p) / mu) (combine xs a)).
Proof.
  intros M L N. unfold sigmoidX, dSigmoidXdx. destruct (Req_EM_T mu 0); [contradiction|].
  assert (B : (length a =? length xs)%nat = true) by now apply Nat.eqb_eq.
  assert (S : all_selected xs a mu = true <-> Forall (fun p => -320 < (fst p - snd p) / mu) (combine xs a)).
  { unfold all_selected. rewrite forallb_forall, Forall_forall. split; intros H p Hp; specialize (H p Hp);
    destruct (Rlt_dec _ _); try easy. }
  destruct a as [|a0 [|a1 a]]; [| now elim N |].
  - rewrite B. rewrite <- S. destruct xs; [|discriminate]. split; [reflexivity|]. split; [reflexivity|]. reflexivity.
  - rewrite B. rewrite <- S. split; [reflexivity|]. destruct (all_selected _ _ _); split; intro H; try reflexivity; discriminate.
Qed.

(** ** smooth_max and smooth_min *)
Lemma smooth_max_closed x b mu : mu <> 0 -> smooth_max x b mu = ln (exp (mu * x) + exp (mu * b)) / mu.
Proof.
  intro M. unfold smooth_max. set (m := Rmax (mu * x) (mu * b)).
  replace (exp (mu * x) + exp (mu * b)) with (exp m * (exp (mu * x - m) + exp (mu * b - m))).
  - rewrite ln_mult, ln_exp; [reflexivity|apply exp_pos|].
    pose proof (exp_pos (mu * x - m)). pose proof (exp_pos (mu * b - m)). lra.
  - rewrite Rmult_plus_distr_l, <- !exp_plus. f_equal; f_equal; ring.
Qed.

Lemma d_smooth_max_closed x b mu : d_smooth_max x b mu = exp (mu * x) / (exp (mu * x) + exp (mu * b)).
Proof.
  unfold d_smooth_max. set (m := Rmax (mu * x) (mu * b)).
  replace (exp (mu * x)) with (exp m * exp (mu * x - m)) by (rewrite <- exp_plus; f_equal; ring).
  replace (exp (mu * b)) with (exp m * exp (mu * b - m)) by (rewrite <- exp_plus; f_equal; ring).
  pose proof (exp_pos (mu * x - m)). pose proof (exp_pos (mu * b - m)). pose proof (exp_pos m).
  field. split; [apply Rgt_not_eq; nra|lra].
Qed.

Lemma smooth_max_bounds x b mu : 0 < mu -> Rmax x b <= smooth_max x b mu <= Rmax x b + ln 2 / mu.
Proof.
  intro M.
  assert (K : forall u v, u <= v -> v <= ln (exp (mu * u) + exp (mu * v)) / mu <= v + ln 2 / mu).
  { intros u v H.
    assert (E1 : exp (mu * u) <= exp (mu * v)).
    { destruct H as [H|H]; [left; apply exp_increasing; nra|subst; lra]. }
    pose proof (exp_pos (mu * u)). pose proof (exp_pos (mu * v)).
    assert (A : mu * v <= ln (exp (mu * u) + exp (mu * v))).
    { rewrite <- (ln_exp (mu * v)) at 1. left. apply ln_increasing; lra. }
    assert (B : ln (exp (mu * u) + exp (mu * v)) <= mu * v + ln 2).
    { rewrite <- (ln_exp (mu * v)) at 2. rewrite Rplus_comm, <- ln_mult by lra.
      destruct E1 as [E1|E1]; [left; apply ln_increasing; lra|]. right. f_equal. lra. }
    split.
    - apply Rmult_le_reg_r with mu; [exact M|]. unfold Rdiv. rewrite Rmult_assoc, Rinv_l by lra. lra.
    - apply Rmult_le_reg_r with mu; [exact M|]. unfold Rdiv. rewrite Rmult_plus_distr_r, !Rmult_assoc, Rinv_l by lra. lra. }
  rewrite smooth_max_closed by lra. destruct (Rle_dec x b) as [H|H].
  - rewrite Rmax_right by lra. now apply K.
  - rewrite Rmax_left by lra. rewrite Rplus_comm. apply K. lra.
Qed.

Lemma smooth_min_max x b mu : mu <> 0 -> smooth_min x b mu = - smooth_max (- x) (- b) mu.
Proof.
  intro M. rewrite smooth_max_closed by exact M. unfold smooth_min.
  replace (mu * - x) with (- mu * x) by ring. replace (mu * - b) with (- mu * b) by ring. field. exact M.
Qed.

Lemma smooth_min_bounds x b mu : 0 < mu -> Rmin x b - ln 2 / mu <= smooth_min x b mu <= Rmin x b.
Proof.
  intro M. rewrite smooth_min_max by lra. pose proof (smooth_max_bounds (- x) (- b) mu M).
  assert (Rmin x b = - Rmax (- x) (- b)) by (rewrite Ropp_Rmax, !Ropp_involutive; reflexivity). lra.
Qed.

Lemma smooth_sum x b mu : mu <> 0 -> smooth_min x b mu + smooth_max x b mu = x + b.
Proof.
  intro M. rewrite smooth_max_closed by exact M. unfold smooth_min.
  replace (exp (- mu * x) + exp (- mu * b)) with (exp (- mu * (x + b)) * (exp (mu * x) + exp (mu * b))).
  - pose proof (exp_pos (mu * x)). pose proof (exp_pos (mu * b)).
    rewrite ln_mult, ln_exp; [field; exact M|apply exp_pos|lra].
  - rewrite Rmult_plus_distr_l, <- !exp_plus. rewrite Rplus_comm. f_equal; f_equal; ring.
Qed.

Lemma smooth_max_derive x b mu : mu <> 0 -> is_derive (fun y => smooth_max y b mu) x (d_smooth_max x b mu).
Proof.
  intro M. apply is_derive_ext with (f := fun y => ln (exp (mu * y) + exp (mu * b)) / mu).
  { intro t. symmetry. now apply smooth_max_closed. }
  rewrite d_smooth_max_closed. pose proof (exp_pos (mu * x)). pose proof (exp_pos (mu * b)).
  auto_derive; [lra|]. field. repeat split; first [exact M|lra].
Qed.

Lemma smooth_min_derive x b mu : mu <> 0 -> is_derive (fun y => smooth_min y b mu) x (d_smooth_min x b mu).
Proof.
  intro M. unfold smooth_min, d_smooth_min. pose proof (exp_pos (- mu * x)). pose proof (exp_pos (- mu * b)).
  auto_derive; [lra|]. field. repeat split; first [exact M|lra].
Qed.

Lemma d_smooth_max_bounds x b mu : 0 < d_smooth_max x b mu < 1 /\ d_smooth_max x b mu + d_smooth_max b x mu = 1.
Proof.
  rewrite !d_smooth_max_closed. pose proof (exp_pos (mu * x)). pose proof (exp_pos (mu * b)). split; [split|].
  - apply Rdiv_lt_0_compat; lra.
  - apply Rmult_lt_reg_r with (exp (mu * x) + exp (mu * b)); [lra|]. field_simplify; lra.
  - field. lra.
Qed.

Lemma d_smooth_min_max x b mu : d_smooth_min x b mu = d_smooth_max b x mu.
Proof.
  rewrite d_smooth_max_closed. unfold d_smooth_min.
  replace (- mu * x) with (- (mu * x)) by ring. replace (- mu * b) with (- (mu * b)) by ring.
  rewrite !exp_Ropp. pose proof (exp_pos (mu * x)). pose proof (exp_pos (mu * b)). field. lra.
Qed.

(** ** sin_int *)
Lemma two_pi : 0 < 2 * PI. Proof. pose proof PI_RGT_0. lra. Qed.

Lemma sin_2pi_period x (k : Z) : sin (x + 2 * PI * IZR k) = sin x.
Proof.
  destruct (Z_le_dec 0 k) as [H|H].
  - rewrite <- (Z2Nat.id k H), <- INR_IZR_INZ. replace (2 * PI * INR (Z.to_nat k)) with (2 * INR (Z.to_nat k) * PI) by ring.
    apply sin_period.
  - assert (E : x = (x + 2 * PI * IZR k) + 2 * INR (Z.to_nat (- k)) * PI).
    { rewrite INR_IZR_INZ, Z2Nat.id, opp_IZR by lia. ring. }
    rewrite E at 2. now rewrite sin_period.
Qed.

Lemma sin_int_shift x (k : Z) : sin_int (x + IZR k) = sin_int x + IZR k.
Proof.
  unfold sin_int. replace (2 * PI * (x + IZR k + / 2)) with (2 * PI * (x + / 2) + 2 * PI * IZR k) by ring.
  rewrite sin_2pi_period. ring.
Qed.

Lemma sin_int_0 : sin_int 0 = 0.
Proof.
  unfold sin_int. replace (2 * PI * (0 + / 2)) with PI by field. rewrite sin_PI. field. pose proof two_pi; lra.
Qed.
Lemma sin_int_half : sin_int (/ 2) = / 2.
Proof.
  unfold sin_int. replace (2 * PI * (/ 2 + / 2)) with (2 * PI) by field. rewrite sin_2PI. field. pose proof two_pi; lra.
Qed.
Lemma sin_int_Z (k : Z) : sin_int (IZR k) = IZR k.
Proof. rewrite <- (Rplus_0_l (IZR k)) at 1. rewrite sin_int_shift, sin_int_0. ring. Qed.
Lemma sin_int_Zhalf (k : Z) : sin_int (IZR k + / 2) = IZR k + / 2.
Proof. rewrite Rplus_comm, sin_int_shift, sin_int_half. ring. Qed.

Lemma sin_int_derive x : is_derive sin_int x (dydx_sin_int x).
Proof. unfold sin_int, dydx_sin_int. auto_derive; [trivial|]. pose proof two_pi. field. lra. Qed.

Lemma dydx_nonneg x : 0 <= dydx_sin_int x <= 2.
Proof. unfold dydx_sin_int. pose proof (COS_bound (2 * PI * (x + / 2))). lra. Qed.

Lemma sin_int_mono a b : a <= b -> sin_int a <= sin_int b.
Proof. apply (nondecreasing_of_derive sin_int dydx_sin_int); [apply sin_int_derive|]. intro x. apply dydx_nonneg. Qed.

Lemma sin_int4_derive x : is_derive sin_int4 x (dydx_sin_int4 x).
Proof.
  unfold sin_int4, dydx_sin_int4.
  set (y0 := sin_int x). set (y1 := sin_int y0). set (y2 := sin_int y1).
  assert (D1 : is_derive (fun v => sin_int (sin_int v)) x (dydx_sin_int x * dydx_sin_int y0)).
  { apply (is_derive_comp sin_int sin_int); apply sin_int_derive. }
  assert (D2 : is_derive (fun v => sin_int (sin_int (sin_int v))) x (dydx_sin_int x * dydx_sin_int y0 * dydx_sin_int y1)).
  { apply (is_derive_comp sin_int (fun v => sin_int (sin_int v))); [apply sin_int_derive|exact D1]. }
  assert (D3 : is_derive (fun v => sin_int (sin_int (sin_int (sin_int v)))) x
                 (dydx_sin_int x * dydx_sin_int y0 * dydx_sin_int y1 * dydx_sin_int y2)).
  { apply (is_derive_comp sin_int (fun v => sin_int (sin_int (sin_int v)))); [apply sin_int_derive|exact D2]. }
  replace (dydx_sin_int y2 * dydx_sin_int y1 * dydx_sin_int y0 * dydx_sin_int x)
    with (minus (dydx_sin_int x * dydx_sin_int y0 * dydx_sin_int y1 * dydx_sin_int y2) 0)
    by (unfold minus, plus, opp; simpl; ring).
  apply (is_derive_minus (fun v => sin_int (sin_int (sin_int (sin_int v)))) (fun _ => / 2)); [exact D3|].
  auto_derive; trivial.
Qed.

Lemma sin_int4_mono a b : a <= b -> sin_int4 a <= sin_int4 b.
Proof. intro H. unfold sin_int4. apply Rplus_le_compat_r. now do 4 apply sin_int_mono. Qed.

Lemma sin_int4_Z (k : Z) : sin_int4 (IZR k) = IZR k - / 2.
Proof. unfold sin_int4. now rewrite !sin_int_Z. Qed.
Lemma sin_int4_Zhalf (k : Z) : sin_int4 (IZR k + / 2) = IZR k.
Proof. unfold sin_int4. rewrite !sin_int_Zhalf. ring. Qed.
Lemma sin_int4_shift x (k : Z) : sin_int4 (x + IZR k) = sin_int4 x + IZR k.
Proof. unfold sin_int4. rewrite !sin_int_shift. ring. Qed.

(** Within half a unit of the integer part. *)
Lemma sin_int4_near_floor x (k : Z) : IZR k <= x <= IZR k + 1 -> Rabs (sin_int4 x - IZR k) <= / 2.
Proof.
  intros [H1 H2]. apply sin_int4_mono in H1, H2. rewrite sin_int4_Z in H1.
  replace (IZR k + 1) with (IZR (k + 1)) in H2 by (rewrite plus_IZR; ring). rewrite sin_int4_Z, plus_IZR in H2.
  apply Rabs_le. lra.
Qed.

(** Each step moves every point of the unit interval towards its midpoint (or leaves it). *)
Lemma sin_int_contracts x (k : Z) : IZR k <= x <= IZR k + 1 ->
  Rabs (sin_int x - (IZR k + / 2)) <= Rabs (x - (IZR k + / 2)).
Proof.
  intros [H1 H2]. pose proof two_pi as P.
  assert (S : forall h, 0 <= h <= / 2 -> 0 <= sin (2 * PI * h)).
  { intros h [A B]. apply sin_ge_0; nra. }
  assert (E : sin_int x - (IZR k + / 2) = (x - (IZR k + / 2)) - sin (2 * PI * (x - (IZR k + / 2))) / (2 * PI)).
  { unfold sin_int. replace (2 * PI * (x + / 2)) with (2 * PI * (x - (IZR k + / 2)) + 2 * PI * IZR (k + 1)).
    - rewrite sin_2pi_period. ring.
    - rewrite plus_IZR. field. }
  rewrite E. set (h := x - (IZR k + / 2)). assert (Hh : - / 2 <= h <= / 2) by (unfold h; lra). clearbody h. clear E.
  assert (B : forall u, 0 <= u -> sin u <= u).
  { intros u Hu. destruct Hu as [Hu|Hu]; [left; now apply sin_lt_x|subst; rewrite sin_0; lra]. }
  destruct (Rle_dec 0 h) as [Z|Z].
  - pose proof (S h ltac:(lra)) as S1. pose proof (B (2 * PI * h) ltac:(nra)) as B1.
    assert (0 <= sin (2 * PI * h) / (2 * PI)) by (apply Rmult_le_pos; [exact S1|left; now apply Rinv_0_lt_compat]).
    assert (sin (2 * PI * h) / (2 * PI) <= h).
    { apply Rmult_le_reg_r with (2 * PI); [exact P|]. unfold Rdiv. rewrite Rmult_assoc, Rinv_l by lra. lra. }
    rewrite !Rabs_right; lra.
  - pose proof (S (- h) ltac:(lra)) as S1. pose proof (B (2 * PI * - h) ltac:(nra)) as B1.
    replace (2 * PI * h) with (- (2 * PI * - h)) by ring. rewrite sin_neg.
    assert (0 <= sin (2 * PI * - h) / (2 * PI)) by (apply Rmult_le_pos; [exact S1|left; now apply Rinv_0_lt_compat]).
    assert (sin (2 * PI * - h) / (2 * PI) <= - h).
    { apply Rmult_le_reg_r with (2 * PI); [exact P|]. unfold Rdiv. rewrite Rmult_assoc, Rinv_l by lra. lra. }
    replace (h - - sin (2 * PI * - h) / (2 * PI)) with (h + sin (2 * PI * - h) / (2 * PI)) by (field; lra).
    rewrite !Rabs_left1; lra.
Qed.

(** ** smooth_int_tanh *)
Lemma tanh_bounds x : -1 < tanh x < 1.
Proof.
  unfold tanh, sinh, cosh. pose proof (exp_pos x). pose proof (exp_pos (- x)).
  split; apply Rmult_lt_reg_r with ((exp x + exp (- x)) / 2); try lra; unfold Rdiv;
    rewrite Rmult_assoc, Rinv_l; lra.
Qed.

Lemma tanh_derive x : is_derive tanh x (1 - tanh x ^ 2).
Proof.
  unfold tanh, sinh, cosh. pose proof (exp_pos x). pose proof (exp_pos (- x)).
  auto_derive; [lra|]. field. lra.
Qed.

Lemma tanh_incr a b : a < b -> tanh a < tanh b.
Proof.
  intro H. destruct (MVT_gen tanh a b (fun x => 1 - tanh x ^ 2)) as (c & Hc & E).
  - intros x _. apply tanh_derive.
  - intros x _. apply continuity_pt_filterlim. apply (ex_derive_continuous tanh x). eexists. apply tanh_derive.
  - pose proof (tanh_bounds c). assert (0 < 1 - tanh c ^ 2) by (simpl; nra). assert (0 < (1 - tanh c ^ 2) * (b - a)) by (apply Rmult_lt_0_compat; lra). lra.
Qed.

Lemma floor_bounds x : floorR x <= x < floorR x + 1.
Proof. unfold floorR. destruct (base_Int_part x). lra. Qed.

Lemma floor_unique x (k : Z) : IZR k <= x < IZR k + 1 -> floorR x = IZR k.
Proof.
  intros H. unfold floorR. f_equal. pose proof (floor_bounds x) as F. unfold floorR in F.
  assert (IZR (Int_part x) < IZR (k + 1)) by (rewrite plus_IZR; lra).
  assert (IZR k < IZR (Int_part x + 1)) by (rewrite plus_IZR; lra).
  apply lt_IZR in H0, H1. lia.
Qed.

Lemma smooth_tanh_bounds x mu : floorR x < fst (smooth_int_tanh (x, 0) mu) < floorR x + 1.
Proof. simpl. pose proof (tanh_bounds (mu * (x - floorR x - / 2))). lra. Qed.

Lemma smooth_tanh_derive x mu : floorR x < x ->
  is_derive (fun y => fst (smooth_int_tanh (y, 0) mu)) x (d_smooth_int_tanh (x, 0) mu).
Proof.
  intro H. pose proof (floor_bounds x) as B. set (k := Int_part x). unfold floorR in *. fold k in H, B.
  apply is_derive_near with (g := fun y => IZR k + / 2 * (tanh (mu * (y - IZR k - / 2)) + 1))
                            (P := fun y => IZR k < y /\ y < IZR k + 1).
  - apply (filter_and (fun y => IZR k < y) (fun y => y < IZR k + 1)); [now apply locally_gt|apply locally_lt; lra].
  - intros y Hy. simpl. assert (E : floorR y = IZR k) by (apply floor_unique; lra). now rewrite E.
  - unfold d_smooth_int_tanh. cbn [fst]. unfold floorR. fold k.
    assert (DT : ex_derive tanh (mu * (x - IZR k - / 2))) by (eexists; apply tanh_derive).
    assert (DV : Derive tanh (mu * (x - IZR k - / 2)) = 1 - tanh (mu * (x - IZR k - / 2)) ^ 2)
      by (apply is_derive_unique; apply tanh_derive).
    auto_derive.
    + exact DT.
    + unfold Rminus in DV. change (Derive (fun x => tanh x)) with (Derive tanh). rewrite DV. unfold Rminus. ring.
Qed.

Lemma smooth_tanh_incr a b mu : 0 < mu -> a < b ->
  fst (smooth_int_tanh (a, 0) mu) < fst (smooth_int_tanh (b, 0) mu).
Proof.
  intros M H. pose proof (smooth_tanh_bounds a mu). pose proof (smooth_tanh_bounds b mu).
  pose proof (floor_bounds a) as Fa. pose proof (floor_bounds b) as Fb.
  destruct (Req_dec (floorR a) (floorR b)) as [E|E].
  - simpl. rewrite E. assert (tanh (mu * (a - floorR b - / 2)) < tanh (mu * (b - floorR b - / 2))) by (apply tanh_incr; nra). lra.
  - assert (floorR a + 1 <= floorR b); [|lra]. unfold floorR in *.
    assert (L : IZR (Int_part a) < IZR (Int_part b + 1)) by (rewrite plus_IZR; lra). apply lt_IZR in L.
    assert (Int_part a <> Int_part b) by congruence. rewrite <- plus_IZR. apply IZR_le. lia.
Qed.

(** Complex step: the imaginary part passes through unchanged, i.e. with slope one. *)
Lemma smooth_tanh_complex_step x h mu : snd (smooth_int_tanh (x, h) mu) = h.
Proof. reflexivity. Qed.
Lemma smooth_tanh_complex_step_wrong : exists x mu, 0 < mu /\ floorR x < x /\
  forall h, h <> 0 -> snd (smooth_int_tanh (x, h) mu) / h <> d_smooth_int_tanh (x, 0) mu.
Proof.
  exists (/ 2), 10. assert (E : floorR (/ 2) = 0) by (change 0 with (IZR 0) at 1; apply floor_unique; simpl; lra).
  split; [lra|]. split; [rewrite E; lra|]. intros h Hh. simpl. unfold d_smooth_int_tanh; simpl. rewrite E.
  replace (10 * (/ 2 - 0 - / 2)) with 0 by lra. unfold tanh. rewrite sinh_0. unfold Rdiv. rewrite Rinv_r by exact Hh. lra.
Qed.
