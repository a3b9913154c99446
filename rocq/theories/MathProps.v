(** Properties C30 (sigmoid), C31 (smooth max/min), C32 (sine integer), C44 (tanh integer). *)
From Coq Require Import Reals Lra.
From Coquelicot Require Import Coquelicot.
From Verif Require Import Base MathModel Calc MathProofs.
Local Open Scope R_scope.

(** ** C30 *)
(** Every element of an array call is the blend value of that element, and every element of the
    derivative call is the true derivative of that blend value, away from the cut-off point. *)
Theorem C30_array_call_and_derivative :
  forall xs x0 mu, mu <> 0 ->
    exists ys ds,
      sigmoidX (Arr xs) (Scal x0) mu = Ok (Arr ys) /\ dSigmoidXdx (Arr xs) (Scal x0) mu = Ok (Arr ds) /\
      length ys = length xs /\ length ds = length xs /\
      forall i x, nth_error xs i = Some x ->
        exists y d, nth_error ys i = Some y /\ nth_error ds i = Some d /\
          0 <= y < 1 /\ (-320 < (x - x0) / mu -> y = 1 / (1 + exp (- ((x - x0) / mu)))) /\
          ((x - x0) / mu <> -320 ->
             is_derive (fun v => match sigmoidX (Arr [v]) (Scal x0) mu with Ok (Arr [w]) => w | _ => 0 end) x d).
Proof.
  intros xs x0 mu M. rewrite (sigmoidX_arr xs x0 mu M), (dSigmoidXdx_arr xs x0 mu M).
  eexists. eexists. split; [reflexivity|]. split; [reflexivity|]. rewrite !map_length.
  split; [reflexivity|]. split; [reflexivity|]. intros i x Hx.
  exists (sigmoid_elem x x0 mu), (dsigmoid_elem x x0 mu).
  split; [apply map_nth_error with (f := fun v => sigmoid_elem v x0 mu); exact Hx|].
  split; [apply map_nth_error with (f := fun v => dsigmoid_elem v x0 mu); exact Hx|].
  split; [apply sigmoid_range|]. split.
  - intro H. rewrite sigmoid_elem_logistic. destruct (Rlt_dec _ _); [reflexivity|contradiction].
  - intro N. apply is_derive_ext with (f := fun v => sigmoid_elem v x0 mu).
    + intro t. now rewrite (sigmoidX_arr [t] x0 mu M).
    + now apply sigmoid_derive.
Qed.
Print Assumptions C30_array_call_and_derivative.

Theorem C30_monotone :
  forall x y x0 mu, x <= y ->
    (0 < mu -> sigmoid_elem x x0 mu <= sigmoid_elem y x0 mu) /\
    (mu < 0 -> sigmoid_elem y x0 mu <= sigmoid_elem x x0 mu).
Proof. intros x y x0 mu H. split; intro M; [now apply sigmoid_mono|now apply sigmoid_antimono]. Qed.
Print Assumptions C30_monotone.

Theorem C30_half_at_center_and_reflection :
  forall x0 mu, mu <> 0 -> sigmoid_elem x0 x0 mu = / 2 /\
    forall d, Rabs (d / mu) < 320 ->
      sigmoid_elem (x0 + d) x0 mu + sigmoid_elem (x0 - d) x0 mu = 1 /\
      sigmoid_elem (x0 + d) x0 mu + sigmoid_elem (x0 + d) x0 (- mu) = 1.
Proof.
  intros x0 mu M. split; [now apply sigmoid_center|]. intros d H.
  split; [now apply sigmoid_reflect|]. apply sigmoid_complement; [exact M|].
  now replace ((x0 + d - x0) / mu) with (d / mu) by (field; exact M).
Qed.
Print Assumptions C30_half_at_center_and_reflection.

(** Cutting off changes the value by at most exp(-320). *)
Theorem C30_cut_off_error :
  forall x x0 mu, Rabs (sigmoid_elem x x0 mu - 1 / (1 + exp (- ((x - x0) / mu)))) <= exp (-320).
Proof. exact sigmoid_cut_error. Qed.
Print Assumptions C30_cut_off_error.

(** At the cut-off itself the computed function is not differentiable, so the derivative statement cannot
    be extended to every x. *)
Theorem C30_derivative_at_cut_off_refuted :
  forall x0 mu, 0 < mu -> ~ ex_derive (fun y => sigmoid_elem y x0 mu) (x0 - 320 * mu).
Proof. exact sigmoid_cut_no_derivative. Qed.
Print Assumptions C30_derivative_at_cut_off_refuted.

Theorem C30_zero_steepness_rejected :
  forall x x0, sigmoidX x x0 0 = Err ValueError /\ dSigmoidXdx x x0 0 = Err ValueError.
Proof. exact zero_mu_error. Qed.
Print Assumptions C30_zero_steepness_rejected.

(** Scalar arguments: fine for 0 < mu <= 1 ... *)
Theorem C30_scalar_call_small_steepness :
  forall x x0 mu, 0 < mu <= 1 -> exists y, sigmoidX (Scal x) (Scal x0) mu = Ok (Scal y) /\
    Rabs (y - 1 / (1 + exp (- ((x - x0) / mu)))) <= exp (-320).
Proof.
  intros x x0 mu M. exists (sigmoid_scalar x x0 mu). split; [apply sigmoidX_scal; lra|]. now apply scalar_small_mu.
Qed.
Print Assumptions C30_scalar_call_small_steepness.

(** ... but for large mu the scalar branch returns 0 where the array branch returns more than 1/5 ... *)
Theorem C30_scalar_call_refuted :
  exists x x0 mu, 0 < mu /\ sigmoidX (Scal x) (Scal x0) mu = Ok (Scal 0) /\
    exists y, sigmoidX (Arr [x]) (Scal x0) mu = Ok (Arr [y]) /\ 1 / 5 < y.
Proof.
  destruct scalar_large_mu_wrong as (x & x0 & mu & M & E & H). exists x, x0, mu. split; [exact M|]. split.
  - rewrite sigmoidX_scal by lra. now rewrite E.
  - exists (sigmoid_elem x x0 mu). split; [|exact H]. rewrite sigmoidX_arr by lra. reflexivity.
Qed.
Print Assumptions C30_scalar_call_refuted.

(** ... and the derivative of a scalar always raises. *)
Theorem C30_scalar_derivative_refuted :
  forall x x0 mu, mu <> 0 -> dSigmoidXdx (Scal x) (Scal x0) mu = Err UnboundLocalError.
Proof. exact dSigmoidXdx_scal_error. Qed.
Print Assumptions C30_scalar_derivative_refuted.

(** An array of thresholds: the derivative works exactly when no element is cut off. *)
Theorem C30_array_threshold :
  forall xs a mu, mu <> 0 -> length a = length xs -> length a <> 1%nat ->
    sigmoidX (Arr xs) (Arr a) mu = Ok (Arr (map2 (fun v b => sigmoid_elem v b mu) xs a)) /\
    (dSigmoidXdx (Arr xs) (Arr a) mu = Ok (Arr (map2 (fun v b => dsigmoid_elem v b mu) xs a)) <->
     Forall (fun p => -320 < (fst p - snd p) / mu) (combine xs a)).
Proof. exact array_threshold_agrees. Qed.
Print Assumptions C30_array_threshold.

Example C30_witness : sigmoidX (Arr [5]) (Scal 5) 2 = Ok (Arr [/ 2]).
Proof. rewrite sigmoidX_arr by lra. simpl. now rewrite sigmoid_center by lra. Qed.

(** ** C31 *)
Theorem C31_smooth_max_brackets :
  forall x b mu, 0 < mu -> Rmax x b <= smooth_max x b mu <= Rmax x b + ln 2 / mu.
Proof. exact smooth_max_bounds. Qed.
Print Assumptions C31_smooth_max_brackets.

Theorem C31_smooth_min_brackets :
  forall x b mu, 0 < mu -> Rmin x b - ln 2 / mu <= smooth_min x b mu <= Rmin x b.
Proof. exact smooth_min_bounds. Qed.
Print Assumptions C31_smooth_min_brackets.

(** The stabilised formula of smooth_max is the plain log-sum-exp, and min and max add up. *)
Theorem C31_closed_forms :
  forall x b mu, mu <> 0 ->
    smooth_max x b mu = ln (exp (mu * x) + exp (mu * b)) / mu /\
    smooth_min x b mu = - smooth_max (- x) (- b) mu /\
    smooth_min x b mu + smooth_max x b mu = x + b.
Proof. intros x b mu M. split; [now apply smooth_max_closed|]. split; [now apply smooth_min_max|now apply smooth_sum]. Qed.
Print Assumptions C31_closed_forms.

Theorem C31_derivatives :
  forall x b mu, mu <> 0 ->
    is_derive (fun y => smooth_max y b mu) x (d_smooth_max x b mu) /\
    is_derive (fun y => smooth_min y b mu) x (d_smooth_min x b mu).
Proof. intros x b mu M. split; [now apply smooth_max_derive|now apply smooth_min_derive]. Qed.
Print Assumptions C31_derivatives.

Theorem C31_derivatives_are_weights :
  forall x b mu, 0 < d_smooth_max x b mu < 1 /\ d_smooth_max x b mu + d_smooth_max b x mu = 1 /\
                 d_smooth_min x b mu = d_smooth_max b x mu.
Proof. intros x b mu. destruct (d_smooth_max_bounds x b mu). split; [assumption|]. split; [assumption|apply d_smooth_min_max]. Qed.
Print Assumptions C31_derivatives_are_weights.

Example C31_witness : smooth_max 1 1 10 = 1 + ln 2 / 10.
Proof.
  unfold smooth_max. rewrite Rmax_left by lra. replace (10 * 1 - 10 * 1) with 0 by ring.
  rewrite exp_0. replace (1 + 1) with 2 by ring. field.
Qed.

(** ** C32 *)
Theorem C32_fixed_points :
  forall k : Z, sin_int (IZR k) = IZR k /\ sin_int (IZR k + / 2) = IZR k + / 2 /\
                sin_int4 (IZR k + / 2) = IZR k /\ sin_int4 (IZR k) = IZR k - / 2.
Proof. intro k. repeat split; [apply sin_int_Z|apply sin_int_Zhalf|apply sin_int4_Zhalf|apply sin_int4_Z]. Qed.
Print Assumptions C32_fixed_points.

Theorem C32_monotone_and_periodic :
  forall a b, (a <= b -> sin_int a <= sin_int b /\ sin_int4 a <= sin_int4 b) /\
    forall k : Z, sin_int (a + IZR k) = sin_int a + IZR k /\ sin_int4 (a + IZR k) = sin_int4 a + IZR k.
Proof.
  intros a b. split; [intro H; split; [now apply sin_int_mono|now apply sin_int4_mono]|].
  intro k. split; [apply sin_int_shift|apply sin_int4_shift].
Qed.
Print Assumptions C32_monotone_and_periodic.

(** Every point of [k, k+1] is moved towards the midpoint, and the result is within 1/2 of k. *)
Theorem C32_approximates_integer_part :
  forall x (k : Z), IZR k <= x <= IZR k + 1 ->
    Rabs (sin_int x - (IZR k + / 2)) <= Rabs (x - (IZR k + / 2)) /\ Rabs (sin_int4 x - IZR k) <= / 2.
Proof. intros x k H. split; [now apply sin_int_contracts|now apply sin_int4_near_floor]. Qed.
Print Assumptions C32_approximates_integer_part.

Theorem C32_derivatives :
  forall x, is_derive sin_int x (dydx_sin_int x) /\ is_derive sin_int4 x (dydx_sin_int4 x).
Proof. intro x. split; [apply sin_int_derive|apply sin_int4_derive]. Qed.
Print Assumptions C32_derivatives.

Example C32_witness : sin_int4 (5 / 2) = 2.
Proof. replace (5 / 2) with (IZR 2 + / 2) by (simpl; lra). apply sin_int4_Zhalf. Qed.

(** ** C44 *)
Theorem C44_bracketed_and_increasing :
  forall x mu, floorR x <= x < floorR x + 1 /\
    floorR x < fst (smooth_int_tanh (x, 0) mu) < floorR x + 1 /\
    (0 < mu -> forall y, x < y -> fst (smooth_int_tanh (x, 0) mu) < fst (smooth_int_tanh (y, 0) mu)).
Proof.
  intros x mu. split; [apply floor_bounds|]. split; [apply smooth_tanh_bounds|]. intros M y H. now apply smooth_tanh_incr.
Qed.
Print Assumptions C44_bracketed_and_increasing.

Theorem C44_derivative :
  forall x mu, floorR x < x ->
    is_derive (fun y => fst (smooth_int_tanh (y, 0) mu)) x (d_smooth_int_tanh (x, 0) mu).
Proof. exact smooth_tanh_derive. Qed.
Print Assumptions C44_derivative.

(** A complex step through smooth_int_tanh always gives slope one, not the declared derivative. *)
Theorem C44_complex_step_refuted :
  (forall x h mu, h <> 0 -> snd (smooth_int_tanh (x, h) mu) / h = 1) /\
  exists x mu, 0 < mu /\ floorR x < x /\
    forall h, h <> 0 -> snd (smooth_int_tanh (x, h) mu) / h <> d_smooth_int_tanh (x, 0) mu.
Proof.
  split; [|exact smooth_tanh_complex_step_wrong]. intros x h mu H. rewrite smooth_tanh_complex_step.
  unfold Rdiv. now apply Rinv_r.
Qed.
Print Assumptions C44_complex_step_refuted.

Example C44_witness : fst (smooth_int_tanh (/ 2, 0) 10) = / 2.
Proof.
  simpl. assert (E : floorR (/ 2) = 0) by (change 0 with (IZR 0) at 1; apply floor_unique; simpl; lra).
  rewrite E. replace (10 * (/ 2 - 0 - / 2)) with 0 by lra. unfold tanh. rewrite sinh_0. lra.
Qed.
