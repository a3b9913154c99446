(** Skin friction: claim C60. *)
From Coq Require Import Reals Lra Lia.
From Coquelicot Require Import Coquelicot.
From Verif Require Import Base Calc MathModel MathProofs Comp CompMore CompFun FAeroModel FAeroProofs.
Local Open Scope R_scope.

Definition CFLf (c w : R) : R := c / (1 + 359 / 100 * sqrt c * w).
Lemma CFL_rate (c w : R -> R) x dc dw : is_derive c x dc -> is_derive w x dw -> 0 < c x -> 0 < w x ->
  is_derive (fun t => CFLf (c t) (w t)) x
   ((1 / (1 + 359 / 100 * sqrt (c x) * w x) - c x * (359 / 100) * w x * (5 / 10) / (sqrt (c x) * (1 + 359 / 100 * sqrt (c x) * w x) ^ 2)) * dc +
    - c x * (359 / 100) * sqrt (c x) / (1 + 359 / 100 * sqrt (c x) * w x) ^ 2 * dw).
Proof.
  intros C W P Q. assert (S := sqrt_lt_R0 _ P). assert (0 < sqrt (c x) * w x) by (now apply Rmult_lt_0_compat).
  assert (1 + 359 / 100 * sqrt (c x) * w x <> 0) by lra.
  known C. known W. unfold CFLf. auto_derive; minus_div; [tauto|].
  put_derive C. put_derive W. plain. field. repeat split; lra.
Qed.
Definition combf (RE m T : R) : R := 4593153 / 1000000000000 * (8 / 10) * (T + 19872 / 100) / (RE * m * T ** (15 / 10)).
Lemma comb_rate (r m T : R -> R) x dr dm dT : is_derive r x dr -> is_derive m x dm -> is_derive T x dT -> 0 < r x -> 0 < m x -> 0 < T x ->
  is_derive (fun t => combf (r t) (m t) (T t)) x
   (- 4593153 / 1000000000000 * (8 / 10) * (T x + 19872 / 100) / (r x * r x * m x * T x ** (15 / 10)) * dr +
    - 4593153 / 1000000000000 * (8 / 10) * (T x + 19872 / 100) / (r x * m x * m x * T x ** (15 / 10)) * dm +
    4593153 / 1000000000000 * (8 / 10) * (1 / T x ** (15 / 10) - 15 / 10 * (T x + 19872 / 100) / T x ** (25 / 10)) / (r x * m x) * dT).
Proof.
  intros A B C P Q U. known A. known B. known C. unfold combf.
  assert (V := pw_pos (15 / 10) (T x) U).
  assert (r x * m x * T x ** (15 / 10) <> 0) by (apply Rgt_not_eq; repeat apply Rmult_lt_0_compat; assumption).
  auto_derive; minus_div; [repeat split; assumption|].
  put_derive A. put_derive B. put_derive C. plain.
  replace (15 / 10 - 1) with (5 / 10) by lra. rewrite (half_up (25 / 10) 5), (half_up (15 / 10) 3), (half_up (5 / 10) 1) by (assumption || inr).
  assert (S := sqrt_lt_R0 _ U). assert (ET : T x = sqrt (T x) * sqrt (T x)) by (symmetry; apply sqrt_def; lra).
  revert S ET. generalize (sqrt (T x)). intros s S ET. rewrite !ET. field. repeat split; lra.
Qed.
Definition wallf (TAW q L w : R) : R := (TAW / (1 + q * w ^ 3 / L) + w) * (5 / 10) - w.
Lemma wall_rate TAW (q L w : R -> R) x dq dL dw : is_derive q x dq -> is_derive L x dL -> is_derive w x dw -> L x <> 0 -> 1 + q x * w x ^ 3 / L x <> 0 ->
  is_derive (fun t => wallf TAW (q t) (L t) (w t)) x
   (- 5 / 10 * TAW * w x ^ 3 / (L x * (1 + q x * w x ^ 3 / L x) ^ 2) * dq + 5 / 10 * TAW * (q x * w x ^ 3) / (L x * (1 + q x * w x ^ 3 / L x)) ^ 2 * dL +
    (- 5 / 10 - 15 / 10 * TAW * (q x * w x ^ 2) / (L x * (1 + q x * w x ^ 3 / L x) ^ 2)) * dw).
Proof.
  intros A B C N M. known A. known B. known C. unfold wallf.
  auto_derive; minus_div; [repeat split; assumption|].
  put_derive A. put_derive B. put_derive C. plain. fold_pow. 
  assert (L x + q x * w x ^ 3 <> 0) by (intro Z; apply M; replace (1 + q x * w x ^ 3 / L x) with ((L x + q x * w x ^ 3) / L x) by (field; assumption); rewrite Z; unfold Rdiv; ring).
  field. repeat split; assumption.
Qed.
Definition RPf (re w T : R) : R := re * (w * T + 19872 / 100) / ((T + 19872 / 100) * w ** (25 / 10)).
Definition cff (re w T c : R) : R := (242 / 1000 * (2302585 / 1000000) / ln (RPf re w T * c)) ^ 2 - c.
Lemma RP_rate (re w T : R -> R) x dre dw dT : is_derive re x dre -> is_derive w x dw -> is_derive T x dT -> 0 < w x -> 0 < T x ->
  is_derive (fun t => RPf (re t) (w t) (T t)) x
   ((w x * T x + 19872 / 100) * (1 / ((T x + 19872 / 100) * w x ** (25 / 10))) * dre +
    re x * (T x * (1 * (1 / ((T x + 19872 / 100) * w x ** (25 / 10)))) -
            (w x * T x + 19872 / 100) * (25 / 10) * ((T x + 19872 / 100) * w x ** (15 / 10)) * (1 / ((T x + 19872 / 100) * w x ** (25 / 10))) ^ 2) * dw +
    re x * (w x * (1 / ((T x + 19872 / 100) * w x ** (25 / 10))) - (w x * T x + 19872 / 100) * w x ** (25 / 10) * (1 / ((T x + 19872 / 100) * w x ** (25 / 10))) ^ 2) * dT).
Proof.
  intros A B C W P. known A. known B. known C. unfold RPf. assert (V := pw_pos (25 / 10) (w x) W).
  assert ((T x + 19872 / 100) * w x ** (25 / 10) <> 0) by (apply Rgt_not_eq; apply Rmult_lt_0_compat; lra).
  auto_derive; minus_div; [repeat split; assumption|].
  put_derive A. put_derive B. put_derive C. plain.
  replace (25 / 10 - 1) with (15 / 10) by lra. field. lra.
Qed.
Lemma cf_rate (p c : R -> R) x dp dc : is_derive p x dp -> is_derive c x dc -> 0 < p x -> 0 < c x -> p x * c x <> 1 ->
  is_derive (fun t => (242 / 1000 * (2302585 / 1000000) / ln (p t * c t)) ^ 2 - c t) x
   (- 2 * (242 / 1000 * (2302585 / 1000000)) ^ 2 / (p x * ln (p x * c x) ^ 3) * dp +
    (- 2 * (242 / 1000 * (2302585 / 1000000)) ^ 2 / (c x * ln (p x * c x) ^ 3) - 1) * dc).
Proof.
  intros A B P Q N. known A. known B. assert (PC : 0 < p x * c x) by (now apply Rmult_lt_0_compat).
  assert (L : ln (p x * c x) <> 0) by (intro Z; apply N; apply ln_inv; [exact PC|lra|rewrite ln_1; exact Z]).
  auto_derive; minus_div; [repeat split; assumption|].
  put_derive A. put_derive B. plain. field. repeat split; lra.
Qed.
(** Where the residuals of the skin friction are defined. *)
Definition wtr (e : env) : R := 1 + 45 / 100 * (e v_wall_temp * (1 / e Dynamic_Atmosphere_TEMPERATURE) - 1) + 35 / 1000 * e Dynamic_Atmosphere_MACH * e Dynamic_Atmosphere_MACH.
Definition RE1 (e : env) : R := 1479301000 * (e Dynamic_Atmosphere_STATIC_PRESSURE / (146959 / 10000 * 144)) *
  (e Dynamic_Atmosphere_TEMPERATURE / (18 / 10) + 1104 / 10) / (e Dynamic_Atmosphere_TEMPERATURE / (18 / 10)) ^ 2.
Definition skin_regular (e : env) : Prop :=
  0 < wtr e /\ RPf (RE1 e * e Dynamic_Atmosphere_MACH * e v_characteristic_lengths) (wtr e) (e Dynamic_Atmosphere_TEMPERATURE) * e v_cf_iter <> 1.
Lemma RE_T (p T : R) : 0 < T -> is_derive (fun t => 1479301000 * (p / (146959 / 10000 * 144)) * (t / (18 / 10) + 1104 / 10) / (t / (18 / 10)) ^ 2) T (- 1479301000 / (18 / 10) * (p / (146959 / 10000 * 144) * (1 / (T / (18 / 10)) ^ 2 + 2 * (1104 / 10) / (T / (18 / 10)) ^ 3))).
Proof. intros. auto_derive; minus_div; [repeat split; trivial; try lra; fold_pow; try (apply Rgt_not_eq; apply pow_lt; lra) | field; lra]. Qed.
Lemma RE_p (p T : R) : 0 < T -> is_derive (fun t => 1479301000 * (t / (146959 / 10000 * 144)) * (T / (18 / 10) + 1104 / 10) / (T / (18 / 10)) ^ 2) p (1479301000 * (T / (18 / 10) + 1104 / 10) / (146959 / 10000 * 144 * (T / (18 / 10)) ^ 2)).
Proof. intros. auto_derive; minus_div; [repeat split; trivial; try lra; fold_pow; try (apply Rgt_not_eq; apply pow_lt; lra) | field; lra]. Qed.
Lemma re_T (p T m l : R) : 0 < T -> is_derive (fun t => 1479301000 * (p / (146959 / 10000 * 144)) * (t / (18 / 10) + 1104 / 10) / (t / (18 / 10)) ^ 2 * m * l) T (- 1479301000 / (18 / 10) * (p / (146959 / 10000 * 144) * (1 / (T / (18 / 10)) ^ 2 + 2 * (1104 / 10) / (T / (18 / 10)) ^ 3)) * m * l).
Proof. intros. auto_derive; minus_div; [repeat split; trivial; try lra; fold_pow; try (apply Rgt_not_eq; apply pow_lt; lra) | field; lra]. Qed.
Lemma re_p (p T m l : R) : 0 < T -> is_derive (fun t => 1479301000 * (t / (146959 / 10000 * 144)) * (T / (18 / 10) + 1104 / 10) / (T / (18 / 10)) ^ 2 * m * l) p (1479301000 * (T / (18 / 10) + 1104 / 10) / (146959 / 10000 * 144 * (T / (18 / 10)) ^ 2) * m * l).
Proof. intros. auto_derive; minus_div; [repeat split; trivial; try lra; fold_pow; try (apply Rgt_not_eq; apply pow_lt; lra) | field; lra]. Qed.
Lemma re_m (p T m l : R) : 0 < T -> is_derive (fun t => 1479301000 * (p / (146959 / 10000 * 144)) * (T / (18 / 10) + 1104 / 10) / (T / (18 / 10)) ^ 2 * t * l) m (1479301000 * (p / (146959 / 10000 * 144)) * (T / (18 / 10) + 1104 / 10) / (T / (18 / 10)) ^ 2 * l).
Proof. intros. auto_derive; minus_div; [repeat split; trivial; try lra; fold_pow; try (apply Rgt_not_eq; apply pow_lt; lra) | field; lra]. Qed.
Lemma re_l (p T m l : R) : 0 < T -> is_derive (fun t => 1479301000 * (p / (146959 / 10000 * 144)) * (T / (18 / 10) + 1104 / 10) / (T / (18 / 10)) ^ 2 * m * t) l (1479301000 * (p / (146959 / 10000 * 144)) * (T / (18 / 10) + 1104 / 10) / (T / (18 / 10)) ^ 2 * m).
Proof. intros. auto_derive; minus_div; [repeat split; trivial; try lra; fold_pow; try (apply Rgt_not_eq; apply pow_lt; lra) | field; lra]. Qed.
Lemma w_T (wt T m : R) : 0 < T -> is_derive (fun t => 1 + 45 / 100 * (wt * (1 / t) - 1) + 35 / 1000 * m * m) T (- 45 / 100 * (wt * (1 / T ^ 2))).
Proof. intros. auto_derive; minus_div; [repeat split; trivial; try lra; fold_pow; try (apply Rgt_not_eq; apply pow_lt; lra) | field; lra]. Qed.
Lemma w_m (wt T m : R) : 0 < T -> is_derive (fun t => 1 + 45 / 100 * (wt * (1 / T) - 1) + 35 / 1000 * t * t) m (7 / 100 * m).
Proof. intros. auto_derive; minus_div; [repeat split; trivial; try lra; fold_pow; try (apply Rgt_not_eq; apply pow_lt; lra) | field; lra]. Qed.
Lemma w_wt (wt T m : R) : 0 < T -> is_derive (fun t => 1 + 45 / 100 * (t * (1 / T) - 1) + 35 / 1000 * m * m) wt (45 / 100 / T).
Proof. intros. auto_derive; minus_div; [repeat split; trivial; try lra; fold_pow; try (apply Rgt_not_eq; apply pow_lt; lra) | field; lra]. Qed.
Lemma RE_pos p T : 0 < p -> 0 < T -> 0 < 1479301000 * (p / (146959 / 10000 * 144)) * (T / (18 / 10) + 1104 / 10) / (T / (18 / 10)) ^ 2.
Proof. intros. apply Rdiv_lt_0_compat; [repeat apply Rmult_lt_0_compat; lra|apply pow_lt; lra]. Qed.
Ltac rate := lazymatch goal with
  | |- is_derive (fun _ => ?c) _ _ => apply (is_derive_const (V := R_NormedModule))
  | |- is_derive (fun t => t) _ _ => apply (is_derive_id (K := R_AbsRing))
  | |- is_derive (fun t => 1 + 45 / 100 * (t * (1 / ?T) - 1) + 35 / 1000 * ?m * ?m) ?w _ => apply (w_wt w T m); assumption
  | |- is_derive (fun t => 1 + 45 / 100 * (?w * (1 / t) - 1) + 35 / 1000 * ?m * ?m) ?T _ => apply (w_T w T m); assumption
  | |- is_derive (fun t => 1 + 45 / 100 * (?w * (1 / ?T) - 1) + 35 / 1000 * t * t) ?m _ => apply (w_m w T m); assumption
  | |- is_derive (fun t => 1479301000 * (?p / _) * (t / _ + _) / _ * ?m * ?l) ?T _ => apply (re_T p T m l); assumption
  | |- is_derive (fun t => 1479301000 * (t / _) * (?T / _ + _) / _ * ?m * ?l) ?p _ => apply (re_p p T m l); assumption
  | |- is_derive (fun t => 1479301000 * (?p / _) * (?T / _ + _) / _ * t * ?l) ?m _ => apply (re_m p T m l); assumption
  | |- is_derive (fun t => 1479301000 * (?p / _) * (?T / _ + _) / _ * ?m * t) ?l _ => apply (re_l p T m l); assumption
  | |- is_derive (fun t => 1479301000 * (?p / _) * (t / _ + _) / _) ?T _ => apply (RE_T p T); assumption
  | |- is_derive (fun t => 1479301000 * (t / _) * (?T / _ + _) / _) ?p _ => apply (RE_p p T); assumption
  end.
Ltac done_rate := cbv beta; change (@zero R_NormedModule) with 0; change (@one R_AbsRing) with 1; plain.
Ltac skin_case := match goal with
  | |- is_derive (fun t => (?TAW / (1 + 4593153 / 1000000000000 * (8 / 10) * (@?T t + _) / (@?RE t * @?m t * (@?T t) ** (15 / 10)) * (@?w t) ^ 3 /
         (@?c t / (1 + 359 / 100 * sqrt (@?c t) * (@?g t)))) + (@?w t)) * (5 / 10) - (@?w t)) ?x ?d =>
      change (is_derive (fun t => wallf TAW (combf (RE t) (m t) (T t)) (CFLf (c t) (g t)) (w t)) x d);
      eapply is_derive_eq;
      [apply (wall_rate TAW (fun t => combf (RE t) (m t) (T t)) (fun t => CFLf (c t) (g t)) w x);
        [apply (comb_rate RE m T); [rate|rate|rate|apply RE_pos; assumption|assumption|assumption]
        |apply (CFL_rate c g); [rate|rate|assumption|assumption] | rate | | ] | ]
  | |- is_derive (fun t => (_ / ln (@?re t * (@?w t * (@?T t) + _) / _ * (@?c t))) ^ 2 - (@?c t)) ?x ?d =>
      change (is_derive (fun t => cff (re t) (w t) (T t) (c t)) x d); unfold cff;
      eapply is_derive_eq;
      [apply (cf_rate (fun t => RPf (re t) (w t) (T t)) c x);
        [apply (RP_rate re w T); [rate|rate|rate|assumption|assumption]|rate| | | ]|]
  end.
Lemma RPf_pos re w T : 0 < re -> 0 < w -> 0 < T -> 0 < RPf re w T.
Proof. intros. unfold RPf. assert (0 < w * T) by (now apply Rmult_lt_0_compat). apply Rdiv_lt_0_compat; apply Rmult_lt_0_compat; try assumption; try lra. now apply pw_pos. Qed.
Lemma CFLf_pos c w : 0 < c -> 0 < w -> 0 < CFLf c w.
Proof. intros P Q. unfold CFLf. assert (S := sqrt_lt_R0 _ P). assert (0 < sqrt c * w) by (now apply Rmult_lt_0_compat). apply Rdiv_lt_0_compat; lra. Qed.
Lemma combf_pos r m T : 0 < r -> 0 < m -> 0 < T -> 0 < combf r m T.
Proof. intros. unfold combf. apply Rdiv_lt_0_compat; [lra|]. repeat apply Rmult_lt_0_compat; try assumption. now apply pw_pos. Qed.
Lemma one_more a b c : 0 < a -> 0 < b -> 0 < c -> 1 + a * b / c <> 0.
Proof. intros. assert (0 < a * b / c) by (apply Rdiv_lt_0_compat; [now apply Rmult_lt_0_compat|assumption]). lra. Qed.
Lemma quot_rate (a b : R -> R) x k da db : is_derive a x da -> is_derive b x db -> b x <> 0 ->
  is_derive (fun t => k - a t / b t) x (- da / b x + a x / b x ^ 2 * db).
Proof. intros A B N. known A. known B. auto_derive; minus_div; [repeat split; assumption|]. put_derive A. put_derive B. plain. field. assumption. Qed.
Theorem C60_SkinFriction op : exact_nodes SkinFriction_shared (SkinFriction op) (fun e =>
  positive [Dynamic_Atmosphere_TEMPERATURE; Dynamic_Atmosphere_STATIC_PRESSURE; Dynamic_Atmosphere_MACH; v_characteristic_lengths; v_cf_iter; v_wall_temp] e /\
  skin_regular e) [].
Proof.
  apply nodes_exact. exact_start; exact_prepare.
  all: try match goal with |- is_derive (fun _ => ?c) _ _ => apply (is_derive_const (V := R_NormedModule)) end.
  all: (try skin_case).
  all: try match goal with
    | |- 0 < RPf _ _ _ => apply RPf_pos; [apply Rmult_lt_0_compat; [apply Rmult_lt_0_compat; [apply RE_pos|]|]; assumption|assumption|assumption]
    | |- CFLf _ _ <> 0 => apply Rgt_not_eq, CFLf_pos; assumption
    | |- 1 + combf _ _ _ * _ / CFLf _ _ <> 0 => apply one_more; [apply combf_pos; [apply RE_pos| |]; assumption|apply pow_lt; assumption|apply CFLf_pos; assumption]
    | |- RPf _ _ _ * _ <> 1 => unfold RPf; assumption
    | |- 0 < _ => assumption end.
  all: (try match goal with
    | |- is_derive (fun t => ?a - 1479301000 * (?p / ?q) * (?T / ?c + ?h) / _ * _ * _) _ _ => 
        eapply is_derive_eq; [apply @is_derive_minus; rate|done_rate; cbv [minus plus opp]; simpl; ring]
    | |- is_derive (fun t => t - ?a) _ _ => auto_derive; [trivial|minus_div; ring]
    | |- is_derive (fun t => _ - 1479301000 * _ * _ / _ * _ * _) _ _ =>
        eapply is_derive_eq; [apply @is_derive_minus; rate|done_rate; cbv [minus plus opp]; simpl; ring]
    | |- is_derive (fun t => _ - @?a t / @?b t) ?x _ => eapply is_derive_eq; [apply (quot_rate a b x); [rate|rate|apply Rgt_not_eq; assumption]|done_rate] end).
  all: try match goal with |- @eq _ _ _ => done_rate; unfold RPf, CFLf, combf;
    try match goal with |- context [?a * ?b * (1 / ?d) * ?c] => replace (a * b * (1 / d)) with (a * b / d) by (unfold Rdiv; ring) end end.
  all: (try match goal with |- context [1479301000 * (?p / ?q) * (?T / ?c + ?h) / (?T / ?c) ^ 2] => generalize (1479301000 * (p / q) * (T / c + h) / (T / c) ^ 2); intro end;
     try match goal with |- context [1 + 45 / 100 * ?a + ?b] => generalize (1 + 45 / 100 * a + b); intro end; try ring).
  all: try (match goal with |- is_derive _ _ _ => auto_derive; [trivial|minus_div; ring] end).
  all: plain; unfold Rdiv; rewrite ?Rmult_0_r, ?Ropp_0, ?Rmult_0_l, ?Rplus_0_l; ring.
Qed.
Print Assumptions C60_SkinFriction.
Example C60_witness_SkinFriction : let e : env := fun _ => 1 in 0 < wtr e /\ 0 < RE1 e.
Proof. cbv zeta. unfold wtr, RE1. split; lra. Qed.

Ltac term_goal :=
  try match goal with |- context [434255 / 100000 + ?a] => generalize (434255 / 100000 + a); intro end;
  try match goal with |- context [(1 + ?f * (294206 / 100000 + ?b)) * (2 - ?r) + ?c] => generalize ((1 + f * (294206 / 100000 + b)) * (2 - r) + c); intro end;
  repeat settle; 
  auto_derive; minus_div; [repeat split; trivial; try (apply Rgt_not_eq; try apply sqrt_lt_R0; assumption)|plain].
Theorem C60_SkinFrictionTerm : forall op, ob op v_laminar = true ->
  exact_nodes SkinFrictionTerm_shared (SkinFrictionTerm op)
    (fun e => positive [v_Re; Aircraft_Wing_AREA] e /\ e v_fineness_ratios <> 5 / 10 /\ e v_fineness_ratios <> 20) [].
Proof. intros op L. unfold v_laminar in L. apply nodes_exact. exact_start; exact_prepare; try (exfalso; congruence).
  all: term_goal.
  all: try match goal with H : 0 < ?r |- context [sqrt ?r] => assert (0 < sqrt r) by (now apply sqrt_lt_R0) end.
  all: (try (field; repeat split; lra)).
  all: (try (rewrite (half_up (15 / 10) 3) by (assumption || inr); field; repeat split; lra)).
Qed.
Print Assumptions C60_SkinFrictionTerm.
Example C60_witness_SkinFrictionTerm : out (SkinFrictionTerm unit_options) (fun _ => 1) v_skin_friction_drag_coeff = 1678858448121 / 250000000000.
Proof. unit_value. Qed.

(** Without laminar flow the partial derivatives for the laminar fractions are those to the right of 0. *)
Theorem C60_SkinFrictionTerm_turbulent : forall op, ob op v_laminar = false ->
  exact_nodes SkinFrictionTerm_shared (SkinFrictionTerm op)
    (fun e => positive [v_Re; Aircraft_Wing_AREA] e /\ e v_fineness_ratios <> 5 / 10 /\ e v_fineness_ratios <> 20)
    [(v_skin_friction_drag_coeff, v_laminar_fractions_upper); (v_skin_friction_drag_coeff, v_laminar_fractions_lower)].
Proof.
  intros op L. unfold v_laminar in L. apply nodes_except. except_start; exact_prepare; try (exfalso; congruence).
  all: term_goal.
  all: try match goal with H : 0 < ?r |- context [sqrt ?r] => assert (0 < sqrt r) by (now apply sqrt_lt_R0) end.
  all: field; repeat split; lra.
Qed.
Print Assumptions C60_SkinFrictionTerm_turbulent.
Example C60_witness_turbulent : positive [v_Re; Aircraft_Wing_AREA] (fun _ => 1) /\ (fun _ : string => 1) v_fineness_ratios <> 20.
Proof. repeat split; simpl; lra. Qed.
