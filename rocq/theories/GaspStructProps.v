(** Properties of the GASP masses of wing, engines and fixed parts: claim C57. *)
From Coq Require Import Reals Lra Lia.
From Coquelicot Require Import Coquelicot.
From Verif Require Import Base MathModel MathProofs Comp CompMore CompFun GaspStructModel.
Local Open Scope R_scope.

Lemma log10_pos x : 1 < x -> 0 < log10 x.
Proof.
  intro H. Transparent log10. unfold log10. apply Rdiv_lt_0_compat; [|exact ln10_pos].
  rewrite <- ln_1. apply ln_increasing; lra.
Qed.
Opaque log10.
Ltac facts ::=
  cases_of; rewrite ?cos_0, ?sin_0;
  repeat match goal with H : 1 < ?v |- _ => assert (0 < v) by lra; pose proof (log10_pos v H); revert H end; intros; pose proof ln10_pos;
  repeat match goal with H : ?r = 1 |- _ => is_var r; subst r end.
Ltac tan_goal :=
  match goal with C : cos ?r <> 0 |- context [1 + tan ?r * (tan ?r * 1)] =>
    replace (1 + tan r * (tan r * 1)) with ((1 / cos r) ^ 2) by (rewrite <- tan_sq by exact C; ring)
  end; field; repeat split; nonzero.

Lemma scaled_iff c e o i k :
  is_derive (fun t => out c (upd e i t) o) (e i) (k * jac c e o i) -> (exact_at c e o i <-> k = 1 \/ jac c e o i = 0).
Proof.
  intro S. unfold exact_at. split.
  - intro E. apply is_derive_unique in E. apply is_derive_unique in S. rewrite E in S.
    destruct (Req_dec (jac c e o i) 0) as [Z|Z]; [now right|left].
    apply (Rmult_eq_reg_r (jac c e o i)); [|exact Z]. rewrite Rmult_1_l. now symmetry.
  - intro E. eapply is_derive_eq; [exact S|]. destruct E as [-> | ->]; [apply Rmult_1_l | apply Rmult_0_r].
Qed.

Theorem C57_StrutAndFoldMassStrut op : exact_partials (StrutAndFoldMassStrut op) (positive [v_isolated_wing_mass; Aircraft_Strut_MASS_COEFFICIENT]).
Proof. exact_start; more_goals. Qed.
Print Assumptions C57_StrutAndFoldMassStrut.
Example C57_witness_StrutAndFoldMassStrut_Strut_MASS : out (StrutAndFoldMassStrut unit_options) (fun _ => 1) Aircraft_Strut_MASS = 1.
Proof. unit_value. Qed.
Example C57_witness_StrutAndFoldMassStrut_Wing_FOLD_MASS : out (StrutAndFoldMassStrut unit_options) (fun _ => 1) Aircraft_Wing_FOLD_MASS = 0.
Proof. unit_value. Qed.

Theorem C57_StrutAndFoldMassFold op : exact_partials (StrutAndFoldMassFold op) (positive [v_isolated_wing_mass; Aircraft_Wing_AREA; Aircraft_Wing_FOLDING_AREA; Aircraft_Wing_FOLD_MASS_COEFFICIENT]).
Proof. exact_start; more_goals. Qed.
Print Assumptions C57_StrutAndFoldMassFold.
Example C57_witness_StrutAndFoldMassFold_Strut_MASS : out (StrutAndFoldMassFold unit_options) (fun _ => 1) Aircraft_Strut_MASS = 0.
Proof. unit_value. Qed.
Example C57_witness_StrutAndFoldMassFold_Wing_FOLD_MASS : out (StrutAndFoldMassFold unit_options) (fun _ => 1) Aircraft_Wing_FOLD_MASS = 1.
Proof. unit_value. Qed.

Theorem C57_StrutAndFoldMassBoth op : exact_partials (StrutAndFoldMassBoth op) (positive [v_isolated_wing_mass; Aircraft_Strut_MASS_COEFFICIENT; Aircraft_Wing_AREA; Aircraft_Wing_FOLDING_AREA; Aircraft_Wing_FOLD_MASS_COEFFICIENT]).
Proof. exact_start; more_goals. Qed.
Print Assumptions C57_StrutAndFoldMassBoth.
Example C57_witness_StrutAndFoldMassBoth_Strut_MASS : out (StrutAndFoldMassBoth unit_options) (fun _ => 1) Aircraft_Strut_MASS = 1.
Proof. unit_value. Qed.
Example C57_witness_StrutAndFoldMassBoth_Wing_FOLD_MASS : out (StrutAndFoldMassBoth unit_options) (fun _ => 1) Aircraft_Wing_FOLD_MASS = 1.
Proof. unit_value. Qed.

Theorem C57_StrutAndFoldMassNone op : exact_partials (StrutAndFoldMassNone op) (positive [v_isolated_wing_mass]).
Proof. exact_start; more_goals. Qed.
Print Assumptions C57_StrutAndFoldMassNone.
Example C57_witness_StrutAndFoldMassNone_Strut_MASS : out (StrutAndFoldMassNone unit_options) (fun _ => 1) Aircraft_Strut_MASS = 0.
Proof. unit_value. Qed.
Example C57_witness_StrutAndFoldMassNone_Wing_FOLD_MASS : out (StrutAndFoldMassNone unit_options) (fun _ => 1) Aircraft_Wing_FOLD_MASS = 0.
Proof. unit_value. Qed.

Theorem C57_WingMassTotal op : exact_partials (WingMassTotal op) (positive [Aircraft_Wing_MASS_SCALER; v_isolated_wing_mass; Aircraft_Strut_MASS; Aircraft_Wing_FOLD_MASS]).
Proof. exact_start; more_goals. Qed.
Print Assumptions C57_WingMassTotal.
Example C57_witness_WingMassTotal : out (WingMassTotal unit_options) (fun _ => 1) Aircraft_Wing_MASS = 3.
Proof. unit_value. Qed.

Theorem C57_PayloadGroup op : exact_partials (PayloadGroup op) (positive [Aircraft_CrewPayload_MASS_PER_PASSENGER_WITH_BAGS; Aircraft_CrewPayload_CARGO_MASS; Aircraft_CrewPayload_Design_CARGO_MASS; Aircraft_CrewPayload_Design_MAX_CARGO_MASS]).
Proof. exact_start; more_goals. Qed.
Print Assumptions C57_PayloadGroup.
Example C57_witness_PayloadGroup_CrewPayload_PASSENGER_PAYLOAD_MASS : out (PayloadGroup unit_options) (fun _ => 1) Aircraft_CrewPayload_PASSENGER_PAYLOAD_MASS = 1.
Proof. unit_value. Qed.
Example C57_witness_PayloadGroup_CrewPayload_TOTAL_PAYLOAD_MASS : out (PayloadGroup unit_options) (fun _ => 1) Aircraft_CrewPayload_TOTAL_PAYLOAD_MASS = 2.
Proof. unit_value. Qed.
Example C57_witness_PayloadGroup_payload_mass_des : out (PayloadGroup unit_options) (fun _ => 1) v_payload_mass_des = 2.
Proof. unit_value. Qed.
Example C57_witness_PayloadGroup_payload_mass_max : out (PayloadGroup unit_options) (fun _ => 1) v_payload_mass_max = 2.
Proof. unit_value. Qed.

Theorem C57_ElectricAugmentationMass op : exact_partials (ElectricAugmentationMass op) (positive [v_motor_power; v_motor_voltage; v_max_amp_per_wire; v_safety_factor; Aircraft_Electrical_HYBRID_CABLE_LENGTH; v_wire_area; v_rho_wire; v_battery_energy; v_motor_eff; v_inverter_eff; v_transmission_eff; v_battery_eff; v_rho_battery; v_motor_spec_mass; v_inverter_spec_mass; v_TMS_spec_mass]).
Proof. exact_start; more_goals. Qed.
Print Assumptions C57_ElectricAugmentationMass.
Example C57_witness_ElectricAugmentationMass : out (ElectricAugmentationMass unit_options) (fun _ => 1) v_aug_mass = 430569 / 373.
Proof. unit_value. Qed.

Theorem C57_TotalEngineMass op : exact_except (TotalEngineMass op) (fun e =>
  positive [Aircraft_Engine_MASS_SPECIFIC; Aircraft_Engine_SCALED_SLS_THRUST; Aircraft_Nacelle_MASS_SPECIFIC; Aircraft_Nacelle_SURFACE_AREA; Aircraft_Nacelle_MASS_SCALER; Aircraft_Engine_PYLON_FACTOR; Aircraft_Engine_Propeller_MASS] e)
  [(v_pylon_mass, Aircraft_Nacelle_MASS_SPECIFIC);
   (v_pylon_mass, Aircraft_Nacelle_SURFACE_AREA)].
Proof. except_start; more_goals. Qed.
Print Assumptions C57_TotalEngineMass.
Example C57_witness_TotalEngineMass_Propulsion_TOTAL_ENGINE_MASS : out (TotalEngineMass unit_options) (fun _ => 1) Aircraft_Propulsion_TOTAL_ENGINE_MASS = 1.
Proof. unit_value. Qed.
Example C57_witness_TotalEngineMass_Nacelle_MASS : out (TotalEngineMass unit_options) (fun _ => 1) Aircraft_Nacelle_MASS = 1.
Proof. unit_value. Qed.

Theorem C57_EnginePodMass op : exact_partials (EnginePodMass op) (positive [Aircraft_Engine_POD_MASS_SCALER; Aircraft_Nacelle_MASS; v_pylon_mass]).
Proof. exact_start; more_goals. Qed.
Print Assumptions C57_EnginePodMass.
Example C57_witness_EnginePodMass_Propulsion_TOTAL_ENGINE_POD_MASS : out (EnginePodMass unit_options) (fun _ => 1) Aircraft_Propulsion_TOTAL_ENGINE_POD_MASS = 2.
Proof. unit_value. Qed.
Example C57_witness_EnginePodMass_Engine_POD_MASS : out (EnginePodMass unit_options) (fun _ => 1) Aircraft_Engine_POD_MASS = 2.
Proof. unit_value. Qed.

Theorem C57_AdditionalEngineMass op : exact_partials (AdditionalEngineMass op) (positive [Aircraft_Engine_MASS_SPECIFIC; Aircraft_Engine_SCALED_SLS_THRUST; Aircraft_Propulsion_MISC_MASS_SCALER]).
Proof. exact_start; more_goals. Qed.
Print Assumptions C57_AdditionalEngineMass.
Example C57_witness_AdditionalEngineMass : out (AdditionalEngineMass unit_options) (fun _ => 1) Aircraft_Engine_ADDITIONAL_MASS = 1.
Proof. unit_value. Qed.

Lemma pylon_scaled op e i :
  positive [Aircraft_Engine_MASS_SPECIFIC; Aircraft_Engine_SCALED_SLS_THRUST; Aircraft_Nacelle_MASS_SPECIFIC; Aircraft_Nacelle_SURFACE_AREA; Aircraft_Nacelle_MASS_SCALER; Aircraft_Engine_PYLON_FACTOR; Aircraft_Engine_Propeller_MASS] e ->
  In i [Aircraft_Nacelle_MASS_SPECIFIC;
   Aircraft_Nacelle_SURFACE_AREA] ->
  is_derive (fun t => out (TotalEngineMass op) (upd e i t) v_pylon_mass) (e i) (e Aircraft_Nacelle_MASS_SCALER * jac (TotalEngineMass op) e v_pylon_mass i).
Proof. intros D Hi. split_in Hi; subst i; more_goals. Qed.
(** The nacelle mass scaler is missing in two partials of the pylon mass (L130-L141). *)
Theorem C57_pylon_scaler op e i :
  positive [Aircraft_Engine_MASS_SPECIFIC; Aircraft_Engine_SCALED_SLS_THRUST; Aircraft_Nacelle_MASS_SPECIFIC; Aircraft_Nacelle_SURFACE_AREA; Aircraft_Nacelle_MASS_SCALER; Aircraft_Engine_PYLON_FACTOR; Aircraft_Engine_Propeller_MASS] e ->
  In i [Aircraft_Nacelle_MASS_SPECIFIC;
   Aircraft_Nacelle_SURFACE_AREA] ->
  (exact_at (TotalEngineMass op) e v_pylon_mass i <-> e Aircraft_Nacelle_MASS_SCALER = 1 \/ jac (TotalEngineMass op) e v_pylon_mass i = 0).
Proof. intros D Hi. exact (scaled_iff _ _ _ _ _ (pylon_scaled op e i D Hi)). Qed.
Print Assumptions C57_pylon_scaler.

(** The material factor and the half sweep depend on the geometry through the tangent of the half sweep. *)
Lemma cos_atan_pos x : 0 < cos (atan x).
Proof. pose proof (atan_bound x). apply cos_gt_0; lra. Qed.
Lemma material_derive s (T : R -> R) x dT : 0 < s -> is_derive T x dT ->
  is_derive (fun t => 1 + 25 / 10 / (s / cos (atan (T t))) ** (5 / 10)) x
    (- 5 / 10 * (25 / 10) / (s / cos (atan (T x))) ** (15 / 10) * (- s / cos (atan (T x)) ^ 2) *
     - sin (atan (T x)) / (T x ^ 2 + 1) * dT).
Proof.
  intros S D. pose proof (cos_atan_pos (T x)) as C.
  assert (P : 0 < s / cos (atan (T x))) by (apply Rdiv_lt_0_compat; assumption).
  assert (N : 0 < T x ^ 2 + 1) by (pose proof (pow2_ge_0 (T x)); lra).
  assert (E : pw (15 / 10) (s / cos (atan (T x))) = pw (5 / 10) (s / cos (atan (T x))) * (s / cos (atan (T x)))).
  { rewrite (pw_shift (15 / 10) (5 / 10) 1) by (exact P || (cbn; lra)). ring. }
  eapply is_derive_eq.
  - apply (is_derive_comp (fun y => 1 + 25 / 10 / (s / cos (atan y)) ** (5 / 10)) T x); [|exact D].
    auto_derive; [|reflexivity]. minus_div. repeat split; try exact P; try lra.
    apply Rgt_not_eq. red. apply pw_pos. exact P.
  - unfold scal; cbn; unfold mult; cbn. minus_div. rewrite E.
    rewrite (pw_shift_down (5 / 10 - 1) (5 / 10) 1) by (exact P || (cbn; lra)).
    pose proof (pw_pos (5 / 10) _ P) as Q. revert Q. generalize (pw (5 / 10) (s / cos (atan (T x)))); intros q Q.
    field. repeat split; try lra; nra.
Qed.
Lemma span_derive c x : 0 < c -> 0 < x ->
  is_derive (fun t => 1 + 25 / 10 / (t / c) ** (5 / 10)) x (- 5 / 10 * (25 / 10) / (x / c) ** (15 / 10) * (1 / c)).
Proof.
  intros C X. assert (P : 0 < x / c) by (apply Rdiv_lt_0_compat; assumption).
  auto_derive.
  - minus_div. repeat split; try exact P; try lra. apply Rgt_not_eq. red. apply pw_pos. exact P.
  - minus_div. rewrite (pw_shift (15 / 10) (5 / 10) 1) by (exact P || (cbn; lra)).
    rewrite (pw_shift_down (5 / 10 - 1) (5 / 10) 1) by (exact P || (cbn; lra)).
    pose proof (pw_pos (5 / 10) _ P) as Q. revert Q. generalize (pw (5 / 10) (x / c)); intros q Q.
    field. repeat split; lra.
Qed.
Lemma half_sweep_derive (T : R -> R) x dT : is_derive T x dT ->
  is_derive (fun t => atan (T t)) x (1 / (T x ^ 2 + 1) * dT).
Proof.
  intro D. assert (N : 0 < T x ^ 2 + 1) by (pose proof (pow2_ge_0 (T x)); lra).
  eapply is_derive_eq.
  - apply (is_derive_comp atan T x); [|exact D]. auto_derive; [trivial|reflexivity].
  - unfold scal; cbn; unfold mult; cbn. field. nra.
Qed.
Ltac same_factor :=
  cbv beta;
  repeat match goal with C : cos ?r <> 0 |- context [1 + tan ?r * (tan ?r * 1)] =>
    replace (1 + tan r * (tan r * 1)) with ((1 / cos r) ^ 2) by (rewrite <- tan_sq by exact C; ring)
  end;
  match goal with |- ?a * ?b = ?a * ?c => apply (f_equal (Rmult a)) end; field; repeat split; nonzero.
Ltac sweep_chain :=
  match goal with
  | |- is_derive (fun t => 1 + 25 / 10 / (t / cos ?a) ** (5 / 10)) _ _ => fail 1
  | |- is_derive (fun t => 1 + 25 / 10 / (?s / cos (atan (@?T t))) ** (5 / 10)) ?x _ =>
      eapply is_derive_eq; [apply (material_derive s T x); [pos|cbv beta; auto_derive; [minus_div; derive_side|reflexivity]]|same_factor]
  | |- is_derive (fun t => atan (@?T t)) ?x _ =>
      eapply is_derive_eq; [apply (half_sweep_derive T x); cbv beta; auto_derive; [minus_div; derive_side|reflexivity]|same_factor]
  end.
Ltac span_goal :=
  match goal with
  | |- is_derive (fun t => 1 + 25 / 10 / (t / cos (atan ?a)) ** (5 / 10)) _ _ =>
      apply span_derive; [apply cos_atan_pos|pos]
  end.
Ltac gear_goal :=
  match goal with
  | N : ?x <> 0 |- is_derive (fun t => if eqb t 0 then _ else 1) ?x _ =>
      apply (is_derive_ext_loc (fun _ => 1));
      [eapply filter_imp; [|apply (open_neq 0); exact N]; intros t T; cbv beta in T; rewrite (eqb_intro_false t 0) by exact T; reflexivity
      |apply (is_derive_const (V := R_NormedModule) 1)]
  end.
Ltac mach_goal :=
  match goal with
  | H : in_range ?m (75 / 100) (1 / 320) |- is_derive _ ?m _ =>
      let Q := fresh "Q" in
      assert (Q : in_range m (75 / 100) (-1 / 320)) by
        (replace (-1 / 320) with (- (1 / 320)) by lra; apply in_range_opp; [lra|exact H]);
      let A := fresh in let B := fresh in
      pose proof (range_gt _ _ _ H) as A; pose proof (range_gt _ _ _ Q) as B;
      let G := fresh in
      assert (G : dsigf (75 / 100) (-1 / 320) m = - dsigf (75 / 100) (1 / 320) m) by
        (replace (-1 / 320) with (- (1 / 320)) by lra; apply dsigf_opp; [lra|exact H]);
      auto_derive; [minus_div; derive_side|]; minus_div; rewrite ?G; field
  end.
Theorem C57_MassParameters_sharp op : ob op Aircraft_Design_SMOOTH_MASS_DISCONTINUITIES = false ->
  exact_partials (MassParameters op) (fun e =>
    positive [Aircraft_Wing_TAPER_RATIO; Aircraft_Wing_ASPECT_RATIO; Aircraft_Wing_SPAN] e /\
    cos (e Aircraft_Wing_SWEEP) <> 0 /\ e v_max_mach <> 75 / 100 /\ e Aircraft_LandingGear_MAIN_GEAR_LOCATION <> 0).
Proof.
  intro E. unfold MassParameters, MassParameters_compute, MassParameters_partials. rewrite E. exact_start;
    exact_prepare; first [solve [sweep_chain] | solve [span_goal] | solve [gear_goal] | solve [repeat settle; derive_goal; pw_field] | idtac].
Qed.
Print Assumptions C57_MassParameters_sharp.
Example C57_witness_MassParameters_c_strut_braced : out (MassParameters unit_options) (fun _ => 1) v_c_strut_braced = 0.
Proof. unit_value. Qed.
Example C57_witness_MassParameters_c_gear_loc : out (MassParameters unit_options) (fun _ => 1) v_c_gear_loc = 1.
Proof. unit_value. Qed.
Example C57_witness_MassParameters_Propulsion_ENGINE_POSITION_FACTOR : out (MassParameters unit_options) (fun _ => 1) Aircraft_Propulsion_ENGINE_POSITION_FACTOR = 21 / 20.
Proof. unit_value. Qed.

Theorem C57_MassParameters_smooth op : ob op Aircraft_Design_SMOOTH_MASS_DISCONTINUITIES = true ->
  exact_except (MassParameters op) (fun e =>
    positive [Aircraft_Wing_TAPER_RATIO; Aircraft_Wing_ASPECT_RATIO; Aircraft_Wing_SPAN] e /\
    cos (e Aircraft_Wing_SWEEP) <> 0 /\ in_range (e v_max_mach) (75 / 100) (1 / 320) /\
    in_range (e Aircraft_LandingGear_MAIN_GEAR_LOCATION) (5 / 1000) (1 / 100 / 320))
  [(v_c_gear_loc, Aircraft_LandingGear_MAIN_GEAR_LOCATION)].
Proof.
  intro E. unfold MassParameters, MassParameters_compute, MassParameters_partials. rewrite E. except_start;
    exact_prepare; first [solve [sweep_chain] | solve [span_goal] | solve [mach_goal] | solve [derive_goal; pw_field] | idtac].
Qed.
Print Assumptions C57_MassParameters_smooth.

(** The smooth location coefficient: the partial (L244-L246) has a factor 100 that the derivative does not have. *)
Theorem C57_gear_location_refuted op e : ob op Aircraft_Design_SMOOTH_MASS_DISCONTINUITIES = true ->
  in_range (e Aircraft_LandingGear_MAIN_GEAR_LOCATION) (5 / 1000) (1 / 100 / 320) ->
  ~ exact_at (MassParameters op) e v_c_gear_loc Aircraft_LandingGear_MAIN_GEAR_LOCATION.
Proof.
  intros E D X. unfold exact_at in X.
  assert (Y : is_derive (fun t => out (MassParameters op) (upd e Aircraft_LandingGear_MAIN_GEAR_LOCATION t) v_c_gear_loc)
                (e Aircraft_LandingGear_MAIN_GEAR_LOCATION)
                (5 / 100 * dsigf (5 / 1000) (1 / 100 / 320) (e Aircraft_LandingGear_MAIN_GEAR_LOCATION))).
  { clear X. red_comp. red_comp_in E. red_comp_in D. rewrite E. revert D.
    match goal with |- context [e ?n] => generalize (e n) end. intros m D.
    assert (Q : in_range m (5 / 1000) (-1 / 100 / 320)) by
      (replace (-1 / 100 / 320) with (- (1 / 100 / 320)) by lra; apply in_range_opp; [lra|exact D]).
    pose proof (range_gt _ _ _ D) as A. pose proof (range_gt _ _ _ Q) as B.
    assert (G : dsigf (5 / 1000) (-1 / 100 / 320) m = - dsigf (5 / 1000) (1 / 100 / 320) m) by
      (replace (-1 / 100 / 320) with (- (1 / 100 / 320)) by lra; apply dsigf_opp; [lra|exact D]).
    auto_derive; [minus_div; repeat split; try lra; try assumption|]. minus_div. rewrite G. field. }
  apply is_derive_unique in X. apply is_derive_unique in Y. rewrite X in Y. clear X. pose proof (dsigf_pos _ (5 / 1000) (1 / 100 / 320) ltac:(lra) D) as P. revert P Y.
  red_comp_in E. red_comp. rewrite E. intros. lra.
Qed.
Print Assumptions C57_gear_location_refuted.
Example C57_witness_gear_location : in_range ((fun _ : string => 5 / 1000) Aircraft_LandingGear_MAIN_GEAR_LOCATION) (5 / 1000) (1 / 100 / 320).
Proof. unfold in_range. lra. Qed.
