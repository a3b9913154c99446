(** Properties of GASP geometry, bodies and wings: claim C61. *)
From Coq Require Import Reals Lra Lia.
From Coquelicot Require Import Coquelicot.
From Verif Require Import Base Calc MathModel MathProofs Comp CompMore CompFun GGeomModel GGeomProofs.
Local Open Scope R_scope.

Theorem C61_GASPEngineDiameter op : positive [Aircraft_Engine_NUM_ENGINES] (on op) -> exact_partials (GASPEngineDiameter op) (positive [Aircraft_Engine_INLET_AREA_COEFFICIENT; Aircraft_Design_GROSS_MASS; Aircraft_Nacelle_CORE_DIAMETER_RATIO]).
Proof. intro N; exact_start; more_goals. Qed.
Print Assumptions C61_GASPEngineDiameter.
Example C61_witness_GASPEngineDiameter : out (GASPEngineDiameter unit_options) (fun n => if String.eqb n Aircraft_Engine_INLET_AREA_COEFFICIENT then PI / 4 else 1) Aircraft_Nacelle_AVG_DIAMETER = 1.
Proof. pose proof PI_RGT_0. red_comp; cbv [on ob oe unit_options]. match goal with |- context [sqrt ?x] => replace x with 1 by (field; lra) end. rewrite sqrt_1. ring. Qed.

Theorem C61_BWBFuselageParameters1 op : positive [Aircraft_CrewPayload_Design_NUM_SEATS_ABREAST_ECONOMY; Aircraft_Fuselage_NUM_AISLES] (on op) -> exact_except (BWBFuselageParameters1 op) (positive [Aircraft_Fuselage_DELTA_DIAMETER; Aircraft_Fuselage_HEIGHT_TO_WIDTH_RATIO; Aircraft_Fuselage_PRESSURIZED_WIDTH_ADDITIONAL; Aircraft_Fuselage_NOSE_FINENESS; Aircraft_Fuselage_AISLE_WIDTH; Aircraft_Fuselage_SEAT_WIDTH_ECONOMY])
  [(Aircraft_Fuselage_HYDRAULIC_DIAMETER, Aircraft_Fuselage_AISLE_WIDTH)].
Proof. intro N; except_start; more_goals; square_goal; field; lra. Qed.
Print Assumptions C61_BWBFuselageParameters1.
Example C61_witness_BWBFuselageParameters1_Fuselage_AVG_DIAMETER : out (BWBFuselageParameters1 unit_options) (fun _ => 1) Aircraft_Fuselage_AVG_DIAMETER = 13 / 6.
Proof. unit_value. Qed.
Example C61_witness_BWBFuselageParameters1_cabin_height : out (BWBFuselageParameters1 unit_options) (fun _ => 1) v_cabin_height = 7 / 6.
Proof. unit_value. Qed.
Example C61_witness_BWBFuselageParameters1_nose_height : out (BWBFuselageParameters1 unit_options) (fun _ => 1) v_nose_height = 1 / 6.
Proof. unit_value. Qed.
Example C61_witness_BWBFuselageParameters1_nose_length : out (BWBFuselageParameters1 unit_options) (fun _ => 1) v_nose_length = 1 / 6.
Proof. unit_value. Qed.

Theorem C61_BWBFuselageParameters2 op : exact_partials (BWBFuselageParameters2 op) (fun e =>
  positive [Aircraft_BWB_PASSENGER_LEADING_EDGE_SWEEP; Aircraft_Fuselage_PILOT_COMPARTMENT_LENGTH; Aircraft_Fuselage_AVG_DIAMETER; Aircraft_Fuselage_PRESSURIZED_WIDTH_ADDITIONAL; Aircraft_Fuselage_TAIL_FINENESS; v_fuselage_station_aft; v_nose_length; v_cabin_height] e /\ let a := e Aircraft_BWB_PASSENGER_LEADING_EDGE_SWEEP / (180 / PI) in cos a <> 0 /\ tan a <> 0).
Proof. exact_start; more_goals; tan_pair. Qed.
Print Assumptions C61_BWBFuselageParameters2.
Example C61_witness_BWBFuselageParameters2_cabin_len : out (BWBFuselageParameters2 unit_options) (fun _ => 1) v_cabin_len = -1.
Proof. unit_value. Qed.
Example C61_witness_BWBFuselageParameters2_aftbody_len : out (BWBFuselageParameters2 unit_options) (fun _ => 1) v_aftbody_len = 1.
Proof. unit_value. Qed.

Theorem C61_BWBFuselageSize op : exact_except (BWBFuselageSize op) (positive [Aircraft_Fuselage_AVG_DIAMETER; Aircraft_Fuselage_PRESSURIZED_WIDTH_ADDITIONAL; Aircraft_Fuselage_WETTED_AREA_SCALER; Aircraft_Fuselage_PILOT_COMPARTMENT_LENGTH; v_cabin_height; v_forebody_len; v_fuselage_station_aft; v_nose_area; v_aftbody_len; v_nose_length; v_cabin_len])
  [(Aircraft_Fuselage_WETTED_AREA, Aircraft_Fuselage_PRESSURIZED_WIDTH_ADDITIONAL)].
Proof. except_start; more_goals. Qed.
Print Assumptions C61_BWBFuselageSize.
Example C61_witness_BWBFuselageSize_Fuselage_LENGTH : out (BWBFuselageSize unit_options) (fun _ => 1) Aircraft_Fuselage_LENGTH = 4.
Proof. unit_value. Qed.
Example C61_witness_BWBFuselageSize_TailBoom_LENGTH : out (BWBFuselageSize unit_options) (fun _ => 1) Aircraft_TailBoom_LENGTH = 4.
Proof. unit_value. Qed.

Theorem C61_StrutGeom op : exact_partials (StrutGeom op) (positive [Aircraft_Wing_AREA; Aircraft_Strut_AREA_RATIO; Aircraft_Strut_ATTACHMENT_LOCATION; Aircraft_Fuselage_AVG_DIAMETER]).
Proof. exact_start; more_goals; strut_goal. Qed.
Print Assumptions C61_StrutGeom.
Example C61_witness_StrutGeom_strut_y : out (StrutGeom unit_options) (fun _ => 1) v_strut_y = 1 / 2.
Proof. unit_value. Qed.
Example C61_witness_StrutGeom_Strut_AREA : out (StrutGeom unit_options) (fun _ => 1) Aircraft_Strut_AREA = 1.
Proof. unit_value. Qed.
Example C61_witness_StrutGeom_Strut_LENGTH : out (StrutGeom unit_options) (fun _ => 1) Aircraft_Strut_LENGTH = 1.
Proof. root_value. Qed.
Example C61_witness_StrutGeom_Strut_CHORD : out (StrutGeom unit_options) (fun _ => 1) Aircraft_Strut_CHORD = 1 / 2.
Proof. root_value. Qed.

Theorem C61_WingParameters op : exact_partials (WingParameters op) (fun e =>
  positive [Aircraft_Wing_AREA; Aircraft_Wing_SPAN; Aircraft_Wing_ASPECT_RATIO; Aircraft_Wing_TAPER_RATIO; Aircraft_Wing_SWEEP; Aircraft_Wing_THICKNESS_TO_CHORD_ROOT; Aircraft_Fuselage_AVG_DIAMETER; Aircraft_Wing_THICKNESS_TO_CHORD_TIP] e /\ e Aircraft_Wing_THICKNESS_TO_CHORD_ROOT * (2 * e Aircraft_Wing_AREA / e Aircraft_Wing_SPAN / (1 + e Aircraft_Wing_TAPER_RATIO)) < e Aircraft_Fuselage_AVG_DIAMETER /\
  cos (e Aircraft_Wing_SWEEP * PI / 180) <> 0 /\ 1 + e Aircraft_Wing_TAPER_RATIO - e Aircraft_Fuselage_AVG_DIAMETER / e Aircraft_Wing_SPAN * (1 - e Aircraft_Wing_TAPER_RATIO) <> 0).
Proof. exact_start; more_goals; sweep_goal. Qed.
Print Assumptions C61_WingParameters.
Example C61_witness_WingParameters_Wing_CENTER_CHORD : out (WingParameters unit_options) (fun _ => 1) Aircraft_Wing_CENTER_CHORD = 1.
Proof. unit_value. Qed.
Example C61_witness_WingParameters_Wing_AVERAGE_CHORD : out (WingParameters unit_options) (fun _ => 1) Aircraft_Wing_AVERAGE_CHORD = 1.
Proof. unit_value. Qed.
Example C61_witness_WingParameters_Wing_THICKNESS_TO_CHORD_UNWEIGHTED : out (WingParameters unit_options) (fun _ => 1) Aircraft_Wing_THICKNESS_TO_CHORD_UNWEIGHTED = 1.
Proof. unit_value. Qed.

Theorem C61_WingVolume op : exact_partials (WingVolume op) (fun e =>
  positive [Aircraft_Wing_AREA; Aircraft_Wing_SPAN; Aircraft_Wing_ASPECT_RATIO; Aircraft_Wing_TAPER_RATIO; Aircraft_Wing_THICKNESS_TO_CHORD_ROOT; Aircraft_Fuselage_AVG_DIAMETER; Aircraft_Wing_THICKNESS_TO_CHORD_TIP; Aircraft_Fuel_WING_FUEL_FRACTION] e /\ 1 + e Aircraft_Wing_TAPER_RATIO - e Aircraft_Fuselage_AVG_DIAMETER / e Aircraft_Wing_SPAN * (1 - e Aircraft_Wing_TAPER_RATIO) <> 0).
Proof. exact_start; more_goals. Qed.
Print Assumptions C61_WingVolume.
Example C61_witness_WingVolume : out (WingVolume unit_options) (fun _ => 1) Aircraft_Fuel_WING_VOLUME_GEOMETRIC_MAX = 2666667 / 4000000.
Proof. unit_value. Qed.

Lemma hydraulic_scaled op e : positive [Aircraft_CrewPayload_Design_NUM_SEATS_ABREAST_ECONOMY; Aircraft_Fuselage_NUM_AISLES] (on op) ->
  positive [Aircraft_Fuselage_DELTA_DIAMETER; Aircraft_Fuselage_HEIGHT_TO_WIDTH_RATIO; Aircraft_Fuselage_PRESSURIZED_WIDTH_ADDITIONAL; Aircraft_Fuselage_NOSE_FINENESS; Aircraft_Fuselage_AISLE_WIDTH; Aircraft_Fuselage_SEAT_WIDTH_ECONOMY] e ->
  let cabin := (on op Aircraft_CrewPayload_Design_NUM_SEATS_ABREAST_ECONOMY * e Aircraft_Fuselage_SEAT_WIDTH_ECONOMY + on op Aircraft_Fuselage_NUM_AISLES * e Aircraft_Fuselage_AISLE_WIDTH) / 12 + 1 in
  is_derive (fun t => out (BWBFuselageParameters1 op) (upd e Aircraft_Fuselage_AISLE_WIDTH t) Aircraft_Fuselage_HYDRAULIC_DIAMETER) (e Aircraft_Fuselage_AISLE_WIDTH)
    ((cabin + e Aircraft_Fuselage_PRESSURIZED_WIDTH_ADDITIONAL / 2) / cabin * jac (BWBFuselageParameters1 op) e Aircraft_Fuselage_HYDRAULIC_DIAMETER Aircraft_Fuselage_AISLE_WIDTH).
Proof. intros N D cabin. subst cabin. exact_prepare; repeat settle; derive_goal; square_goal; field; repeat split; nonzero.
Qed.
Lemma wetted_slope op e : 
  positive [Aircraft_Fuselage_AVG_DIAMETER; Aircraft_Fuselage_PRESSURIZED_WIDTH_ADDITIONAL; Aircraft_Fuselage_WETTED_AREA_SCALER; Aircraft_Fuselage_PILOT_COMPARTMENT_LENGTH; v_cabin_height; v_forebody_len; v_fuselage_station_aft; v_nose_area; v_aftbody_len; v_nose_length; v_cabin_len] e ->
  is_derive (fun t => out (BWBFuselageSize op) (upd e Aircraft_Fuselage_PRESSURIZED_WIDTH_ADDITIONAL t) Aircraft_Fuselage_WETTED_AREA) (e Aircraft_Fuselage_PRESSURIZED_WIDTH_ADDITIONAL)
    (jac (BWBFuselageSize op) e Aircraft_Fuselage_WETTED_AREA Aircraft_Fuselage_PRESSURIZED_WIDTH_ADDITIONAL
     + e v_cabin_height * e Aircraft_Fuselage_PRESSURIZED_WIDTH_ADDITIONAL / 4 * e Aircraft_Fuselage_WETTED_AREA_SCALER *
       (1 / sqrt (e v_aftbody_len ^ 2 + (e Aircraft_Fuselage_PRESSURIZED_WIDTH_ADDITIONAL / 2) ^ 2) - sqrt (e v_aftbody_len ^ 2 + (e v_cabin_height / 2) ^ 2))).
Proof. intros D. exact_prepare; repeat settle; derive_goal. minus_div; fold_pow.
  assert (Q : 0 < sqrt (r7 ^ 2 + (r0 / 2) ^ 2)) by (apply sqrt_lt_R0; pos).
  revert Q. generalize (sqrt (r7 ^ 2 + (r0 / 2) ^ 2)) (sqrt (r7 ^ 2 + (r3 / 2) ^ 2)). intros p q Q. field. lra.
Qed.
Theorem C61_hydraulic_diameter_refuted op e : positive [Aircraft_CrewPayload_Design_NUM_SEATS_ABREAST_ECONOMY; Aircraft_Fuselage_NUM_AISLES] (on op) ->
  positive [Aircraft_Fuselage_DELTA_DIAMETER; Aircraft_Fuselage_HEIGHT_TO_WIDTH_RATIO; Aircraft_Fuselage_PRESSURIZED_WIDTH_ADDITIONAL; Aircraft_Fuselage_NOSE_FINENESS; Aircraft_Fuselage_AISLE_WIDTH; Aircraft_Fuselage_SEAT_WIDTH_ECONOMY] e ->
  ~ exact_at (BWBFuselageParameters1 op) e Aircraft_Fuselage_HYDRAULIC_DIAMETER Aircraft_Fuselage_AISLE_WIDTH.
Proof.
  intros N D K. apply (scaled_iff _ _ _ _ _ (hydraulic_scaled op e N D)) in K.
  red_comp_in N. red_comp_in D. red_comp_in K. conjuncts.
  match type of K with (?c + ?w / 2) / ?c = 1 \/ _ => assert (C : 0 < c) by pos; destruct K as [K|K];
    [apply (Rmult_eq_compat_r c) in K; unfold Rdiv in K at 1; rewrite Rmult_assoc, Rinv_l in K by lra; lra|] end.
  revert K. apply Rgt_not_eq. apply Rlt_gt.
  assert (0 < on op "aircraft:fuselage:num_aisles") by assumption. assert (W : 0 < e "aircraft:fuselage:pressurized_width_additional") by assumption.
  repeat first [apply Rdiv_lt_0_compat | apply Rmult_lt_0_compat | apply sqrt_lt_R0 | exact C | assumption | lra].
Qed.
Print Assumptions C61_hydraulic_diameter_refuted.
Theorem C61_wetted_area_iff op e : positive [Aircraft_Fuselage_AVG_DIAMETER; Aircraft_Fuselage_PRESSURIZED_WIDTH_ADDITIONAL; Aircraft_Fuselage_WETTED_AREA_SCALER; Aircraft_Fuselage_PILOT_COMPARTMENT_LENGTH; v_cabin_height; v_forebody_len; v_fuselage_station_aft; v_nose_area; v_aftbody_len; v_nose_length; v_cabin_len] e ->
  (exact_at (BWBFuselageSize op) e Aircraft_Fuselage_WETTED_AREA Aircraft_Fuselage_PRESSURIZED_WIDTH_ADDITIONAL <->
   sqrt (e v_aftbody_len ^ 2 + (e Aircraft_Fuselage_PRESSURIZED_WIDTH_ADDITIONAL / 2) ^ 2) * sqrt (e v_aftbody_len ^ 2 + (e v_cabin_height / 2) ^ 2) = 1).
Proof.
  intro D. pose proof (wetted_slope op e D) as S. cbn in D.
  assert (Q : 0 < sqrt (e v_aftbody_len ^ 2 + (e Aircraft_Fuselage_PRESSURIZED_WIDTH_ADDITIONAL / 2) ^ 2)).
  { apply sqrt_lt_R0. apply Rplus_lt_le_0_compat; [apply pow_lt; tauto|apply pow2_ge_0]. }
  assert (K : 0 < e v_cabin_height * e Aircraft_Fuselage_PRESSURIZED_WIDTH_ADDITIONAL / 4 * e Aircraft_Fuselage_WETTED_AREA_SCALER).
  { apply Rmult_lt_0_compat; [|tauto]. apply Rdiv_lt_0_compat; [|lra]. apply Rmult_lt_0_compat; tauto. }
  revert S Q K. unfold exact_at.
  generalize (sqrt (e v_aftbody_len ^ 2 + (e Aircraft_Fuselage_PRESSURIZED_WIDTH_ADDITIONAL / 2) ^ 2)) (sqrt (e v_aftbody_len ^ 2 + (e v_cabin_height / 2) ^ 2))
    (e v_cabin_height * e Aircraft_Fuselage_PRESSURIZED_WIDTH_ADDITIONAL / 4 * e Aircraft_Fuselage_WETTED_AREA_SCALER).
  intros q p k S Q K. split; intro E.
  - apply is_derive_unique in S. apply is_derive_unique in E. rewrite E in S.
    assert (Z : k * (1 / q - p) = 0) by lra. apply Rmult_integral in Z. destruct Z as [Z|Z]; [lra|].
    replace p with (1 / q) by lra. field. lra.
  - eapply is_derive_eq; [exact S|]. replace (1 / q) with p; [match goal with |- ?a = ?b => change (@eq R a b) end; ring|]. rewrite <- E. field. lra.
Qed.
Print Assumptions C61_wetted_area_iff.
