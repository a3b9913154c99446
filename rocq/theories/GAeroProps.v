(** Properties of GASP aerodynamics: claim C63. *)
From Coq Require Import Reals Lra Lia.
From Coquelicot Require Import Coquelicot.
From Verif Require Import Base Calc MathModel MathProofs Comp CompMore CompFun GAeroModel.
Local Open Scope R_scope.

(** An environment with the listed values and 1 elsewhere. *)
Definition given (l : list (string * R)) : env := fun n => fold_right (fun p r => if String.eqb n (fst p) then snd p else r) 1 l.
Ltac given_start := red_comp; cbv [given fold_right fst snd String.eqb Ascii.eqb Bool.eqb on ob oe unit_options].
Ltac decide_one := match goal with
  | |- context [ltb ?a ?b] => first [rewrite (ltb_intro_false a b) by lra | rewrite (ltb_intro a b) by lra]
  | |- context [leb ?a ?b] => first [rewrite (leb_intro_false a b) by lra | rewrite (leb_intro a b) by lra] end.
Ltac given_value := given_start; repeat decide_one; try lra; try (field; lra).

Theorem C63_AeroForces op : exact_partials (AeroForces op) everywhere.
Proof. exact_start; more_goals. Qed.
Print Assumptions C63_AeroForces.
Example C63_witness_AeroForces_Vehicle_LIFT : out (AeroForces unit_options) (fun _ => 1) Dynamic_Vehicle_LIFT = 1.
Proof. unit_value. Qed.
Example C63_witness_AeroForces_Vehicle_DRAG : out (AeroForces unit_options) (fun _ => 1) Dynamic_Vehicle_DRAG = 1.
Proof. unit_value. Qed.

Theorem C63_CLFromLift op : exact_partials (CLFromLift op) (fun e => e Dynamic_Atmosphere_DYNAMIC_PRESSURE <> 0 /\ e Aircraft_Wing_AREA <> 0).
Proof. exact_start; more_goals. Qed.
Print Assumptions C63_CLFromLift.
Example C63_witness_CLFromLift : out (CLFromLift unit_options) (fun _ => 1) Dynamic_Vehicle_LIFT_COEFFICIENT = 1.
Proof. unit_value. Qed.

Theorem C63_RootChord op : exact_partials (RootChord op) (positive [Aircraft_Wing_SPAN; Aircraft_Wing_TAPER_RATIO]).
Proof. exact_start; more_goals. Qed.
Print Assumptions C63_RootChord.
Example C63_witness_RootChord : out (RootChord unit_options) (fun _ => 1) v_CROOT = 1.
Proof. unit_value. Qed.

Theorem C63_CommonVariables op : exact_partials (CommonVariables op) (positive [Aircraft_Fuselage_AVG_DIAMETER]).
Proof. exact_start; more_goals. Qed.
Print Assumptions C63_CommonVariables.
Example C63_witness_CommonVariables_ZW_RF : out (CommonVariables unit_options) (fun _ => 1) v_ZW_RF = 1.
Proof. unit_value. Qed.
Example C63_witness_CommonVariables_wtofd : out (CommonVariables unit_options) (fun _ => 1) v_wtofd = 1.
Proof. unit_value. Qed.

Theorem C63_BodyRatios op : exact_partials (BodyRatios op) (positive [Aircraft_Wing_SPAN]).
Proof. exact_start; more_goals. Qed.
Print Assumptions C63_BodyRatios.
Example C63_witness_BodyRatios_TCBODYWF : out (BodyRatios unit_options) (fun _ => 1) v_TCBODYWF = 1.
Proof. unit_value. Qed.
Example C63_witness_BodyRatios_CBODYWF : out (BodyRatios unit_options) (fun _ => 1) v_CBODYWF = 1.
Proof. unit_value. Qed.

Theorem C63_InterferenceDrag op : exact_partials (InterferenceDrag op) (positive [v_TCBODYWF; v_CBODYWF]).
Proof. exact_start; more_goals. Qed.
Print Assumptions C63_InterferenceDrag.
Example C63_witness_InterferenceDrag_interference_independent_of_shielded_area : out (InterferenceDrag unit_options) (fun _ => 1) v_interference_independent_of_shielded_area = 1969317331969113 / 20000000000000000.
Proof. unit_value. Qed.
Example C63_witness_InterferenceDrag_drag_loss_due_to_shielded_wing_area : out (InterferenceDrag unit_options) (fun _ => 1) v_drag_loss_due_to_shielded_wing_area = 1.
Proof. unit_value. Qed.

Theorem C63_FormFactor op : exact_partials (FormFactor op) (positive [Aircraft_Fuselage_AVG_DIAMETER; Aircraft_Fuselage_LENGTH]).
Proof. exact_start; more_goals. Qed.
Print Assumptions C63_FormFactor.
Example C63_witness_FormFactor : out (FormFactor unit_options) (fun _ => 1) Aircraft_Fuselage_FORM_FACTOR = 19 / 2.
Proof. unit_value. Qed.

Theorem C63_BWBFormFactor op : exact_partials (BWBFormFactor op) (positive [Aircraft_Fuselage_HYDRAULIC_DIAMETER; Aircraft_Fuselage_LENGTH]).
Proof. exact_start; more_goals. Qed.
Print Assumptions C63_BWBFormFactor.
Example C63_witness_BWBFormFactor : out (BWBFormFactor unit_options) (fun _ => 1) Aircraft_Fuselage_FORM_FACTOR = 19 / 2.
Proof. unit_value. Qed.

Theorem C63_SIWB op : exact_partials (SIWB op) (positive [Aircraft_Wing_SPAN]).
Proof. exact_start; more_goals. Qed.
Print Assumptions C63_SIWB.
Example C63_witness_SIWB : out (SIWB unit_options) (fun _ => 1) v_siwb = 7531 / 2500.
Proof. unit_value. Qed.

Theorem C63_BWBSIWB op : exact_partials (BWBSIWB op) (positive [Aircraft_Wing_SPAN]).
Proof. exact_start; more_goals. Qed.
Print Assumptions C63_BWBSIWB.
Example C63_witness_BWBSIWB : out (BWBSIWB unit_options) (fun _ => 1) v_siwb = 7531 / 2500.
Proof. unit_value. Qed.

Theorem C63_LiftCoeff op : exact_partials (LiftCoeff op) (positive [v_kclge; v_lift_curve_slope]).
Proof. exact_start; pose proof PI_RGT_0; more_goals. Qed.
Print Assumptions C63_LiftCoeff.
Example C63_witness_LiftCoeff_dCL_flaps_full : out (LiftCoeff unit_options) (fun _ => 1) v_dCL_flaps_full = 2.
Proof. unit_value. Qed.
Example C63_witness_LiftCoeff_CL_max : out (LiftCoeff unit_options) (fun _ => 1) v_CL_max = 2.
Proof. unit_value. Qed.
Example C63_witness_base : out (LiftCoeff unit_options) (given [(Dynamic_Vehicle_ANGLE_OF_ATTACK, 181)]) v_CL_base = 2 * PI.
Proof. given_start. pose proof PI_neq0. field; repeat split; try assumption; lra. Qed.
Example C63_witness_full : out (LiftCoeff unit_options) (given [(Dynamic_Vehicle_ANGLE_OF_ATTACK, 181); (v_flap_factor, 2)]) v_CL_full_flaps = 2 * PI + 2.
Proof. given_start. pose proof PI_neq0. field; repeat split; try assumption; lra. Qed.
Example C63_witness_flaps : out (LiftCoeff unit_options) (given [(Dynamic_Vehicle_ANGLE_OF_ATTACK, 181); (v_flap_factor, 2)]) Dynamic_Vehicle_LIFT_COEFFICIENT = 2 * PI + 4.
Proof. given_start. pose proof PI_neq0. field; repeat split; try assumption; lra. Qed.
Example C63_witness_stall : out (LiftCoeff unit_options) (given [(v_CL_max_flaps, 3)]) v_alpha_stall = 360 / PI + 1.
Proof. given_start. pose proof PI_neq0. field; repeat split; try assumption; lra. Qed.

Theorem C63_BWBLiftCoeff op : exact_partials (BWBLiftCoeff op) (positive [v_kclge; v_lift_curve_slope; Aircraft_Wing_AREA]).
Proof. exact_start; pose proof PI_RGT_0; more_goals. Qed.
Print Assumptions C63_BWBLiftCoeff.
Example C63_witness_BWBLiftCoeff_dCL_flaps_full : out (BWBLiftCoeff unit_options) (fun _ => 1) v_dCL_flaps_full = 1.
Proof. unit_value. Qed.
Example C63_witness_BWBLiftCoeff_CL_max : out (BWBLiftCoeff unit_options) (fun _ => 1) v_CL_max = 1.
Proof. unit_value. Qed.
Example C63_witness_bwb_base : out (BWBLiftCoeff unit_options) (given [(Dynamic_Vehicle_ANGLE_OF_ATTACK, 181)]) v_CL_base = PI.
Proof. given_start. pose proof PI_neq0. field; repeat split; try assumption; lra. Qed.
Example C63_witness_bwb_full : out (BWBLiftCoeff unit_options) (given [(Dynamic_Vehicle_ANGLE_OF_ATTACK, 181); (v_flap_factor, 2)]) v_CL_full_flaps = 2 * PI + 1.
Proof. given_start. pose proof PI_neq0. field; repeat split; try assumption; lra. Qed.
Example C63_witness_bwb_flaps : out (BWBLiftCoeff unit_options) (given [(Dynamic_Vehicle_ANGLE_OF_ATTACK, 181); (v_flap_factor, 2)]) Dynamic_Vehicle_LIFT_COEFFICIENT = 2 * PI + 2.
Proof. given_start. pose proof PI_neq0. field; repeat split; try assumption; lra. Qed.
Example C63_witness_bwb_stall : out (BWBLiftCoeff unit_options) (given [(v_CL_max_flaps, 3)]) v_alpha_stall = 360 / PI + 1.
Proof. given_start. pose proof PI_neq0. field; repeat split; try assumption; lra. Qed.

Theorem C63_LiftCoeffClean op : exact_partials (LiftCoeffClean op) (positive [v_lift_curve_slope]).
Proof. exact_start; pose proof PI_RGT_0; more_goals. Qed.
Print Assumptions C63_LiftCoeffClean.
Example C63_witness_LiftCoeffClean_CL_max : out (LiftCoeffClean unit_options) (fun _ => 1) v_CL_max = 2.
Proof. unit_value. Qed.
Example C63_witness_clean : out (LiftCoeffClean unit_options) (given [(Dynamic_Vehicle_ANGLE_OF_ATTACK, 181)]) Dynamic_Vehicle_LIFT_COEFFICIENT = 2 * PI.
Proof. given_start. pose proof PI_neq0. field; repeat split; try assumption; lra. Qed.
Example C63_witness_clean_stall : out (LiftCoeffClean unit_options) (given []) v_alpha_stall = 180 / PI + 1.
Proof. given_start. pose proof PI_neq0. field; repeat split; try assumption; lra. Qed.

Theorem C63_LiftCoeffCleanAlpha op : exact_partials (LiftCoeffCleanAlpha op) (fun e => positive [v_lift_curve_slope] e /\ 1 + e v_lift_ratio <> 0).
Proof. exact_start; pose proof PI_RGT_0; more_goals. Qed.
Print Assumptions C63_LiftCoeffCleanAlpha.
Example C63_witness_LiftCoeffCleanAlpha_CL_max : out (LiftCoeffCleanAlpha unit_options) (fun _ => 1) v_CL_max = 2.
Proof. unit_value. Qed.
Example C63_witness_alpha : out (LiftCoeffCleanAlpha unit_options) (given []) Dynamic_Vehicle_ANGLE_OF_ATTACK = 90 / PI + 1.
Proof. given_start. pose proof PI_neq0. field; repeat split; try assumption; lra. Qed.
Example C63_witness_alpha_stall : out (LiftCoeffCleanAlpha unit_options) (given []) v_alpha_stall = 180 / PI + 1.
Proof. given_start. pose proof PI_neq0. field; repeat split; try assumption; lra. Qed.

Theorem C63_BWBLiftCoeffClean op : exact_partials (BWBLiftCoeffClean op) (positive [v_lift_curve_slope; Aircraft_Wing_AREA]).
Proof. exact_start; pose proof PI_RGT_0; more_goals. Qed.
Print Assumptions C63_BWBLiftCoeffClean.
Example C63_witness_BWBLiftCoeffClean_CL_max : out (BWBLiftCoeffClean unit_options) (fun _ => 1) v_CL_max = 1.
Proof. unit_value. Qed.
Example C63_witness_bwb_clean : out (BWBLiftCoeffClean unit_options) (given [(Dynamic_Vehicle_ANGLE_OF_ATTACK, 181)]) Dynamic_Vehicle_LIFT_COEFFICIENT = 2 * PI.
Proof. given_start. pose proof PI_neq0. field; repeat split; try assumption; lra. Qed.
Example C63_witness_bwb_clean_stall : out (BWBLiftCoeffClean unit_options) (given []) v_alpha_stall = 180 / PI + 1.
Proof. given_start. pose proof PI_neq0. field; repeat split; try assumption; lra. Qed.

Theorem C63_BWBLiftCoeffCleanAlpha op : exact_partials (BWBLiftCoeffCleanAlpha op) (positive [v_lift_curve_slope; Aircraft_Wing_AREA; v_body_lift_curve_slope; Aircraft_Wing_EXPOSED_AREA; Aircraft_Fuselage_PLANFORM_AREA]).
Proof. exact_start; pose proof PI_RGT_0; more_goals. Qed.
Print Assumptions C63_BWBLiftCoeffCleanAlpha.
Example C63_witness_BWBLiftCoeffCleanAlpha_mod_lift_curve_slope : out (BWBLiftCoeffCleanAlpha unit_options) (fun _ => 1) v_mod_lift_curve_slope = 2.
Proof. unit_value. Qed.
Example C63_witness_BWBLiftCoeffCleanAlpha_CL_max : out (BWBLiftCoeffCleanAlpha unit_options) (fun _ => 1) v_CL_max = 1.
Proof. unit_value. Qed.
Example C63_witness_bwb_alpha : out (BWBLiftCoeffCleanAlpha unit_options) (given []) Dynamic_Vehicle_ANGLE_OF_ATTACK = 90 / PI + 1.
Proof. given_start. pose proof PI_neq0. field; repeat split; try assumption; lra. Qed.
Example C63_witness_bwb_alpha_stall : out (BWBLiftCoeffCleanAlpha unit_options) (given []) v_alpha_stall = 180 / PI + 1.
Proof. given_start. pose proof PI_neq0. field; repeat split; try assumption; lra. Qed.

Theorem C63_BWBBodyLiftCurveSlope op : exact_partials (BWBBodyLiftCurveSlope op) (fun e => e Dynamic_Atmosphere_MACH ^ 2 < 1).
Proof. exact_start; more_goals. Qed.
Print Assumptions C63_BWBBodyLiftCurveSlope.
Example C63_witness_body_slope : out (BWBBodyLiftCurveSlope unit_options) (given [(Dynamic_Atmosphere_MACH, 4 / 5)]) v_body_lift_curve_slope = 5 / 3.
Proof. given_start. replace (1 - (4 / 5) ^ 2) with ((3 / 5) ^ 2) by field. rewrite sqrt_pow2 by lra. field. Qed.

Lemma below_one m c : m ^ 2 < 1 -> 0 < 1 - m ^ 2 * cos c ^ 2.
Proof. intro M. pose proof (COS_bound c). assert (cos c ^ 2 <= 1) by nra. assert (0 <= m ^ 2) by apply pow2_ge_0. nra. Qed.
Ltac root_goal :=
  match goal with M : ?m ^ 2 < 1 |- _ =>
    repeat match goal with |- context [cos ?c] => lazymatch goal with _ : 0 < 1 - m ^ 2 * cos c ^ 2 |- _ => fail | _ => pose proof (below_one m c M) end end;
    assert (0 < 1 - m ^ 2) by lra;
    auto_derive; minus_div; fold_pow;
    [ repeat split; try exact I; try assumption; try (apply Rgt_not_eq; apply sqrt_lt_R0; assumption); try lra
    | fold_pow; minus_div; repeat match goal with P : 0 < 1 - ?x |- context [sqrt (1 - ?x)] =>
        let Q := fresh in let E := fresh "E" in pose proof (sqrt_lt_R0 _ P) as Q; pose proof (pow2_sqrt _ (Rlt_le _ _ P)) as E; revert Q E; generalize (sqrt (1 - x)); intros ? Q E end;
      try match goal with E : ?s ^ 2 = _ |- _ => field [E]; repeat split; lra end ] end.
Theorem C63_AeroFormfactors op : exact_partials (AeroFormfactors op) (fun e => positive [Aircraft_Nacelle_AVG_LENGTH; Aircraft_Nacelle_AVG_DIAMETER] e /\ e Aircraft_Design_MACH ^ 2 < 1).
Proof.
  exact_start; exact_prepare.
  all: first [solve [derive_goal; pw_field] | root_goal].
Qed.
Print Assumptions C63_AeroFormfactors.
Example C63_witness_AeroFormfactors_Nacelle_FORM_FACTOR : out (AeroFormfactors unit_options) (fun _ => 1) Aircraft_Nacelle_FORM_FACTOR = 81 / 40.
Proof. unit_value. Qed.
Example C63_witness_wing_form : out (AeroFormfactors unit_options) (given [(Aircraft_Design_MACH, 4 / 5); (Aircraft_Wing_SWEEP, 0); (Aircraft_VerticalTail_SWEEP, 0); (Aircraft_HorizontalTail_SWEEP, 0)]) Aircraft_Wing_FORM_FACTOR = 26333 / 125.
Proof. given_start. rewrite ?cos_0. replace (1 - (4 / 5) ^ 2 * 1 ^ 2) with ((3 / 5) ^ 2) by field. replace (1 - (4 / 5) ^ 2) with ((3 / 5) ^ 2) by field. rewrite ?sqrt_pow2 by lra. field. Qed.
Example C63_witness_vtail_form : out (AeroFormfactors unit_options) (given [(Aircraft_Design_MACH, 4 / 5); (Aircraft_Wing_SWEEP, 0); (Aircraft_VerticalTail_SWEEP, 0); (Aircraft_HorizontalTail_SWEEP, 0)]) Aircraft_VerticalTail_FORM_FACTOR = 26333 / 125.
Proof. given_start. rewrite ?cos_0. replace (1 - (4 / 5) ^ 2 * 1 ^ 2) with ((3 / 5) ^ 2) by field. replace (1 - (4 / 5) ^ 2) with ((3 / 5) ^ 2) by field. rewrite ?sqrt_pow2 by lra. field. Qed.
Example C63_witness_htail_form : out (AeroFormfactors unit_options) (given [(Aircraft_Design_MACH, 4 / 5); (Aircraft_Wing_SWEEP, 0); (Aircraft_VerticalTail_SWEEP, 0); (Aircraft_HorizontalTail_SWEEP, 0)]) Aircraft_HorizontalTail_FORM_FACTOR = 26333 / 125.
Proof. given_start. rewrite ?cos_0. replace (1 - (4 / 5) ^ 2 * 1 ^ 2) with ((3 / 5) ^ 2) by field. replace (1 - (4 / 5) ^ 2) with ((3 / 5) ^ 2) by field. rewrite ?sqrt_pow2 by lra. field. Qed.
Example C63_witness_strut_form : out (AeroFormfactors unit_options) (given [(Aircraft_Design_MACH, 4 / 5); (Aircraft_Wing_SWEEP, 0); (Aircraft_VerticalTail_SWEEP, 0); (Aircraft_HorizontalTail_SWEEP, 0)]) Aircraft_Strut_FUSELAGE_INTERFERENCE_FACTOR = 26333 / 125.
Proof. given_start. rewrite ?cos_0. replace (1 - (4 / 5) ^ 2 * 1 ^ 2) with ((3 / 5) ^ 2) by field. replace (1 - (4 / 5) ^ 2) with ((3 / 5) ^ 2) by field. rewrite ?sqrt_pow2 by lra. field. Qed.

(** The angle of attack for a lift coefficient and the lift coefficient for an angle of attack are inverse. *)
Theorem C63_angle_inverse op e : e v_lift_curve_slope <> 0 -> 1 + e v_lift_ratio <> 0 ->
  out (LiftCoeffCleanAlpha op) (upd e Dynamic_Vehicle_LIFT_COEFFICIENT (out (LiftCoeffClean op) e Dynamic_Vehicle_LIFT_COEFFICIENT)) Dynamic_Vehicle_ANGLE_OF_ATTACK = e Dynamic_Vehicle_ANGLE_OF_ATTACK /\
  out (LiftCoeffClean op) (upd e Dynamic_Vehicle_ANGLE_OF_ATTACK (out (LiftCoeffCleanAlpha op) e Dynamic_Vehicle_ANGLE_OF_ATTACK)) Dynamic_Vehicle_LIFT_COEFFICIENT = e Dynamic_Vehicle_LIFT_COEFFICIENT.
Proof. intros S L. red_comp_in S. red_comp_in L. pose proof PI_neq0. split; red_comp; field; repeat split; assumption. Qed.
Print Assumptions C63_angle_inverse.
Example C63_witness_angle_inverse : given [] v_lift_curve_slope <> 0 /\ 1 + given [] v_lift_ratio <> 0.
Proof. cbn. split; lra. Qed.

Theorem C63_bwb_angle_inverse op e : e Aircraft_Wing_AREA <> 0 -> e Aircraft_Wing_EXPOSED_AREA * e v_lift_curve_slope + e Aircraft_Fuselage_PLANFORM_AREA * e v_body_lift_curve_slope <> 0 ->
  out (BWBLiftCoeffCleanAlpha op) (upd e Dynamic_Vehicle_LIFT_COEFFICIENT (out (BWBLiftCoeffClean op) e Dynamic_Vehicle_LIFT_COEFFICIENT)) Dynamic_Vehicle_ANGLE_OF_ATTACK = e Dynamic_Vehicle_ANGLE_OF_ATTACK /\
  out (BWBLiftCoeffClean op) (upd e Dynamic_Vehicle_ANGLE_OF_ATTACK (out (BWBLiftCoeffCleanAlpha op) e Dynamic_Vehicle_ANGLE_OF_ATTACK)) Dynamic_Vehicle_LIFT_COEFFICIENT = e Dynamic_Vehicle_LIFT_COEFFICIENT.
Proof. intros S L. red_comp_in S. red_comp_in L. pose proof PI_neq0. split; red_comp; field; repeat split; assumption. Qed.
Print Assumptions C63_bwb_angle_inverse.

(** At the stall angle the lift coefficient is the maximum lift coefficient: clean, and with full flaps. *)
Theorem C63_stall op e : e v_lift_curve_slope <> 0 ->
  out (LiftCoeffClean op) (upd e Dynamic_Vehicle_ANGLE_OF_ATTACK (out (LiftCoeffClean op) e v_alpha_stall)) Dynamic_Vehicle_LIFT_COEFFICIENT = out (LiftCoeffClean op) e v_CL_max.
Proof. intros S. red_comp_in S. pose proof PI_neq0. red_comp; field; repeat split; assumption. Qed.
Print Assumptions C63_stall.

Theorem C63_stall_flaps op e : e v_lift_curve_slope <> 0 -> e v_kclge <> 0 ->
  out (LiftCoeff op) (upd e Dynamic_Vehicle_ANGLE_OF_ATTACK (out (LiftCoeff op) e v_alpha_stall)) v_CL_full_flaps = out (LiftCoeff op) e v_CL_max.
Proof. intros S L. red_comp_in S. red_comp_in L. pose proof PI_neq0. red_comp; field; repeat split; assumption. Qed.
Print Assumptions C63_stall_flaps.

(** The lift coefficient lies on the line between no flaps and full flaps. *)
Theorem C63_flap_line op e :
  out (LiftCoeff op) e Dynamic_Vehicle_LIFT_COEFFICIENT = (1 - e v_flap_factor) * out (LiftCoeff op) e v_CL_base + e v_flap_factor * out (LiftCoeff op) e v_CL_full_flaps.
Proof. red_comp. ring. Qed.
Print Assumptions C63_flap_line.

(** A blended wing body: the wing stalls, but the whole body has another lift coefficient than the reported maximum. *)
Theorem C63_bwb_stall op e : e v_lift_curve_slope <> 0 -> e v_kclge <> 0 -> e Aircraft_Wing_AREA <> 0 ->
  out (BWBLiftCoeff op) (upd e Dynamic_Vehicle_ANGLE_OF_ATTACK (out (BWBLiftCoeff op) e v_alpha_stall)) v_CL_full_flaps =
    e Aircraft_Wing_EXPOSED_AREA / e Aircraft_Wing_AREA * out (BWBLiftCoeff op) e v_CL_max
    + e Aircraft_Fuselage_PLANFORM_AREA / e Aircraft_Wing_AREA * e v_body_lift_curve_slope / e v_lift_curve_slope * (e v_CL_max_flaps - e v_dCL_flaps_model).
Proof. intros S L A. red_comp_in S. red_comp_in L. red_comp_in A. pose proof PI_neq0. red_comp; field; repeat split; assumption. Qed.
Print Assumptions C63_bwb_stall.
Example C63_witness_bwb_stall_value : out (BWBLiftCoeff unit_options) (given [(v_CL_max_flaps, 3); (Dynamic_Vehicle_ANGLE_OF_ATTACK, 360 / PI + 1)]) v_CL_full_flaps = 5 /\ out (BWBLiftCoeff unit_options) (given [(v_CL_max_flaps, 3)]) v_CL_max = 3.
Proof. pose proof PI_neq0. split; [|given_value]. given_start. field. assumption. Qed.

(** Lift from the coefficient and the coefficient from lift are inverse. *)
Theorem C63_lift_inverse op e : e Dynamic_Atmosphere_DYNAMIC_PRESSURE <> 0 -> e Aircraft_Wing_AREA <> 0 ->
  out (CLFromLift op) (upd e v_lift_req (out (AeroForces op) e Dynamic_Vehicle_LIFT)) Dynamic_Vehicle_LIFT_COEFFICIENT = e Dynamic_Vehicle_LIFT_COEFFICIENT.
Proof. intros S L. red_comp_in S. red_comp_in L. red_comp; field; split; assumption. Qed.
Print Assumptions C63_lift_inverse.
Example C63_witness_lift_inverse : out (CLFromLift unit_options) (given [(v_lift_req, 6); (Aircraft_Wing_AREA, 3)]) Dynamic_Vehicle_LIFT_COEFFICIENT = 2.
Proof. given_value. Qed.

(** The unused mission component takes the two results of InterferenceDrag in the wrong order (L353-354, L399): the interference independent of the shielded area is multiplied with the skin friction, the shielded area is added as drag. *)
Theorem C63_interference_swapped op e d :
  out (WingFuselageInterferenceMission op) (upd e v_drag_loss_due_to_shielded_wing_area (e v_drag_loss_due_to_shielded_wing_area + d)) v_wing_fuselage_interference_flat_plate_equivalent =
  out (WingFuselageInterferenceMission op) e v_wing_fuselage_interference_flat_plate_equivalent + d.
Proof. red_comp. ring. Qed.
Print Assumptions C63_interference_swapped.

Lemma log10_pos x : 1 < x -> 0 < log10 x.
Proof.
  intro H. Transparent log10. unfold log10. apply Rdiv_lt_0_compat; [|exact ln10_pos].
  rewrite <- ln_1. apply ln_increasing; lra.
Qed.
Opaque log10.
Theorem C63_WingFuselageInterferenceMission op : positive [Mission_GRAVITY] (on op) -> exact_partials (WingFuselageInterferenceMission op) (fun e => positive [Aircraft_Wing_AVERAGE_CHORD; Dynamic_Atmosphere_MACH; Dynamic_Atmosphere_TEMPERATURE; Dynamic_Atmosphere_KINEMATIC_VISCOSITY] e /\
  1 < sqrt (14 / 10 * on op Mission_GRAVITY * (5332 / 100)) * e Dynamic_Atmosphere_MACH * sqrt (e Dynamic_Atmosphere_TEMPERATURE) / e Dynamic_Atmosphere_KINEMATIC_VISCOSITY * e Aircraft_Wing_AVERAGE_CHORD).
Proof.
  exact_start; exact_prepare; pose proof ln10_pos.
  all: match goal with H : 1 < sqrt ?a * ?m * sqrt ?t / ?n * ?c |- _ =>
    pose proof (log10_pos _ H);
    assert (0 < sqrt a) by (apply sqrt_lt_R0; lra); assert (0 < sqrt t) by (apply sqrt_lt_R0; lra);
    assert (t = sqrt t * sqrt t) by (symmetry; apply sqrt_sqrt; lra);
    generalize dependent (sqrt a); intros end.
  all: match goal with |- context [7 ** ?k] => assert (0 < 7 ** k) by (apply pw_pos; lra); generalize dependent (7 ** k); intros end.
  all: derive_goal; minus_div; fold_pow; try reflexivity.
  all: try (exfalso; lra).
  all: repeat match goal with |- context [?a ** (-26 / 10 - 1)] => replace (-26 / 10 - 1) with (-36 / 10) by field end.
  all: repeat match goal with |- context [?a ** (65 / 100 - 1)] => rewrite (pw_shift_down (65 / 100 - 1) (65 / 100) 1 a) by (nra || (simpl; ring)) end.
  all: match goal with |- context [?a ** (65 / 100)] => assert (0 < a) by nra; assert (0 < a ** (65 / 100)) by (apply pw_pos; assumption); generalize dependent (a ** (65 / 100)); intros end.
  all: repeat match goal with |- context [(log10 ?a / 7) ** ?k] => generalize ((log10 a / 7) ** k); intro end.
  all: field; repeat split; try lra; try nra.
Qed.
Print Assumptions C63_WingFuselageInterferenceMission.
Example C63_witness_WingFuselageInterferenceMission : out (WingFuselageInterferenceMission unit_options) (given [(v_interference_independent_of_shielded_area, 0); (v_drag_loss_due_to_shielded_wing_area, 5)]) v_wing_fuselage_interference_flat_plate_equivalent = 5.
Proof. given_start. ring. Qed.

(** The width of the unit circle at a height. *)
Definition half_width (x : R) : R := if leb 1 (Rabs x) then 0 else (1 - x ^ 2) ** (5 / 10).
Definition d_half_width (x : R) : R := if leb 1 (Rabs x) then 0 else - (1 - x ^ 2) ** (- 5 / 10) * x.
Lemma half_width_derive x : Rabs x <> 1 -> is_derive half_width x (d_half_width x).
Proof.
  intro N. unfold d_half_width. destruct (leb 1 (Rabs x)) eqn:C; [apply leb_true in C | apply leb_false in C].
  - apply is_derive_ext_loc with (fun _ => 0); [|auto_derive; [exact I|reflexivity]].
    assert (P : 0 < Rabs x - 1) by lra. exists (mkposreal _ P). intros y B. unfold half_width. rewrite leb_intro; [reflexivity|].
    change (Rabs (y - x) < Rabs x - 1) in B. pose proof (Rabs_triang_inv x y) as T. rewrite (Rabs_minus_sym y x) in B. lra.
  - apply is_derive_ext_loc with (fun y => (1 - y ^ 2) ** (5 / 10)).
    + assert (P : 0 < 1 - Rabs x) by lra. exists (mkposreal _ P). intros y B. unfold half_width. rewrite leb_intro_false; [reflexivity|].
      change (Rabs (y - x) < 1 - Rabs x) in B. pose proof (Rabs_triang x (y - x)) as T. rewrite (Rplus_minus x y) in T. lra.
    + apply Rabs_def2 in C. assert (0 < 1 - x ^ 2) by nra. auto_derive; minus_div; fold_pow; [assumption|]. replace (5 / 10 - 1) with (- 5 / 10) by field. fold_pow. field.
Qed.
Global Instance UnaryDiff_half_width : UnaryDiff' half_width.
Proof. exists d_half_width (fun x => Rabs x <> 1). intros x Hx. now apply half_width_derive. Defined.
Theorem C63_TopAndBottomWidth op : exact_partials (TopAndBottomWidth op) (fun e => Rabs (e v_ZW_RF + e v_wtofd) <> 1 /\ Rabs (e v_ZW_RF - e v_wtofd) <> 1).
Proof.
  assert (O : forall e, out (TopAndBottomWidth op) e v_WBODYWF = 5 / 10 * (e Aircraft_Fuselage_AVG_DIAMETER * half_width (e v_ZW_RF + e v_wtofd) + e Aircraft_Fuselage_AVG_DIAMETER * half_width (e v_ZW_RF - e v_wtofd))).
  { intro e. red_comp. unfold half_width. do 2 destruct (leb _ _); ring. }
  exact_start.
  all: apply is_derive_ext with (1 := fun t => eq_sym (O _)).
  all: match goal with D : _ /\ _ |- _ => destruct D as [D1 D2] end.
  all: match goal with |- is_derive ?f ?x ?d => set (d' := d) end.
  all: cbv [upd v_ZW_RF v_wtofd Aircraft_Fuselage_AVG_DIAMETER String.eqb Ascii.eqb Bool.eqb] in *.
  all: auto_derive; minus_div; [repeat split; assumption|].
  all: subst d'; red_comp; branches; red_comp; lra || ring.
Qed.
Print Assumptions C63_TopAndBottomWidth.
Example C63_witness_width : out (TopAndBottomWidth unit_options) (given [(v_ZW_RF, 1); (v_wtofd, 1); (Aircraft_Fuselage_AVG_DIAMETER, 6)]) v_WBODYWF = 3.
Proof. given_start. rewrite (leb_intro 1 (Rabs (1 + 1))) by (rewrite Rabs_right; lra). rewrite (leb_intro_false 1 (Rabs (1 - 1))) by (rewrite Rminus_diag_eq, Rabs_R0; lra). replace (1 - (1 - 1) ^ 2) with 1 by ring. rewrite pw_1. field. Qed.

Theorem C63_UFacTransport op : exact_except (UFacTransport op) (positive [v_bbar_alt; v_sigma; v_sigstr; v_lift_ratio]) [(v_ufac, v_lift_ratio)].
Proof. except_start; more_goals. Qed.
Print Assumptions C63_UFacTransport.
Example C63_witness_UFacTransport : out (UFacTransport unit_options) (fun _ => 1) v_ufac = 1.
Proof. unit_value. Qed.
Example C63_witness_ufac : out (UFacTransport unit_options) (given [(v_bbar_alt, 1 / 2); (v_lift_ratio, 1 / 2)]) v_ufac = 9 / 16.
Proof. given_value. Qed.

(** The partial with respect to the lift ratio divides the derivative of the numerator by the span ratio (L625). *)
Theorem C63_lift_ratio_iff op e : positive [v_bbar_alt; v_sigma; v_sigstr; v_lift_ratio] e ->
  (exact_at (UFacTransport op) e v_ufac v_lift_ratio <-> e v_bbar_alt = 1).
Proof.
  intro D. red_comp_in D. unfold exact_at. red_comp. conjuncts.
  set (b := e "bbar_alt") in *. set (s := e "sigma") in *. set (t := e "sigstr") in *. set (l := e "lift_ratio") in *.
  assert (P : 0 < t * (l / b) ^ 2 + 2 * s * l / b + 1).
  { assert (0 < l / b) by (apply Rdiv_lt_0_compat; assumption). assert (0 < s * (l / b)) by (apply Rmult_lt_0_compat; assumption).
    assert (0 < t * (l / b) ^ 2) by (apply Rmult_lt_0_compat; [assumption|apply pow_lt; assumption]). replace (2 * s * l / b) with (2 * (s * (l / b))) by (unfold Rdiv; ring). lra. }
  set (d := t * (l / b) ^ 2 + 2 * s * l / b + 1) in *.
  assert (G : is_derive (fun x => (1 + x) ^ 2 / (t * (x / b) ^ 2 + 2 * s * x / b + 1)) l
    ((2 * (1 + l) * d - (1 + l) ^ 2 * (2 * t * (l / b) / b + 2 * s / b)) / d ^ 2)).
  { auto_derive; minus_div; fold_pow; fold d; [lra|]. fold d. field. split; lra. }
  split.
  - intro E. apply is_derive_unique in E. apply is_derive_unique in G. assert (Q := eq_trans (eq_sym E) G). clear E G. rename Q into G.
    apply (f_equal (fun z => z * (d * b))) in G.
    replace ((2 * (1 + l) / b * d - (1 + l) ^ 2 * (2 * t * (l / b) / b + 2 * s / b)) / d ^ 2 * (d * b)) with (2 * (1 + l) - (1 + l) ^ 2 * (2 * t * (l / b) / b + 2 * s / b) / d * b) in G by (field; split; lra).
    replace ((2 * (1 + l) * d - (1 + l) ^ 2 * (2 * t * (l / b) / b + 2 * s / b)) / d ^ 2 * (d * b)) with (2 * (1 + l) * b - (1 + l) ^ 2 * (2 * t * (l / b) / b + 2 * s / b) / d * b) in G by (field; split; lra).
    nra.
  - intros B. eapply is_derive_eq; [exact G|]. rewrite B. f_equal. field.
Qed.
Print Assumptions C63_lift_ratio_iff.
Example C63_witness_lift_ratio : ~ exact_at (UFacTransport unit_options) (given [(v_bbar_alt, 2)]) v_ufac v_lift_ratio.
Proof. intro E. apply C63_lift_ratio_iff in E; [cbn in E; lra|]. cbn. lra. Qed.

(** For a blended wing body the factor is at most 0.975. *)
Theorem C63_bwb_limit op e : out (UFacBWBSharp op) e v_ufac <= 975 / 1000.
Proof. red_comp. apply Rmin_r. Qed.
Print Assumptions C63_bwb_limit.

(** A span ratio below 1 / 100 of the wing span is replaced by 1 (L598-599), but compute_partials uses the given one. *)
Theorem C63_bwb_small_span_refuted op e : positive [v_bbar_alt; v_sigma; v_sigstr; v_lift_ratio] e -> e v_bbar_alt < e Aircraft_Wing_SPAN / 100 ->
  out (UFacTransport op) e v_ufac < 975 / 1000 -> ~ exact_at (UFacBWBSharp op) e v_ufac v_bbar_alt.
Proof.
  intros D L U. red_comp_in D. red_comp_in L. red_comp_in U. unfold exact_at. red_comp. conjuncts.
  rewrite Rmin_left by lra. rewrite ltb_intro by lra.
  set (b := e "bbar_alt") in *. set (s := e "sigma") in *. set (t := e "sigstr") in *. set (l := e "lift_ratio") in *.
  set (w := e "aircraft:wing:span") in *.
  assert (A : 0 < l / b) by (apply Rdiv_lt_0_compat; assumption).
  assert (P : 0 < t * (l / b) ^ 2 + 2 * s * l / b + 1).
  { assert (0 < s * (l / b)) by (apply Rmult_lt_0_compat; assumption).
    assert (0 < t * (l / b) ^ 2) by (apply Rmult_lt_0_compat; [assumption|apply pow_lt; assumption]). replace (2 * s * l / b) with (2 * (s * (l / b))) by (unfold Rdiv; ring). lra. }
  set (d := t * (l / b) ^ 2 + 2 * s * l / b + 1) in *.
  intro E.
  assert (Z : is_derive (fun y : R => Rmin ((1 + l) ^ 2 / (t * (l / 1) ^ 2 + 2 * s * l / 1 + 1)) (975 / 1000)) b 0) by (auto_derive; [exact I|reflexivity]).
  match type of E with is_derive ?f _ _ => assert (G : is_derive f b 0) end.
  { eapply is_derive_ext_loc; [|exact Z]. assert (Q : 0 < w / 100 - b) by lra. exists (mkposreal _ Q). intros y B.
    change (Rabs (y - b) < w / 100 - b) in B. apply Rabs_def2 in B. cbv beta. rewrite (ltb_intro y) by lra. reflexivity. }
  apply is_derive_unique in E. apply is_derive_unique in G. pose proof (eq_trans (eq_sym E) G) as Q. clear E G Z.
  replace (1 * _) with ((1 + l) ^ 2 * (2 * t * (l / b) * l / b ^ 2 + 2 * s * l / b ^ 2) / d ^ 2) in Q by (field; split; lra).
  assert (0 < (1 + l) ^ 2 * (2 * t * (l / b) * l / b ^ 2 + 2 * s * l / b ^ 2) / d ^ 2); [|lra].
  assert (0 < b ^ 2) by (apply pow_lt; assumption).
  apply Rdiv_lt_0_compat; [|apply pow_lt; assumption]. apply Rmult_lt_0_compat; [apply pow_lt; lra|].
  apply Rplus_lt_0_compat; apply Rdiv_lt_0_compat; try assumption; repeat (assumption || lra || apply Rmult_lt_0_compat).
Qed.
Print Assumptions C63_bwb_small_span_refuted.
Example C63_witness_small_span : ~ exact_at (UFacBWBSharp unit_options) (given [(v_bbar_alt, 1 / 2); (v_lift_ratio, 1 / 2); (Aircraft_Wing_SPAN, 100)]) v_ufac v_bbar_alt.
Proof. apply C63_bwb_small_span_refuted; [cbn; lra|cbn; lra|given_start; lra]. Qed.

(** Elsewhere the other partials of a blended wing body are exact. *)
Theorem C63_UFacBWBSharp op : exact_except (UFacBWBSharp op) (fun e => positive [v_bbar_alt; v_sigma; v_sigstr; v_lift_ratio] e /\ 1 / 100 * e Aircraft_Wing_SPAN < e v_bbar_alt /\ out (UFacTransport op) e v_ufac < 975 / 1000) [(v_ufac, v_lift_ratio)].
Proof.
  except_start.
  all: match goal with D : _ /\ _ /\ _ |- _ => destruct D as (D & L & U) end.
  all: match goal with |- is_derive (fun t => out _ (upd _ ?i t) _) _ _ =>
    assert (X : exact_at (UFacTransport op) e v_ufac i) by (destruct (C63_UFacTransport op) as (_ & _ & T); apply (T e D); [left; reflexivity|cbn; tauto|cbn; intros [Q|[]]; discriminate Q]);
    assert (K : jac (UFacBWBSharp op) e v_ufac i = jac (UFacTransport op) e v_ufac i)
      by (red_comp_in U; red_comp; rewrite ?Rmin_left, ?ltb_intro by lra; rewrite ?Rmult_1_l; reflexivity);
    rewrite K; unfold exact_at in X; eapply is_derive_ext_loc; [|exact X];
    assert (C1 : locally (e i) (fun t => out (UFacTransport op) (upd e i t) v_ufac - 975 / 1000 < 0))
      by (apply (locally_neg (fun t => out (UFacTransport op) (upd e i t) v_ufac - 975 / 1000));
          [apply (ex_derive_continuous (V := R_NormedModule)); apply (ex_derive_minus (V := R_NormedModule)); [eexists; exact X|apply ex_derive_const]
          |rewrite upd_id; lra]);
    assert (C2 : locally (e i) (fun t => 1 / 100 * upd e i t Aircraft_Wing_SPAN - upd e i t v_bbar_alt < 0))
      by (apply (locally_neg (fun t => 1 / 100 * upd e i t Aircraft_Wing_SPAN - upd e i t v_bbar_alt));
          [cbv [upd String.eqb Ascii.eqb Bool.eqb v_bbar_alt v_sigma v_sigstr Aircraft_Wing_SPAN]; apply (ex_derive_continuous (V := R_NormedModule)); auto_derive; exact I
          |rewrite !upd_id; lra]);
    generalize (filter_and _ _ C1 C2); apply filter_imp; intros t [P1 P2]; red_comp_in P1; red_comp_in P2; red_comp;
    rewrite ltb_intro_false by lra; rewrite Rmin_left by lra; reflexivity
  end.
Qed.
Print Assumptions C63_UFacBWBSharp.
Example C63_witness_ufac_bwb : out (UFacBWBSharp unit_options) (fun _ => 1) v_ufac = 975 / 1000.
Proof. given_start. rewrite ltb_intro_false by lra. apply Rmin_right. lra. Qed.
Example C63_witness_ufac_bwb_below : out (UFacBWBSharp unit_options) (given [(v_bbar_alt, 1 / 2); (v_lift_ratio, 1 / 2)]) v_ufac = 9 / 16.
Proof. given_start. rewrite ltb_intro_false by lra. rewrite Rmin_left; lra. Qed.

(** Above the limit the factor is constant, but the partial with respect to the lift ratio is not limited (L657): exact only when the unlimited partial is zero. *)
Theorem C63_bwb_capped_iff op e : positive [v_bbar_alt; v_sigma; v_sigstr; v_lift_ratio] e -> 1 / 100 * e Aircraft_Wing_SPAN < e v_bbar_alt ->
  975 / 1000 < out (UFacTransport op) e v_ufac ->
  (exact_at (UFacBWBSharp op) e v_ufac v_lift_ratio <-> jac (UFacTransport op) e v_ufac v_lift_ratio = 0).
Proof.
  intros D L U.
  assert (Z : is_derive (fun t => out (UFacBWBSharp op) (upd e v_lift_ratio t) v_ufac) (e v_lift_ratio) 0).
  { apply is_derive_ext_loc with (fun _ => 975 / 1000); [|auto_derive; [exact I|reflexivity]].
    assert (C : locally (e v_lift_ratio) (fun t => 0 < out (UFacTransport op) (upd e v_lift_ratio t) v_ufac - 975 / 1000)).
    { apply (locally_pos (fun t => out (UFacTransport op) (upd e v_lift_ratio t) v_ufac - 975 / 1000)).
      - apply (ex_derive_continuous (V := R_NormedModule)). red_comp_in D. conjuncts.
        change (ex_derive (fun x => (1 + x) ^ 2 / (e "sigstr"%string * (x / e "bbar_alt"%string) ^ 2 + 2 * e "sigma"%string * x / e "bbar_alt"%string + 1) - 975 / 1000) (e "lift_ratio"%string)).
        auto_derive. minus_div.
        set (b := e "bbar_alt") in *. set (s := e "sigma") in *. set (t := e "sigstr") in *. set (l := e "lift_ratio") in *.
        assert (A : 0 < l / b) by (apply Rdiv_lt_0_compat; assumption).
        assert (0 < s * (l / b)) by (apply Rmult_lt_0_compat; assumption).
        assert (0 < t * (l / b) ^ 2) by (apply Rmult_lt_0_compat; [assumption|apply pow_lt; assumption]).
        fold_pow. replace (2 * s * l / b) with (2 * (s * (l / b))) by (unfold Rdiv; ring). lra.
      - rewrite upd_id. lra. }
    revert C. apply filter_imp. intros t P. red_comp_in P. red_comp_in L. red_comp.
    rewrite ltb_intro_false by lra. rewrite Rmin_right by lra. reflexivity. }
  assert (J : jac (UFacBWBSharp op) e v_ufac v_lift_ratio = jac (UFacTransport op) e v_ufac v_lift_ratio) by reflexivity.
  unfold exact_at. rewrite J. split.
  - intro E. apply is_derive_unique in E. apply is_derive_unique in Z. exact (eq_trans (eq_sym E) Z).
  - intro E. rewrite E. exact Z.
Qed.
Print Assumptions C63_bwb_capped_iff.
Example C63_witness_capped : ~ exact_at (UFacBWBSharp unit_options) (given [(v_sigma, 1 / 2); (v_sigstr, 1 / 2)]) v_ufac v_lift_ratio.
Proof. intro E. apply C63_bwb_capped_iff in E; [revert E; given_start; lra|cbn; lra|cbn; lra|given_start; lra]. Qed.

(** The smooth limit stays below the sharp one. *)
Theorem C63_bwb_smooth_limit op e : 0 < on op v_mu -> out (UFacBWBSmooth op) e v_ufac <= 975 / 1000.
Proof.
  intro M. pose proof (fun x => proj2 (smooth_min_bounds x (975 / 1000) _ M)) as H.
  red_comp_in H. red_comp. eapply Rle_trans; [apply H|apply Rmin_r].
Qed.
Print Assumptions C63_bwb_smooth_limit.
