(** Properties of GASP geometry, fuel volume of a blended wing body: claim C61. *)
From Coq Require Import Reals Lra Lia.
From Coquelicot Require Import Coquelicot.
From Verif Require Import Base Calc MathModel MathProofs Comp CompMore CompFun GGeomModel GGeomProofs.
Local Open Scope R_scope.

Ltac wing_value :=
  red_comp; cbv [on ob oe unit_options]; branches; decided;
  match goal with |- context [pw (15 / 10) ?x] => replace x with 2 by field end;
  match goal with |- context [pw (5 / 10) ?x] => replace x with 2 by field end;
  rewrite (pw_three_half 2) by lra; pose proof (pw_pos (5 / 10) 2 ltac:(lra)); field; lra.
Example C61_witness_BWBWingVolumeNoFold : out (BWBWingVolumeNoFold unit_options) (fun n => if String.eqb n Aircraft_Wing_SPAN then 15 else 1) Aircraft_Fuel_WING_VOLUME_GEOMETRIC_MAX = 3 / 4 * (888889 / 1000000) * 2.
Proof. wing_value. Qed.

Theorem C61_BWBWingVolumeNoFold_sharp op e : ob op Aircraft_Design_SMOOTH_MASS_DISCONTINUITIES = false -> positive [v_mu] (on op) ->
  positive [Aircraft_LandingGear_MAIN_GEAR_LOCATION; Aircraft_Wing_THICKNESS_TO_CHORD_ROOT; Aircraft_Wing_THICKNESS_TO_CHORD_TIP; Aircraft_Fuselage_AVG_DIAMETER; Aircraft_Wing_SPAN; Aircraft_Wing_CENTER_CHORD; Aircraft_Wing_TAPER_RATIO; Aircraft_Fuel_WING_FUEL_FRACTION] e /\ e Aircraft_Fuselage_AVG_DIAMETER + 12 < e Aircraft_Wing_SPAN /\
  in_range (e Aircraft_LandingGear_MAIN_GEAR_LOCATION) 0 (on op v_mu) -> exact_at (BWBWingVolumeNoFold op) e Aircraft_Fuel_WING_VOLUME_GEOMETRIC_MAX Aircraft_LandingGear_MAIN_GEAR_LOCATION.
Proof.
  intros S N D. unfold exact_at. exact_prepare.
  - unfold Aircraft_Design_SMOOTH_MASS_DISCONTINUITIES in S. rewrite S in E. discriminate E.
  -
   match goal with |- is_derive ?f ?x ?d =>
      replace d with 0 by (unfold Rdiv; ring); apply (is_derive_ext_loc (fun _ => f x)); [|apply @is_derive_const] end.
    match goal with H : 0 < ?x |- locally ?x _ => generalize (locally_pos (fun t => t) x (continuous_id x) H); apply filter_imp; intros y Y end.
    cbv beta. apply ltb_intro in Y. apply ltb_intro in E0. rewrite Y, E0. reflexivity.
Qed.
Print Assumptions C61_BWBWingVolumeNoFold_sharp.

Theorem C61_BWBWingVolumeNoFold_gear op e : ob op Aircraft_Design_SMOOTH_MASS_DISCONTINUITIES = true -> positive [v_mu] (on op) ->
  positive [Aircraft_LandingGear_MAIN_GEAR_LOCATION; Aircraft_Wing_THICKNESS_TO_CHORD_ROOT; Aircraft_Wing_THICKNESS_TO_CHORD_TIP; Aircraft_Fuselage_AVG_DIAMETER; Aircraft_Wing_SPAN; Aircraft_Wing_CENTER_CHORD; Aircraft_Wing_TAPER_RATIO; Aircraft_Fuel_WING_FUEL_FRACTION] e /\ e Aircraft_Fuselage_AVG_DIAMETER + 12 < e Aircraft_Wing_SPAN /\
  in_range (e Aircraft_LandingGear_MAIN_GEAR_LOCATION) 0 (on op v_mu) /\ e Aircraft_Wing_TAPER_RATIO = 1 /\ e Aircraft_Wing_THICKNESS_TO_CHORD_ROOT = e Aircraft_Wing_THICKNESS_TO_CHORD_TIP ->
  is_derive (fun t => out (BWBWingVolumeNoFold op) (upd e Aircraft_LandingGear_MAIN_GEAR_LOCATION t) Aircraft_Fuel_WING_VOLUME_GEOMETRIC_MAX) (e Aircraft_LandingGear_MAIN_GEAR_LOCATION)
    (3 * on op v_mu * jac (BWBWingVolumeNoFold op) e Aircraft_Fuel_WING_VOLUME_GEOMETRIC_MAX Aircraft_LandingGear_MAIN_GEAR_LOCATION).
Proof.
  intros S N D. exact_prepare; try (unfold Aircraft_Design_SMOOTH_MASS_DISCONTINUITIES in S; rewrite S in E; discriminate E).
  match goal with I : in_range ?r 0 ?m, N : 0 < ?m |- _ =>
    pose proof (sigf_pos r 0 m (Rgt_not_eq _ _ N) I); pose proof (sigf_lt_1 r 0 m (Rgt_not_eq _ _ N) I);
    assert ((r - 0) / m <> -320) by (destruct I; lra); pose proof (Rgt_not_eq _ _ N) end.
  subst. bwb_volume.
  match goal with EA : p * p = _ / (?k * ?x) |- _ =>
    let F := fresh in assert (F : x = 4 * k / (p * p)) by (rewrite EA; field; repeat split; first [lra | apply Rgt_not_eq; lra]); rewrite F end.
  match goal with |- context [sigf 0 ?m ?r] => generalize dependent (sigf 0 m r); intros end.
  unify_plain. field. repeat split; nonzero. 
Qed.
Print Assumptions C61_BWBWingVolumeNoFold_gear.
