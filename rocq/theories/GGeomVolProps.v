(** Properties of GASP geometry, fuel volumes: claim C61. *)
From Coq Require Import Reals Lra Lia.
From Coquelicot Require Import Coquelicot.
From Verif Require Import Base Calc MathModel MathProofs Comp CompMore CompFun GGeomModel GGeomProofs.
Local Open Scope R_scope.

Ltac fold_value := red_comp; repeat match goal with |- context [pw ?a ?x] => replace x with 1 by field; rewrite (pw_1 a) end; field.
Theorem C61_WingFoldVolumeStrut op : exact_partials (WingFoldVolumeStrut op) (fun e =>
  positive [v_strut_y; Aircraft_Wing_AREA; Aircraft_Wing_SPAN; Aircraft_Wing_TAPER_RATIO; Aircraft_Wing_THICKNESS_TO_CHORD_ROOT; Aircraft_Wing_THICKNESS_TO_CHORD_TIP; Aircraft_Fuel_WING_FUEL_FRACTION; Aircraft_Wing_FOLDING_AREA] e /\
  e Aircraft_Wing_FOLDING_AREA < e Aircraft_Wing_AREA /\ 2 * e v_strut_y < e Aircraft_Wing_SPAN).
Proof.
  exact_start; exact_prepare.
  all: lazymatch goal with |- context [pw] => vol_goal ltac:(pos || nra) ltac:(idtac; pos) ltac:(apply taper_pos; pos); finish_vol | _ => derive_goal; pw_field end.
Qed.
Print Assumptions C61_WingFoldVolumeStrut.

Theorem C61_WingFoldVolumeChosen op : exact_partials (WingFoldVolumeChosen op) (fun e =>
  positive [Aircraft_Wing_FOLDED_SPAN; Aircraft_Wing_AREA; Aircraft_Wing_SPAN; Aircraft_Wing_TAPER_RATIO; Aircraft_Wing_THICKNESS_TO_CHORD_ROOT; Aircraft_Wing_THICKNESS_TO_CHORD_TIP; Aircraft_Fuel_WING_FUEL_FRACTION; Aircraft_Wing_FOLDING_AREA] e /\
  e Aircraft_Wing_FOLDING_AREA < e Aircraft_Wing_AREA /\ e Aircraft_Wing_FOLDED_SPAN < e Aircraft_Wing_SPAN).
Proof.
  exact_start; exact_prepare.
  all: lazymatch goal with |- context [pw] => vol_goal ltac:(pos || nra) ltac:(idtac; pos) ltac:(apply taper_pos; pos); finish_vol | _ => derive_goal; pw_field end.
Qed.
Print Assumptions C61_WingFoldVolumeChosen.

Theorem C61_BWBWingFoldVolumeStrut op : exact_partials (BWBWingFoldVolumeStrut op) (fun e =>
  positive [v_strut_y; Aircraft_Wing_SPAN; Aircraft_Wing_THICKNESS_TO_CHORD_ROOT; Aircraft_Wing_THICKNESS_TO_CHORD_TIP; Aircraft_Fuselage_AVG_DIAMETER; v_wing_volume_no_fold] e /\
  e Aircraft_Fuselage_AVG_DIAMETER < e Aircraft_Wing_SPAN).
Proof. exact_start; more_goals. Qed.
Print Assumptions C61_BWBWingFoldVolumeStrut.

Theorem C61_BWBWingFoldVolumeChosen op : exact_partials (BWBWingFoldVolumeChosen op) (fun e =>
  positive [Aircraft_Wing_FOLDED_SPAN; Aircraft_Wing_SPAN; Aircraft_Wing_THICKNESS_TO_CHORD_ROOT; Aircraft_Wing_THICKNESS_TO_CHORD_TIP; Aircraft_Fuselage_AVG_DIAMETER; v_wing_volume_no_fold] e /\
  e Aircraft_Fuselage_AVG_DIAMETER < e Aircraft_Wing_SPAN).
Proof. exact_start; more_goals. Qed.
Print Assumptions C61_BWBWingFoldVolumeChosen.

Example C61_witness_WingFoldVolumeStrut : out (WingFoldVolumeStrut unit_options) (fun n => if String.eqb n v_strut_y then 1 / 2 else if String.eqb n Aircraft_Wing_AREA then 2 else if String.eqb n Aircraft_Wing_SPAN then 2 else 1) Aircraft_Fuel_WING_VOLUME_GEOMETRIC_MAX = 3 / 4 * (888889 / 1000000).
Proof. fold_value. Qed.
Example C61_witness_WingFoldVolumeChosen : out (WingFoldVolumeChosen unit_options) (fun n => if String.eqb n Aircraft_Wing_AREA then 2 else if String.eqb n Aircraft_Wing_SPAN then 2 else 1) Aircraft_Fuel_WING_VOLUME_GEOMETRIC_MAX = 3 / 4 * (888889 / 1000000).
Proof. fold_value. Qed.
Example C61_witness_BWBWingFoldVolumeStrut : out (BWBWingFoldVolumeStrut unit_options) (fun n => if String.eqb n v_strut_y then 3 else if String.eqb n Aircraft_Wing_SPAN then 11 else 1) Aircraft_Fuel_WING_VOLUME_GEOMETRIC_MAX = 1 / 2.
Proof. red_comp; field. Qed.
Example C61_witness_BWBWingFoldVolumeChosen : out (BWBWingFoldVolumeChosen unit_options) (fun n => if String.eqb n Aircraft_Wing_FOLDED_SPAN then 6 else if String.eqb n Aircraft_Wing_SPAN then 11 else 1) Aircraft_Fuel_WING_VOLUME_GEOMETRIC_MAX = 1 / 2.
Proof. red_comp; field. Qed.
