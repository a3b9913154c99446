(** Properties of GASP geometry: claim C61. *)
From Coq Require Import Reals Lra Lia.
From Coquelicot Require Import Coquelicot.
From Verif Require Import Base Calc MathModel MathProofs Comp CompMore CompFun GGeomModel GGeomProofs.
Local Open Scope R_scope.

Theorem C61_CableSize op : exact_partials (CableSize op) (positive [Aircraft_Engine_WING_LOCATIONS; Aircraft_Wing_SPAN; Aircraft_Fuselage_AVG_DIAMETER]).
Proof. exact_start; more_goals. Qed.
Print Assumptions C61_CableSize.
Example C61_witness_CableSize : out (CableSize unit_options) (fun _ => 1) Aircraft_Electrical_HYBRID_CABLE_LENGTH = 3.
Proof. unit_value. Qed.

Theorem C61_TailVolCoefH op : exact_partials (TailVolCoefH op) (positive [Aircraft_HorizontalTail_VERTICAL_TAIL_MOUNT_LOCATION; Aircraft_Fuselage_LENGTH; Aircraft_Fuselage_AVG_DIAMETER; Aircraft_Wing_AREA; Aircraft_Wing_AVERAGE_CHORD]).
Proof. exact_start; more_goals. Qed.
Print Assumptions C61_TailVolCoefH.
Example C61_witness_TailVolCoefH : out (TailVolCoefH unit_options) (fun _ => 1) Aircraft_HorizontalTail_VOLUME_COEFFICIENT = 9 / 10.
Proof. unit_value. Qed.

Theorem C61_TailVolCoefV op : exact_partials (TailVolCoefV op) (positive [Aircraft_HorizontalTail_VERTICAL_TAIL_MOUNT_LOCATION; Aircraft_Fuselage_LENGTH; Aircraft_Fuselage_AVG_DIAMETER; Aircraft_Wing_AREA; Aircraft_Wing_SPAN]).
Proof. exact_start; more_goals. Qed.
Print Assumptions C61_TailVolCoefV.
Example C61_witness_TailVolCoefV : out (TailVolCoefV unit_options) (fun _ => 1) Aircraft_VerticalTail_VOLUME_COEFFICIENT = 1813 / 5000.
Proof. unit_value. Qed.

Theorem C61_TailSizeH op : exact_partials (TailSizeH op) (positive [Aircraft_HorizontalTail_VOLUME_COEFFICIENT; Aircraft_Wing_AREA; Aircraft_HorizontalTail_MOMENT_RATIO; Aircraft_Wing_AVERAGE_CHORD; Aircraft_HorizontalTail_ASPECT_RATIO; Aircraft_HorizontalTail_TAPER_RATIO]).
Proof. exact_start; more_goals. Qed.
Print Assumptions C61_TailSizeH.
Example C61_witness_TailSizeH_HorizontalTail_AREA : out (TailSizeH unit_options) (fun _ => 1) Aircraft_HorizontalTail_AREA = 1.
Proof. unit_value. Qed.
Example C61_witness_TailSizeH_HorizontalTail_MOMENT_ARM : out (TailSizeH unit_options) (fun _ => 1) Aircraft_HorizontalTail_MOMENT_ARM = 1.
Proof. unit_value. Qed.
Example C61_witness_TailSizeH_SPAN : out (TailSizeH unit_options) (fun _ => 1) Aircraft_HorizontalTail_SPAN = 1.
Proof. root_value. Qed.
Example C61_witness_TailSizeH_ROOT_CHORD : out (TailSizeH unit_options) (fun _ => 1) Aircraft_HorizontalTail_ROOT_CHORD = 1.
Proof. root_value. Qed.
Example C61_witness_TailSizeH_AVERAGE_CHORD : out (TailSizeH unit_options) (fun _ => 1) Aircraft_HorizontalTail_AVERAGE_CHORD = 1.
Proof. root_value. Qed.

Theorem C61_TailSizeV op : exact_partials (TailSizeV op) (positive [Aircraft_VerticalTail_VOLUME_COEFFICIENT; Aircraft_Wing_AREA; Aircraft_VerticalTail_MOMENT_RATIO; Aircraft_Wing_SPAN; Aircraft_VerticalTail_ASPECT_RATIO; Aircraft_VerticalTail_TAPER_RATIO]).
Proof. exact_start; more_goals. Qed.
Print Assumptions C61_TailSizeV.
Example C61_witness_TailSizeV_VerticalTail_AREA : out (TailSizeV unit_options) (fun _ => 1) Aircraft_VerticalTail_AREA = 1.
Proof. unit_value. Qed.
Example C61_witness_TailSizeV_VerticalTail_MOMENT_ARM : out (TailSizeV unit_options) (fun _ => 1) Aircraft_VerticalTail_MOMENT_ARM = 1.
Proof. unit_value. Qed.
Example C61_witness_TailSizeV_SPAN : out (TailSizeV unit_options) (fun _ => 1) Aircraft_VerticalTail_SPAN = 1.
Proof. root_value. Qed.
Example C61_witness_TailSizeV_ROOT_CHORD : out (TailSizeV unit_options) (fun _ => 1) Aircraft_VerticalTail_ROOT_CHORD = 1.
Proof. root_value. Qed.
Example C61_witness_TailSizeV_AVERAGE_CHORD : out (TailSizeV unit_options) (fun _ => 1) Aircraft_VerticalTail_AVERAGE_CHORD = 1.
Proof. root_value. Qed.

Theorem C61_GASPEngineLength op : exact_partials (GASPEngineLength op) (positive [Aircraft_Design_GROSS_MASS; Aircraft_Nacelle_CORE_DIAMETER_RATIO; Aircraft_Nacelle_FINENESS; v_percent_exposed; Aircraft_Nacelle_AVG_DIAMETER]).
Proof. exact_start; more_goals. Qed.
Print Assumptions C61_GASPEngineLength.
Example C61_witness_GASPEngineLength : out (GASPEngineLength unit_options) (fun _ => 1) Aircraft_Nacelle_AVG_LENGTH = 1.
Proof. unit_value. Qed.

Theorem C61_GASPEngineSurfaceArea op : exact_partials (GASPEngineSurfaceArea op) (positive [v_percent_exposed; Aircraft_Nacelle_AVG_DIAMETER; Aircraft_Nacelle_AVG_LENGTH]).
Proof. exact_start; more_goals. Qed.
Print Assumptions C61_GASPEngineSurfaceArea.
Example C61_witness_GASPEngineSurfaceArea : out (GASPEngineSurfaceArea unit_options) (fun _ => 1) Aircraft_Nacelle_SURFACE_AREA = PI.
Proof. red_comp; cbv [on ob oe unit_options]; ring. Qed.

Theorem C61_FuselageParameters op : exact_partials (FuselageParameters op) (positive [Aircraft_Fuselage_DELTA_DIAMETER; Aircraft_Fuselage_AISLE_WIDTH; Aircraft_Fuselage_SEAT_WIDTH_ECONOMY]).
Proof. exact_start; more_goals. Qed.
Print Assumptions C61_FuselageParameters.
Example C61_witness_FuselageParameters_Fuselage_AVG_DIAMETER : out (FuselageParameters unit_options) (fun _ => 1) Aircraft_Fuselage_AVG_DIAMETER = 14.
Proof. unit_value. Qed.

Theorem C61_FuselageSize op : exact_partials (FuselageSize op) (positive [Aircraft_Fuselage_NOSE_FINENESS; v_nose_height; Aircraft_Fuselage_PILOT_COMPARTMENT_LENGTH; v_cabin_len; Aircraft_Fuselage_TAIL_FINENESS; v_cabin_height; Aircraft_Fuselage_WETTED_AREA_SCALER]).
Proof. exact_start; more_goals. Qed.
Print Assumptions C61_FuselageSize.
Example C61_witness_FuselageSize_Fuselage_LENGTH : out (FuselageSize unit_options) (fun _ => 1) Aircraft_Fuselage_LENGTH = 4.
Proof. unit_value. Qed.
Example C61_witness_FuselageSize_Fuselage_WETTED_AREA : out (FuselageSize unit_options) (fun _ => 1) Aircraft_Fuselage_WETTED_AREA = 256 / 25.
Proof. unit_value. Qed.
Example C61_witness_FuselageSize_TailBoom_LENGTH : out (FuselageSize unit_options) (fun _ => 1) Aircraft_TailBoom_LENGTH = 4.
Proof. unit_value. Qed.
Example C61_witness_FuselageSize_Fuselage_CABIN_AREA : out (FuselageSize unit_options) (fun _ => 1) Aircraft_Fuselage_CABIN_AREA = 2.
Proof. unit_value. Qed.

Theorem C61_StrutCalcsDim op : exact_partials (StrutCalcsDim op) (positive [Aircraft_Wing_SPAN; Aircraft_Strut_ATTACHMENT_LOCATION]).
Proof. exact_start; more_goals. Qed.
Print Assumptions C61_StrutCalcsDim.
Example C61_witness_StrutCalcsDim : out (StrutCalcsDim unit_options) (fun _ => 1) Aircraft_Strut_ATTACHMENT_LOCATION_DIMENSIONLESS = 0.
Proof. unit_value. Qed.

Theorem C61_StrutCalcsNonDim op : exact_partials (StrutCalcsNonDim op) (positive [Aircraft_Wing_SPAN; Aircraft_Strut_ATTACHMENT_LOCATION_DIMENSIONLESS]).
Proof. exact_start; more_goals. Qed.
Print Assumptions C61_StrutCalcsNonDim.
Example C61_witness_StrutCalcsNonDim : out (StrutCalcsNonDim unit_options) (fun _ => 1) Aircraft_Strut_ATTACHMENT_LOCATION = 0.
Proof. unit_value. Qed.

Theorem C61_FoldCalcsDim op : exact_partials (FoldCalcsDim op) (positive [Aircraft_Wing_SPAN; Aircraft_Wing_FOLDED_SPAN]).
Proof. exact_start; more_goals. Qed.
Print Assumptions C61_FoldCalcsDim.
Example C61_witness_FoldCalcsDim : out (FoldCalcsDim unit_options) (fun _ => 1) Aircraft_Wing_FOLDED_SPAN_DIMENSIONLESS = 1.
Proof. unit_value. Qed.

Theorem C61_FoldCalcsNonDim op : exact_partials (FoldCalcsNonDim op) (positive [Aircraft_Wing_SPAN; Aircraft_Wing_FOLDED_SPAN_DIMENSIONLESS]).
Proof. exact_start; more_goals. Qed.
Print Assumptions C61_FoldCalcsNonDim.
Example C61_witness_FoldCalcsNonDim : out (FoldCalcsNonDim unit_options) (fun _ => 1) Aircraft_Wing_FOLDED_SPAN = 1.
Proof. unit_value. Qed.

Theorem C61_WingSize op : exact_partials (WingSize op) (positive [Aircraft_Design_GROSS_MASS; Aircraft_Design_WING_LOADING; Aircraft_Wing_ASPECT_RATIO]).
Proof. exact_start; more_goals. Qed.
Print Assumptions C61_WingSize.
Example C61_witness_WingSize_Wing_AREA : out (WingSize unit_options) (fun _ => 1) Aircraft_Wing_AREA = 1.
Proof. unit_value. Qed.
Example C61_witness_WingSize_Wing_SPAN : out (WingSize unit_options) (fun _ => 1) Aircraft_Wing_SPAN = 1.
Proof. unit_value. Qed.

Theorem C61_WingFoldAreaStrut op : exact_partials (WingFoldAreaStrut op) (positive [v_strut_y; Aircraft_Wing_AREA; Aircraft_Wing_SPAN; Aircraft_Wing_TAPER_RATIO]).
Proof. exact_start; more_goals. Qed.
Print Assumptions C61_WingFoldAreaStrut.
Example C61_witness_WingFoldAreaStrut : out (WingFoldAreaStrut unit_options) (fun _ => 1) Aircraft_Wing_FOLDING_AREA = -1.
Proof. unit_value. Qed.

Theorem C61_WingFoldAreaChosen op : exact_partials (WingFoldAreaChosen op) (positive [Aircraft_Wing_FOLDED_SPAN; Aircraft_Wing_AREA; Aircraft_Wing_SPAN; Aircraft_Wing_TAPER_RATIO]).
Proof. exact_start; more_goals. Qed.
Print Assumptions C61_WingFoldAreaChosen.
Example C61_witness_WingFoldAreaChosen : out (WingFoldAreaChosen unit_options) (fun _ => 1) Aircraft_Wing_FOLDING_AREA = 0.
Proof. unit_value. Qed.

