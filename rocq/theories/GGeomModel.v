(** GASP geometry: /repo/aviary/subsystems/geometry/gasp_based.

    One engine type.  A local variable that is bound on one branch of an if only has the value 0 on the other branch,
        where
    Python raises UnboundLocalError when it is read; theorems exclude these runs.  BWBCabinLayout is left out.

    Generated by tools/py2coq.py from the source text; see the header of that file for the rules.  Decimal
    literals are exact and numbers are real numbers. *)
From Coq Require Import Reals.
From Verif Require Import Base Comp MathModel CompMore CompFun.
Open Scope list_scope.
Open Scope string_scope.
Local Open Scope R_scope.

(** ** Variable names, /repo/aviary/variable_info/variables.py *)
Definition Aircraft_BWB_PASSENGER_LEADING_EDGE_SWEEP :=
    "aircraft:blended_wing_body_design:passenger_leading_edge_sweep".
Definition Aircraft_CrewPayload_Design_NUM_PASSENGERS := "aircraft:crew_and_payload:design:num_passengers".
Definition Aircraft_CrewPayload_Design_NUM_SEATS_ABREAST_ECONOMY :=
    "aircraft:crew_and_payload:design:num_seats_abreast_economy".
Definition Aircraft_CrewPayload_Design_SEAT_PITCH_ECONOMY := "aircraft:crew_and_payload:design:seat_pitch_economy".
Definition Aircraft_Design_GROSS_MASS := "aircraft:design:gross_mass".
Definition Aircraft_Design_SMOOTH_MASS_DISCONTINUITIES := "aircraft:design:smooth_mass_discontinuities".
Definition Aircraft_Design_TYPE := "aircraft:design:type".
Definition Aircraft_Design_WING_LOADING := "aircraft:design:wing_loading".
Definition Aircraft_Electrical_HYBRID_CABLE_LENGTH := "aircraft:electrical:hybrid_cable_length".
Definition Aircraft_Engine_INLET_AREA_COEFFICIENT := "aircraft:engine:inlet_area_coefficient".
Definition Aircraft_Engine_NUM_ENGINES := "aircraft:engine:num_engines".
Definition Aircraft_Engine_WING_LOCATIONS := "aircraft:engine:wing_locations".
Definition Aircraft_Fuel_WING_FUEL_FRACTION := "aircraft:fuel:wing_fuel_fraction".
Definition Aircraft_Fuel_WING_VOLUME_GEOMETRIC_MAX := "aircraft:fuel:wing_volume_geometric_max".
Definition Aircraft_Fuselage_AISLE_WIDTH := "aircraft:fuselage:aisle_width".
Definition Aircraft_Fuselage_AVG_DIAMETER := "aircraft:fuselage:avg_diameter".
Definition Aircraft_Fuselage_CABIN_AREA := "aircraft:fuselage:cabin_area".
Definition Aircraft_Fuselage_DELTA_DIAMETER := "aircraft:fuselage:delta_diameter".
Definition Aircraft_Fuselage_HEIGHT_TO_WIDTH_RATIO := "aircraft:fuselage:height_to_width_ratio".
Definition Aircraft_Fuselage_HYDRAULIC_DIAMETER := "aircraft:fuselage:hydraulic_diameter".
Definition Aircraft_Fuselage_LENGTH := "aircraft:fuselage:length".
Definition Aircraft_Fuselage_NOSE_FINENESS := "aircraft:fuselage:nose_fineness".
Definition Aircraft_Fuselage_NUM_AISLES := "aircraft:fuselage:num_aisles".
Definition Aircraft_Fuselage_PILOT_COMPARTMENT_LENGTH := "aircraft:fuselage:pilot_compartment_length".
Definition Aircraft_Fuselage_PLANFORM_AREA := "aircraft:fuselage:planform_area".
Definition Aircraft_Fuselage_PRESSURIZED_WIDTH_ADDITIONAL := "aircraft:fuselage:pressurized_width_additional".
Definition Aircraft_Fuselage_SEAT_WIDTH_ECONOMY := "aircraft:fuselage:seat_width_economy".
Definition Aircraft_Fuselage_TAIL_FINENESS := "aircraft:fuselage:tail_fineness".
Definition Aircraft_Fuselage_WETTED_AREA := "aircraft:fuselage:wetted_area".
Definition Aircraft_Fuselage_WETTED_AREA_SCALER := "aircraft:fuselage:wetted_area_scaler".
Definition Aircraft_HorizontalTail_AREA := "aircraft:horizontal_tail:area".
Definition Aircraft_HorizontalTail_ASPECT_RATIO := "aircraft:horizontal_tail:aspect_ratio".
Definition Aircraft_HorizontalTail_AVERAGE_CHORD := "aircraft:horizontal_tail:average_chord".
Definition Aircraft_HorizontalTail_MOMENT_ARM := "aircraft:horizontal_tail:moment_arm".
Definition Aircraft_HorizontalTail_MOMENT_RATIO := "aircraft:horizontal_tail:moment_ratio".
Definition Aircraft_HorizontalTail_ROOT_CHORD := "aircraft:horizontal_tail:root_chord".
Definition Aircraft_HorizontalTail_SPAN := "aircraft:horizontal_tail:span".
Definition Aircraft_HorizontalTail_TAPER_RATIO := "aircraft:horizontal_tail:taper_ratio".
Definition Aircraft_HorizontalTail_VERTICAL_TAIL_MOUNT_LOCATION :=
    "aircraft:horizontal_tail:vertical_tail_mount_location".
Definition Aircraft_HorizontalTail_VOLUME_COEFFICIENT := "aircraft:horizontal_tail:volume_coefficient".
Definition Aircraft_LandingGear_MAIN_GEAR_LOCATION := "aircraft:landing_gear:main_gear_location".
Definition Aircraft_Nacelle_AVG_DIAMETER := "aircraft:nacelle:avg_diameter".
Definition Aircraft_Nacelle_AVG_LENGTH := "aircraft:nacelle:avg_length".
Definition Aircraft_Nacelle_CORE_DIAMETER_RATIO := "aircraft:nacelle:core_diameter_ratio".
Definition Aircraft_Nacelle_FINENESS := "aircraft:nacelle:fineness".
Definition Aircraft_Nacelle_PERCENT_DIAM_BURIED_IN_FUSELAGE := "aircraft:nacelle:percent_diam_buried_in_fuselage".
Definition Aircraft_Nacelle_SURFACE_AREA := "aircraft:nacelle:surface_area".
Definition Aircraft_Propulsion_TOTAL_NUM_WING_ENGINES := "aircraft:propulsion:total_num_wing_engines".
Definition Aircraft_Strut_AREA := "aircraft:strut:area".
Definition Aircraft_Strut_AREA_RATIO := "aircraft:strut:area_ratio".
Definition Aircraft_Strut_ATTACHMENT_LOCATION := "aircraft:strut:attachment_location".
Definition Aircraft_Strut_ATTACHMENT_LOCATION_DIMENSIONLESS := "aircraft:strut:attachment_location_dimensionless".
Definition Aircraft_Strut_CHORD := "aircraft:strut:chord".
Definition Aircraft_Strut_DIMENSIONAL_LOCATION_SPECIFIED := "aircraft:strut:dimensional_location_specified".
Definition Aircraft_Strut_LENGTH := "aircraft:strut:length".
Definition Aircraft_TailBoom_LENGTH := "aircraft:tail_boom:length".
Definition Aircraft_VerticalTail_AREA := "aircraft:vertical_tail:area".
Definition Aircraft_VerticalTail_ASPECT_RATIO := "aircraft:vertical_tail:aspect_ratio".
Definition Aircraft_VerticalTail_AVERAGE_CHORD := "aircraft:vertical_tail:average_chord".
Definition Aircraft_VerticalTail_MOMENT_ARM := "aircraft:vertical_tail:moment_arm".
Definition Aircraft_VerticalTail_MOMENT_RATIO := "aircraft:vertical_tail:moment_ratio".
Definition Aircraft_VerticalTail_ROOT_CHORD := "aircraft:vertical_tail:root_chord".
Definition Aircraft_VerticalTail_SPAN := "aircraft:vertical_tail:span".
Definition Aircraft_VerticalTail_TAPER_RATIO := "aircraft:vertical_tail:taper_ratio".
Definition Aircraft_VerticalTail_VOLUME_COEFFICIENT := "aircraft:vertical_tail:volume_coefficient".
Definition Aircraft_Wing_AREA := "aircraft:wing:area".
Definition Aircraft_Wing_ASPECT_RATIO := "aircraft:wing:aspect_ratio".
Definition Aircraft_Wing_AVERAGE_CHORD := "aircraft:wing:average_chord".
Definition Aircraft_Wing_CENTER_CHORD := "aircraft:wing:center_chord".
Definition Aircraft_Wing_CHOOSE_FOLD_LOCATION := "aircraft:wing:choose_fold_location".
Definition Aircraft_Wing_EXPOSED_AREA := "aircraft:wing:exposed_area".
Definition Aircraft_Wing_FOLDED_SPAN := "aircraft:wing:folded_span".
Definition Aircraft_Wing_FOLDED_SPAN_DIMENSIONLESS := "aircraft:wing:folded_span_dimensionless".
Definition Aircraft_Wing_FOLDING_AREA := "aircraft:wing:folding_area".
Definition Aircraft_Wing_FOLD_DIMENSIONAL_LOCATION_SPECIFIED := "aircraft:wing:fold_dimensional_location_specified".
Definition Aircraft_Wing_HAS_FOLD := "aircraft:wing:has_fold".
Definition Aircraft_Wing_HAS_STRUT := "aircraft:wing:has_strut".
Definition Aircraft_Wing_LEADING_EDGE_SWEEP := "aircraft:wing:leading_edge_sweep".
Definition Aircraft_Wing_ROOT_CHORD := "aircraft:wing:root_chord".
Definition Aircraft_Wing_SPAN := "aircraft:wing:span".
Definition Aircraft_Wing_SWEEP := "aircraft:wing:sweep".
Definition Aircraft_Wing_TAPER_RATIO := "aircraft:wing:taper_ratio".
Definition Aircraft_Wing_THICKNESS_TO_CHORD_ROOT := "aircraft:wing:thickness_to_chord_root".
Definition Aircraft_Wing_THICKNESS_TO_CHORD_TIP := "aircraft:wing:thickness_to_chord_tip".
Definition Aircraft_Wing_THICKNESS_TO_CHORD_UNWEIGHTED := "aircraft:wing:thickness_to_chord_unweighted".
Definition Aircraft_Wing_VERTICAL_MOUNT_LOCATION := "aircraft:wing:vertical_mount_location".
Definition Settings_VERBOSITY := "settings:verbosity".
Definition v_aftbody_len := "aftbody_len".
Definition v_cabin_height := "cabin_height".
Definition v_cabin_len := "cabin_len".
Definition v_forebody_len := "forebody_len".
Definition v_fuselage_station_aft := "fuselage_station_aft".
Definition v_mu := "mu".
Definition v_nonfolded_AR := "nonfolded_AR".
Definition v_nonfolded_taper_ratio := "nonfolded_taper_ratio".
Definition v_nonfolded_wing_area := "nonfolded_wing_area".
Definition v_nose_area := "nose_area".
Definition v_nose_height := "nose_height".
Definition v_nose_length := "nose_length".
Definition v_orientation := "orientation".
Definition v_percent_exposed := "percent_exposed".
Definition v_strut_y := "strut_y".
Definition v_tc_ratio_mean_folded := "tc_ratio_mean_folded".
Definition v_wing_volume_no_fold := "wing_volume_no_fold".


(** CableSize.compute, /repo/aviary/subsystems/geometry/gasp_based/electric.py L40-47 (one engine type or one node) *)
Definition CableSize_compute (op : options) (e : env) : list (string * R) :=
  let eng_span_frac := e Aircraft_Engine_WING_LOCATIONS in  (* L41 *)
  let wingspan := e Aircraft_Wing_SPAN in  (* L42 *)
  let cabin_width := e Aircraft_Fuselage_AVG_DIAMETER in  (* L43 *)
  let o_Electrical_HYBRID_CABLE_LENGTH := eng_span_frac * wingspan + 2 * cabin_width in  (* L45 *)
  [(Aircraft_Electrical_HYBRID_CABLE_LENGTH, o_Electrical_HYBRID_CABLE_LENGTH)].

(** CableSize.compute_partials, /repo/aviary/subsystems/geometry/gasp_based/electric.py L49-57 *)
Definition CableSize_partials (op : options) (e : env) : list (string * string * R) :=
  let eng_span_frac := e Aircraft_Engine_WING_LOCATIONS in  (* L50 *)
  let wingspan := e Aircraft_Wing_SPAN in  (* L51 *)
  let d_Electrical_HYBRID_CABLE_LENGTH__Engine_WING_LOCATIONS := wingspan in  (* L53 *)
  let d_Electrical_HYBRID_CABLE_LENGTH__Wing_SPAN := eng_span_frac in  (* L57 *)
  [(Aircraft_Electrical_HYBRID_CABLE_LENGTH, Aircraft_Engine_WING_LOCATIONS,
      d_Electrical_HYBRID_CABLE_LENGTH__Engine_WING_LOCATIONS);
   (Aircraft_Electrical_HYBRID_CABLE_LENGTH, Aircraft_Wing_SPAN, d_Electrical_HYBRID_CABLE_LENGTH__Wing_SPAN)].

(** Inputs, outputs and declared partials: /repo/aviary/subsystems/geometry/gasp_based/electric.py L14-38 *)
Definition CableSize (op : options) : comp := {|
  c_ins := [Aircraft_Engine_WING_LOCATIONS;
            Aircraft_Wing_SPAN;
            Aircraft_Fuselage_AVG_DIAMETER];
  c_outs := [Aircraft_Electrical_HYBRID_CABLE_LENGTH];
  c_decl := [(Aircraft_Electrical_HYBRID_CABLE_LENGTH, Aircraft_Engine_WING_LOCATIONS, 0);
             (Aircraft_Electrical_HYBRID_CABLE_LENGTH, Aircraft_Wing_SPAN, 0);
             (Aircraft_Electrical_HYBRID_CABLE_LENGTH, Aircraft_Fuselage_AVG_DIAMETER, 2)];
  c_run := CableSize_compute op; c_jac := CableSize_partials op |}.

(** TailVolCoef.compute, /repo/aviary/subsystems/geometry/gasp_based/empennage.py L61-65 (one engine type or one node) *)
Definition TailVolCoefH_compute (op : options) (e : env) : list (string * R) :=
  let htail_loc := e Aircraft_HorizontalTail_VERTICAL_TAIL_MOUNT_LOCATION in  (* L62 *)
  let fus_len := e Aircraft_Fuselage_LENGTH in  (* L62 *)
  let cab_w := e Aircraft_Fuselage_AVG_DIAMETER in  (* L62 *)
  let wing_area := e Aircraft_Wing_AREA in  (* L62 *)
  let wing_ref := e Aircraft_Wing_AVERAGE_CHORD in  (* L62 *)
  let k1 := 43 / 100 in  (* L63 *)
  let k2 := 38 / 100 in  (* L63 *)
  let k3 := 85 / 100 in  (* L63 *)
  let ch1 := k1 - k2 * htail_loc in  (* L64 *)
  let o_HorizontalTail_VOLUME_COEFFICIENT := k3 * fus_len * cab_w ^ 2 / (wing_area * wing_ref) + ch1 in  (* L65 *)
  [(Aircraft_HorizontalTail_VOLUME_COEFFICIENT, o_HorizontalTail_VOLUME_COEFFICIENT)].

(** TailVolCoef.compute_partials, /repo/aviary/subsystems/geometry/gasp_based/empennage.py L67-79 *)
Definition TailVolCoefH_partials (op : options) (e : env) : list (string * string * R) :=
  let htail_loc := e Aircraft_HorizontalTail_VERTICAL_TAIL_MOUNT_LOCATION in  (* L71 *)
  let fus_len := e Aircraft_Fuselage_LENGTH in  (* L71 *)
  let cab_w := e Aircraft_Fuselage_AVG_DIAMETER in  (* L71 *)
  let wing_area := e Aircraft_Wing_AREA in  (* L71 *)
  let wing_ref := e Aircraft_Wing_AVERAGE_CHORD in  (* L71 *)
  let k1 := 43 / 100 in  (* L72 *)
  let k2 := 38 / 100 in  (* L72 *)
  let k3 := 85 / 100 in  (* L72 *)
  let d_HorizontalTail_VOLUME_COEFFICIENT__HorizontalTail_VERTICAL_TAIL_MOUNT_LOCATION := - k2 in  (* L73 *)
  let d_HorizontalTail_VOLUME_COEFFICIENT__Fuselage_LENGTH := k3 * cab_w ^ 2 / (wing_area * wing_ref) in  (* L74 *)
  let d_HorizontalTail_VOLUME_COEFFICIENT__Fuselage_AVG_DIAMETER := 2 * k3 * fus_len * cab_w / (wing_area * wing_ref)
      in  (* L75 *)
  let d_HorizontalTail_VOLUME_COEFFICIENT__Wing_AREA := - k3 * fus_len * cab_w ^ 2 / (wing_area ^ 2 * wing_ref) in  (* L78 *)
  let d_HorizontalTail_VOLUME_COEFFICIENT__Wing_AVERAGE_CHORD := - k3 * fus_len * cab_w ^ 2 / (wing_area * wing_ref ^
      2) in  (* L79 *)
  [(Aircraft_HorizontalTail_VOLUME_COEFFICIENT, Aircraft_HorizontalTail_VERTICAL_TAIL_MOUNT_LOCATION,
      d_HorizontalTail_VOLUME_COEFFICIENT__HorizontalTail_VERTICAL_TAIL_MOUNT_LOCATION);
   (Aircraft_HorizontalTail_VOLUME_COEFFICIENT, Aircraft_Fuselage_LENGTH,
       d_HorizontalTail_VOLUME_COEFFICIENT__Fuselage_LENGTH);
   (Aircraft_HorizontalTail_VOLUME_COEFFICIENT, Aircraft_Fuselage_AVG_DIAMETER,
       d_HorizontalTail_VOLUME_COEFFICIENT__Fuselage_AVG_DIAMETER);
   (Aircraft_HorizontalTail_VOLUME_COEFFICIENT, Aircraft_Wing_AREA, d_HorizontalTail_VOLUME_COEFFICIENT__Wing_AREA);
   (Aircraft_HorizontalTail_VOLUME_COEFFICIENT, Aircraft_Wing_AVERAGE_CHORD,
       d_HorizontalTail_VOLUME_COEFFICIENT__Wing_AVERAGE_CHORD)].

(** Inputs, outputs and declared partials: /repo/aviary/subsystems/geometry/gasp_based/empennage.py L25-59 *)
Definition TailVolCoefH (op : options) : comp := {|
  c_ins := [Aircraft_HorizontalTail_VERTICAL_TAIL_MOUNT_LOCATION;
            Aircraft_Fuselage_LENGTH;
            Aircraft_Fuselage_AVG_DIAMETER;
            Aircraft_Wing_AREA;
            Aircraft_Wing_AVERAGE_CHORD];
  c_outs := [Aircraft_HorizontalTail_VOLUME_COEFFICIENT];
  c_decl := [(Aircraft_HorizontalTail_VOLUME_COEFFICIENT, Aircraft_HorizontalTail_VERTICAL_TAIL_MOUNT_LOCATION, 0);
             (Aircraft_HorizontalTail_VOLUME_COEFFICIENT, Aircraft_Fuselage_LENGTH, 0);
             (Aircraft_HorizontalTail_VOLUME_COEFFICIENT, Aircraft_Fuselage_AVG_DIAMETER, 0);
             (Aircraft_HorizontalTail_VOLUME_COEFFICIENT, Aircraft_Wing_AREA, 0);
             (Aircraft_HorizontalTail_VOLUME_COEFFICIENT, Aircraft_Wing_AVERAGE_CHORD, 0)];
  c_run := TailVolCoefH_compute op; c_jac := TailVolCoefH_partials op |}.

(** TailVolCoef.compute, /repo/aviary/subsystems/geometry/gasp_based/empennage.py L61-65 (one engine type or one node) *)
Definition TailVolCoefV_compute (op : options) (e : env) : list (string * R) :=
  let htail_loc := e Aircraft_HorizontalTail_VERTICAL_TAIL_MOUNT_LOCATION in  (* L62 *)
  let fus_len := e Aircraft_Fuselage_LENGTH in  (* L62 *)
  let cab_w := e Aircraft_Fuselage_AVG_DIAMETER in  (* L62 *)
  let wing_area := e Aircraft_Wing_AREA in  (* L62 *)
  let wing_ref := e Aircraft_Wing_SPAN in  (* L62 *)
  let k1 := 7 / 100 in  (* L63 *)
  let k2 := 434 / 10000 in  (* L63 *)
  let k3 := 336 / 1000 in  (* L63 *)
  let ch1 := k1 - k2 * htail_loc in  (* L64 *)
  let o_VerticalTail_VOLUME_COEFFICIENT := k3 * fus_len * cab_w ^ 2 / (wing_area * wing_ref) + ch1 in  (* L65 *)
  [(Aircraft_VerticalTail_VOLUME_COEFFICIENT, o_VerticalTail_VOLUME_COEFFICIENT)].

(** TailVolCoef.compute_partials, /repo/aviary/subsystems/geometry/gasp_based/empennage.py L67-79 *)
Definition TailVolCoefV_partials (op : options) (e : env) : list (string * string * R) :=
  let htail_loc := e Aircraft_HorizontalTail_VERTICAL_TAIL_MOUNT_LOCATION in  (* L71 *)
  let fus_len := e Aircraft_Fuselage_LENGTH in  (* L71 *)
  let cab_w := e Aircraft_Fuselage_AVG_DIAMETER in  (* L71 *)
  let wing_area := e Aircraft_Wing_AREA in  (* L71 *)
  let wing_ref := e Aircraft_Wing_SPAN in  (* L71 *)
  let k1 := 7 / 100 in  (* L72 *)
  let k2 := 434 / 10000 in  (* L72 *)
  let k3 := 336 / 1000 in  (* L72 *)
  let d_VerticalTail_VOLUME_COEFFICIENT__HorizontalTail_VERTICAL_TAIL_MOUNT_LOCATION := - k2 in  (* L73 *)
  let d_VerticalTail_VOLUME_COEFFICIENT__Fuselage_LENGTH := k3 * cab_w ^ 2 / (wing_area * wing_ref) in  (* L74 *)
  let d_VerticalTail_VOLUME_COEFFICIENT__Fuselage_AVG_DIAMETER := 2 * k3 * fus_len * cab_w / (wing_area * wing_ref) in  (* L75 *)
  let d_VerticalTail_VOLUME_COEFFICIENT__Wing_AREA := - k3 * fus_len * cab_w ^ 2 / (wing_area ^ 2 * wing_ref) in  (* L78 *)
  let d_VerticalTail_VOLUME_COEFFICIENT__Wing_SPAN := - k3 * fus_len * cab_w ^ 2 / (wing_area * wing_ref ^ 2) in  (* L79 *)
  [(Aircraft_VerticalTail_VOLUME_COEFFICIENT, Aircraft_HorizontalTail_VERTICAL_TAIL_MOUNT_LOCATION,
      d_VerticalTail_VOLUME_COEFFICIENT__HorizontalTail_VERTICAL_TAIL_MOUNT_LOCATION);
   (Aircraft_VerticalTail_VOLUME_COEFFICIENT, Aircraft_Fuselage_LENGTH,
       d_VerticalTail_VOLUME_COEFFICIENT__Fuselage_LENGTH);
   (Aircraft_VerticalTail_VOLUME_COEFFICIENT, Aircraft_Fuselage_AVG_DIAMETER,
       d_VerticalTail_VOLUME_COEFFICIENT__Fuselage_AVG_DIAMETER);
   (Aircraft_VerticalTail_VOLUME_COEFFICIENT, Aircraft_Wing_AREA, d_VerticalTail_VOLUME_COEFFICIENT__Wing_AREA);
   (Aircraft_VerticalTail_VOLUME_COEFFICIENT, Aircraft_Wing_SPAN, d_VerticalTail_VOLUME_COEFFICIENT__Wing_SPAN)].

(** Inputs, outputs and declared partials: /repo/aviary/subsystems/geometry/gasp_based/empennage.py L25-59 *)
Definition TailVolCoefV (op : options) : comp := {|
  c_ins := [Aircraft_HorizontalTail_VERTICAL_TAIL_MOUNT_LOCATION;
            Aircraft_Fuselage_LENGTH;
            Aircraft_Fuselage_AVG_DIAMETER;
            Aircraft_Wing_AREA;
            Aircraft_Wing_SPAN];
  c_outs := [Aircraft_VerticalTail_VOLUME_COEFFICIENT];
  c_decl := [(Aircraft_VerticalTail_VOLUME_COEFFICIENT, Aircraft_HorizontalTail_VERTICAL_TAIL_MOUNT_LOCATION, 0);
             (Aircraft_VerticalTail_VOLUME_COEFFICIENT, Aircraft_Fuselage_LENGTH, 0);
             (Aircraft_VerticalTail_VOLUME_COEFFICIENT, Aircraft_Fuselage_AVG_DIAMETER, 0);
             (Aircraft_VerticalTail_VOLUME_COEFFICIENT, Aircraft_Wing_AREA, 0);
             (Aircraft_VerticalTail_VOLUME_COEFFICIENT, Aircraft_Wing_SPAN, 0)];
  c_run := TailVolCoefV_compute op; c_jac := TailVolCoefV_partials op |}.

(** TailSize.compute, /repo/aviary/subsystems/geometry/gasp_based/empennage.py L172-191 (one engine type or one node) *)
Definition TailSizeH_compute (op : options) (e : env) : list (string * R) :=
  let vol_coef := e Aircraft_HorizontalTail_VOLUME_COEFFICIENT in  (* L179 *)
  let wing_area := e Aircraft_Wing_AREA in  (* L179 *)
  let r_arm := e Aircraft_HorizontalTail_MOMENT_RATIO in  (* L179 *)
  let wing_ref := e Aircraft_Wing_AVERAGE_CHORD in  (* L179 *)
  let ar := e Aircraft_HorizontalTail_ASPECT_RATIO in  (* L179 *)
  let tr := e Aircraft_HorizontalTail_TAPER_RATIO in  (* L179 *)
  let area := vol_coef * wing_area * r_arm in  (* L181 *)
  let span := sqrt (area * ar) in  (* L182 *)
  let rchord := 2 * area / span / (1 + tr) in  (* L183 *)
  let chord := 2 / 3 * rchord * (1 + tr - tr / (1 + tr)) in  (* L184 *)
  let arm := wing_ref / r_arm in  (* L185 *)
  let o_HorizontalTail_AREA := area in  (* L187 *)
  let o_HorizontalTail_SPAN := span in  (* L188 *)
  let o_HorizontalTail_ROOT_CHORD := rchord in  (* L189 *)
  let o_HorizontalTail_AVERAGE_CHORD := chord in  (* L190 *)
  let o_HorizontalTail_MOMENT_ARM := arm in  (* L191 *)
  [(Aircraft_HorizontalTail_AREA, o_HorizontalTail_AREA);
   (Aircraft_HorizontalTail_SPAN, o_HorizontalTail_SPAN);
   (Aircraft_HorizontalTail_ROOT_CHORD, o_HorizontalTail_ROOT_CHORD);
   (Aircraft_HorizontalTail_AVERAGE_CHORD, o_HorizontalTail_AVERAGE_CHORD);
   (Aircraft_HorizontalTail_MOMENT_ARM, o_HorizontalTail_MOMENT_ARM)].

(** TailSize.compute_partials, /repo/aviary/subsystems/geometry/gasp_based/empennage.py L193-232 *)
Definition TailSizeH_partials (op : options) (e : env) : list (string * string * R) :=
  let vol_coef := e Aircraft_HorizontalTail_VOLUME_COEFFICIENT in  (* L205 *)
  let wing_area := e Aircraft_Wing_AREA in  (* L205 *)
  let r_arm := e Aircraft_HorizontalTail_MOMENT_RATIO in  (* L205 *)
  let wing_ref := e Aircraft_Wing_AVERAGE_CHORD in  (* L205 *)
  let ar := e Aircraft_HorizontalTail_ASPECT_RATIO in  (* L205 *)
  let tr := e Aircraft_HorizontalTail_TAPER_RATIO in  (* L205 *)
  let d_HorizontalTail_AREA__HorizontalTail_VOLUME_COEFFICIENT := wing_area * r_arm in  (* L207 *)
  let d_HorizontalTail_AREA__Wing_AREA := vol_coef * r_arm in  (* L208 *)
  let d_HorizontalTail_AREA__HorizontalTail_MOMENT_RATIO := vol_coef * wing_area in  (* L209 *)
  let cse1 := sqrt (vol_coef * wing_area * r_arm * ar) in  (* L211 *)
  let d_HorizontalTail_SPAN__HorizontalTail_VOLUME_COEFFICIENT := cse1 / (2 * vol_coef) in  (* L212 *)
  let d_HorizontalTail_SPAN__Wing_AREA := cse1 / (2 * wing_area) in  (* L213 *)
  let d_HorizontalTail_SPAN__HorizontalTail_MOMENT_RATIO := cse1 / (2 * r_arm) in  (* L214 *)
  let d_HorizontalTail_SPAN__HorizontalTail_ASPECT_RATIO := cse1 / (2 * ar) in  (* L215 *)
  let cse2 := cse1 * (tr + 1) in  (* L217 *)
  let d_HorizontalTail_ROOT_CHORD__HorizontalTail_VOLUME_COEFFICIENT := wing_area * r_arm / cse2 in  (* L218 *)
  let d_HorizontalTail_ROOT_CHORD__Wing_AREA := vol_coef * r_arm / cse2 in  (* L219 *)
  let d_HorizontalTail_ROOT_CHORD__HorizontalTail_MOMENT_RATIO := wing_area * vol_coef / cse2 in  (* L220 *)
  let d_HorizontalTail_ROOT_CHORD__HorizontalTail_ASPECT_RATIO := - vol_coef * wing_area * r_arm / (ar * cse2) in  (* L221 *)
  let d_HorizontalTail_ROOT_CHORD__HorizontalTail_TAPER_RATIO := - 2 * vol_coef * wing_area * r_arm / (cse2 * (tr +
      1)) in  (* L222 *)
  let cse3 := tr - tr / (tr + 1) + 1 in  (* L224 *)
  let d_HorizontalTail_AVERAGE_CHORD__HorizontalTail_VOLUME_COEFFICIENT := 2 / 3 * wing_area * r_arm * cse3 / cse2 in  (* L225 *)
  let d_HorizontalTail_AVERAGE_CHORD__Wing_AREA := 2 / 3 * vol_coef * r_arm * cse3 / cse2 in  (* L226 *)
  let d_HorizontalTail_AVERAGE_CHORD__HorizontalTail_MOMENT_RATIO := 2 / 3 * vol_coef * wing_area * cse3 / cse2 in  (* L227 *)
  let d_HorizontalTail_AVERAGE_CHORD__HorizontalTail_ASPECT_RATIO := - 2 / 3 * vol_coef * wing_area * r_arm * cse3 /
      (ar * cse2) in  (* L228 *)
  let d_HorizontalTail_AVERAGE_CHORD__HorizontalTail_TAPER_RATIO := 4 / 3 * cse1 * (tr - 1) / (ar * (tr + 1) ^ 3) in  (* L229 *)
  let d_HorizontalTail_MOMENT_ARM__HorizontalTail_MOMENT_RATIO := - wing_ref / r_arm ^ 2 in  (* L231 *)
  let d_HorizontalTail_MOMENT_ARM__Wing_AVERAGE_CHORD := 1 / r_arm in  (* L232 *)
  [(Aircraft_HorizontalTail_AREA, Aircraft_HorizontalTail_VOLUME_COEFFICIENT,
      d_HorizontalTail_AREA__HorizontalTail_VOLUME_COEFFICIENT);
   (Aircraft_HorizontalTail_AREA, Aircraft_Wing_AREA, d_HorizontalTail_AREA__Wing_AREA);
   (Aircraft_HorizontalTail_AREA, Aircraft_HorizontalTail_MOMENT_RATIO,
       d_HorizontalTail_AREA__HorizontalTail_MOMENT_RATIO);
   (Aircraft_HorizontalTail_SPAN, Aircraft_HorizontalTail_VOLUME_COEFFICIENT,
       d_HorizontalTail_SPAN__HorizontalTail_VOLUME_COEFFICIENT);
   (Aircraft_HorizontalTail_SPAN, Aircraft_Wing_AREA, d_HorizontalTail_SPAN__Wing_AREA);
   (Aircraft_HorizontalTail_SPAN, Aircraft_HorizontalTail_MOMENT_RATIO,
       d_HorizontalTail_SPAN__HorizontalTail_MOMENT_RATIO);
   (Aircraft_HorizontalTail_SPAN, Aircraft_HorizontalTail_ASPECT_RATIO,
       d_HorizontalTail_SPAN__HorizontalTail_ASPECT_RATIO);
   (Aircraft_HorizontalTail_ROOT_CHORD, Aircraft_HorizontalTail_VOLUME_COEFFICIENT,
       d_HorizontalTail_ROOT_CHORD__HorizontalTail_VOLUME_COEFFICIENT);
   (Aircraft_HorizontalTail_ROOT_CHORD, Aircraft_Wing_AREA, d_HorizontalTail_ROOT_CHORD__Wing_AREA);
   (Aircraft_HorizontalTail_ROOT_CHORD, Aircraft_HorizontalTail_MOMENT_RATIO,
       d_HorizontalTail_ROOT_CHORD__HorizontalTail_MOMENT_RATIO);
   (Aircraft_HorizontalTail_ROOT_CHORD, Aircraft_HorizontalTail_ASPECT_RATIO,
       d_HorizontalTail_ROOT_CHORD__HorizontalTail_ASPECT_RATIO);
   (Aircraft_HorizontalTail_ROOT_CHORD, Aircraft_HorizontalTail_TAPER_RATIO,
       d_HorizontalTail_ROOT_CHORD__HorizontalTail_TAPER_RATIO);
   (Aircraft_HorizontalTail_AVERAGE_CHORD, Aircraft_HorizontalTail_VOLUME_COEFFICIENT,
       d_HorizontalTail_AVERAGE_CHORD__HorizontalTail_VOLUME_COEFFICIENT);
   (Aircraft_HorizontalTail_AVERAGE_CHORD, Aircraft_Wing_AREA, d_HorizontalTail_AVERAGE_CHORD__Wing_AREA);
   (Aircraft_HorizontalTail_AVERAGE_CHORD, Aircraft_HorizontalTail_MOMENT_RATIO,
       d_HorizontalTail_AVERAGE_CHORD__HorizontalTail_MOMENT_RATIO);
   (Aircraft_HorizontalTail_AVERAGE_CHORD, Aircraft_HorizontalTail_ASPECT_RATIO,
       d_HorizontalTail_AVERAGE_CHORD__HorizontalTail_ASPECT_RATIO);
   (Aircraft_HorizontalTail_AVERAGE_CHORD, Aircraft_HorizontalTail_TAPER_RATIO,
       d_HorizontalTail_AVERAGE_CHORD__HorizontalTail_TAPER_RATIO);
   (Aircraft_HorizontalTail_MOMENT_ARM, Aircraft_HorizontalTail_MOMENT_RATIO,
       d_HorizontalTail_MOMENT_ARM__HorizontalTail_MOMENT_RATIO);
   (Aircraft_HorizontalTail_MOMENT_ARM, Aircraft_Wing_AVERAGE_CHORD,
       d_HorizontalTail_MOMENT_ARM__Wing_AVERAGE_CHORD)].

(** Inputs, outputs and declared partials: /repo/aviary/subsystems/geometry/gasp_based/empennage.py L98-170 *)
Definition TailSizeH (op : options) : comp := {|
  c_ins := [Aircraft_HorizontalTail_VOLUME_COEFFICIENT;
            Aircraft_Wing_AREA;
            Aircraft_HorizontalTail_MOMENT_RATIO;
            Aircraft_Wing_AVERAGE_CHORD;
            Aircraft_HorizontalTail_ASPECT_RATIO;
            Aircraft_HorizontalTail_TAPER_RATIO];
  c_outs := [Aircraft_HorizontalTail_AREA;
             Aircraft_HorizontalTail_SPAN;
             Aircraft_HorizontalTail_ROOT_CHORD;
             Aircraft_HorizontalTail_AVERAGE_CHORD;
             Aircraft_HorizontalTail_MOMENT_ARM];
  c_decl := [(Aircraft_HorizontalTail_AREA, Aircraft_HorizontalTail_VOLUME_COEFFICIENT, 0);
             (Aircraft_HorizontalTail_AREA, Aircraft_Wing_AREA, 0);
             (Aircraft_HorizontalTail_AREA, Aircraft_HorizontalTail_MOMENT_RATIO, 0);
             (Aircraft_HorizontalTail_SPAN, Aircraft_HorizontalTail_VOLUME_COEFFICIENT, 0);
             (Aircraft_HorizontalTail_SPAN, Aircraft_Wing_AREA, 0);
             (Aircraft_HorizontalTail_SPAN, Aircraft_HorizontalTail_MOMENT_RATIO, 0);
             (Aircraft_HorizontalTail_SPAN, Aircraft_HorizontalTail_ASPECT_RATIO, 0);
             (Aircraft_HorizontalTail_ROOT_CHORD, Aircraft_HorizontalTail_VOLUME_COEFFICIENT, 0);
             (Aircraft_HorizontalTail_ROOT_CHORD, Aircraft_Wing_AREA, 0);
             (Aircraft_HorizontalTail_ROOT_CHORD, Aircraft_HorizontalTail_MOMENT_RATIO, 0);
             (Aircraft_HorizontalTail_ROOT_CHORD, Aircraft_HorizontalTail_ASPECT_RATIO, 0);
             (Aircraft_HorizontalTail_ROOT_CHORD, Aircraft_HorizontalTail_TAPER_RATIO, 0);
             (Aircraft_HorizontalTail_AVERAGE_CHORD, Aircraft_HorizontalTail_VOLUME_COEFFICIENT, 0);
             (Aircraft_HorizontalTail_AVERAGE_CHORD, Aircraft_Wing_AREA, 0);
             (Aircraft_HorizontalTail_AVERAGE_CHORD, Aircraft_HorizontalTail_MOMENT_RATIO, 0);
             (Aircraft_HorizontalTail_AVERAGE_CHORD, Aircraft_HorizontalTail_ASPECT_RATIO, 0);
             (Aircraft_HorizontalTail_AVERAGE_CHORD, Aircraft_HorizontalTail_TAPER_RATIO, 0);
             (Aircraft_HorizontalTail_MOMENT_ARM, Aircraft_HorizontalTail_MOMENT_RATIO, 0);
             (Aircraft_HorizontalTail_MOMENT_ARM, Aircraft_Wing_AVERAGE_CHORD, 0)];
  c_run := TailSizeH_compute op; c_jac := TailSizeH_partials op |}.

(** TailSize.compute, /repo/aviary/subsystems/geometry/gasp_based/empennage.py L172-191 (one engine type or one node) *)
Definition TailSizeV_compute (op : options) (e : env) : list (string * R) :=
  let vol_coef := e Aircraft_VerticalTail_VOLUME_COEFFICIENT in  (* L179 *)
  let wing_area := e Aircraft_Wing_AREA in  (* L179 *)
  let r_arm := e Aircraft_VerticalTail_MOMENT_RATIO in  (* L179 *)
  let wing_ref := e Aircraft_Wing_SPAN in  (* L179 *)
  let ar := e Aircraft_VerticalTail_ASPECT_RATIO in  (* L179 *)
  let tr := e Aircraft_VerticalTail_TAPER_RATIO in  (* L179 *)
  let area := vol_coef * wing_area * r_arm in  (* L181 *)
  let span := sqrt (area * ar) in  (* L182 *)
  let rchord := 2 * area / span / (1 + tr) in  (* L183 *)
  let chord := 2 / 3 * rchord * (1 + tr - tr / (1 + tr)) in  (* L184 *)
  let arm := wing_ref / r_arm in  (* L185 *)
  let o_VerticalTail_AREA := area in  (* L187 *)
  let o_VerticalTail_SPAN := span in  (* L188 *)
  let o_VerticalTail_ROOT_CHORD := rchord in  (* L189 *)
  let o_VerticalTail_AVERAGE_CHORD := chord in  (* L190 *)
  let o_VerticalTail_MOMENT_ARM := arm in  (* L191 *)
  [(Aircraft_VerticalTail_AREA, o_VerticalTail_AREA);
   (Aircraft_VerticalTail_SPAN, o_VerticalTail_SPAN);
   (Aircraft_VerticalTail_ROOT_CHORD, o_VerticalTail_ROOT_CHORD);
   (Aircraft_VerticalTail_AVERAGE_CHORD, o_VerticalTail_AVERAGE_CHORD);
   (Aircraft_VerticalTail_MOMENT_ARM, o_VerticalTail_MOMENT_ARM)].

(** TailSize.compute_partials, /repo/aviary/subsystems/geometry/gasp_based/empennage.py L193-232 *)
Definition TailSizeV_partials (op : options) (e : env) : list (string * string * R) :=
  let vol_coef := e Aircraft_VerticalTail_VOLUME_COEFFICIENT in  (* L205 *)
  let wing_area := e Aircraft_Wing_AREA in  (* L205 *)
  let r_arm := e Aircraft_VerticalTail_MOMENT_RATIO in  (* L205 *)
  let wing_ref := e Aircraft_Wing_SPAN in  (* L205 *)
  let ar := e Aircraft_VerticalTail_ASPECT_RATIO in  (* L205 *)
  let tr := e Aircraft_VerticalTail_TAPER_RATIO in  (* L205 *)
  let d_VerticalTail_AREA__VerticalTail_VOLUME_COEFFICIENT := wing_area * r_arm in  (* L207 *)
  let d_VerticalTail_AREA__Wing_AREA := vol_coef * r_arm in  (* L208 *)
  let d_VerticalTail_AREA__VerticalTail_MOMENT_RATIO := vol_coef * wing_area in  (* L209 *)
  let cse1 := sqrt (vol_coef * wing_area * r_arm * ar) in  (* L211 *)
  let d_VerticalTail_SPAN__VerticalTail_VOLUME_COEFFICIENT := cse1 / (2 * vol_coef) in  (* L212 *)
  let d_VerticalTail_SPAN__Wing_AREA := cse1 / (2 * wing_area) in  (* L213 *)
  let d_VerticalTail_SPAN__VerticalTail_MOMENT_RATIO := cse1 / (2 * r_arm) in  (* L214 *)
  let d_VerticalTail_SPAN__VerticalTail_ASPECT_RATIO := cse1 / (2 * ar) in  (* L215 *)
  let cse2 := cse1 * (tr + 1) in  (* L217 *)
  let d_VerticalTail_ROOT_CHORD__VerticalTail_VOLUME_COEFFICIENT := wing_area * r_arm / cse2 in  (* L218 *)
  let d_VerticalTail_ROOT_CHORD__Wing_AREA := vol_coef * r_arm / cse2 in  (* L219 *)
  let d_VerticalTail_ROOT_CHORD__VerticalTail_MOMENT_RATIO := wing_area * vol_coef / cse2 in  (* L220 *)
  let d_VerticalTail_ROOT_CHORD__VerticalTail_ASPECT_RATIO := - vol_coef * wing_area * r_arm / (ar * cse2) in  (* L221 *)
  let d_VerticalTail_ROOT_CHORD__VerticalTail_TAPER_RATIO := - 2 * vol_coef * wing_area * r_arm / (cse2 * (tr + 1)) in  (* L222 *)
  let cse3 := tr - tr / (tr + 1) + 1 in  (* L224 *)
  let d_VerticalTail_AVERAGE_CHORD__VerticalTail_VOLUME_COEFFICIENT := 2 / 3 * wing_area * r_arm * cse3 / cse2 in  (* L225 *)
  let d_VerticalTail_AVERAGE_CHORD__Wing_AREA := 2 / 3 * vol_coef * r_arm * cse3 / cse2 in  (* L226 *)
  let d_VerticalTail_AVERAGE_CHORD__VerticalTail_MOMENT_RATIO := 2 / 3 * vol_coef * wing_area * cse3 / cse2 in  (* L227 *)
  let d_VerticalTail_AVERAGE_CHORD__VerticalTail_ASPECT_RATIO := - 2 / 3 * vol_coef * wing_area * r_arm * cse3 / (ar *
      cse2) in  (* L228 *)
  let d_VerticalTail_AVERAGE_CHORD__VerticalTail_TAPER_RATIO := 4 / 3 * cse1 * (tr - 1) / (ar * (tr + 1) ^ 3) in  (* L229 *)
  let d_VerticalTail_MOMENT_ARM__VerticalTail_MOMENT_RATIO := - wing_ref / r_arm ^ 2 in  (* L231 *)
  let d_VerticalTail_MOMENT_ARM__Wing_SPAN := 1 / r_arm in  (* L232 *)
  [(Aircraft_VerticalTail_AREA, Aircraft_VerticalTail_VOLUME_COEFFICIENT,
      d_VerticalTail_AREA__VerticalTail_VOLUME_COEFFICIENT);
   (Aircraft_VerticalTail_AREA, Aircraft_Wing_AREA, d_VerticalTail_AREA__Wing_AREA);
   (Aircraft_VerticalTail_AREA, Aircraft_VerticalTail_MOMENT_RATIO, d_VerticalTail_AREA__VerticalTail_MOMENT_RATIO);
   (Aircraft_VerticalTail_SPAN, Aircraft_VerticalTail_VOLUME_COEFFICIENT,
       d_VerticalTail_SPAN__VerticalTail_VOLUME_COEFFICIENT);
   (Aircraft_VerticalTail_SPAN, Aircraft_Wing_AREA, d_VerticalTail_SPAN__Wing_AREA);
   (Aircraft_VerticalTail_SPAN, Aircraft_VerticalTail_MOMENT_RATIO, d_VerticalTail_SPAN__VerticalTail_MOMENT_RATIO);
   (Aircraft_VerticalTail_SPAN, Aircraft_VerticalTail_ASPECT_RATIO, d_VerticalTail_SPAN__VerticalTail_ASPECT_RATIO);
   (Aircraft_VerticalTail_ROOT_CHORD, Aircraft_VerticalTail_VOLUME_COEFFICIENT,
       d_VerticalTail_ROOT_CHORD__VerticalTail_VOLUME_COEFFICIENT);
   (Aircraft_VerticalTail_ROOT_CHORD, Aircraft_Wing_AREA, d_VerticalTail_ROOT_CHORD__Wing_AREA);
   (Aircraft_VerticalTail_ROOT_CHORD, Aircraft_VerticalTail_MOMENT_RATIO,
       d_VerticalTail_ROOT_CHORD__VerticalTail_MOMENT_RATIO);
   (Aircraft_VerticalTail_ROOT_CHORD, Aircraft_VerticalTail_ASPECT_RATIO,
       d_VerticalTail_ROOT_CHORD__VerticalTail_ASPECT_RATIO);
   (Aircraft_VerticalTail_ROOT_CHORD, Aircraft_VerticalTail_TAPER_RATIO,
       d_VerticalTail_ROOT_CHORD__VerticalTail_TAPER_RATIO);
   (Aircraft_VerticalTail_AVERAGE_CHORD, Aircraft_VerticalTail_VOLUME_COEFFICIENT,
       d_VerticalTail_AVERAGE_CHORD__VerticalTail_VOLUME_COEFFICIENT);
   (Aircraft_VerticalTail_AVERAGE_CHORD, Aircraft_Wing_AREA, d_VerticalTail_AVERAGE_CHORD__Wing_AREA);
   (Aircraft_VerticalTail_AVERAGE_CHORD, Aircraft_VerticalTail_MOMENT_RATIO,
       d_VerticalTail_AVERAGE_CHORD__VerticalTail_MOMENT_RATIO);
   (Aircraft_VerticalTail_AVERAGE_CHORD, Aircraft_VerticalTail_ASPECT_RATIO,
       d_VerticalTail_AVERAGE_CHORD__VerticalTail_ASPECT_RATIO);
   (Aircraft_VerticalTail_AVERAGE_CHORD, Aircraft_VerticalTail_TAPER_RATIO,
       d_VerticalTail_AVERAGE_CHORD__VerticalTail_TAPER_RATIO);
   (Aircraft_VerticalTail_MOMENT_ARM, Aircraft_VerticalTail_MOMENT_RATIO,
       d_VerticalTail_MOMENT_ARM__VerticalTail_MOMENT_RATIO);
   (Aircraft_VerticalTail_MOMENT_ARM, Aircraft_Wing_SPAN, d_VerticalTail_MOMENT_ARM__Wing_SPAN)].

(** Inputs, outputs and declared partials: /repo/aviary/subsystems/geometry/gasp_based/empennage.py L98-170 *)
Definition TailSizeV (op : options) : comp := {|
  c_ins := [Aircraft_VerticalTail_VOLUME_COEFFICIENT;
            Aircraft_Wing_AREA;
            Aircraft_VerticalTail_MOMENT_RATIO;
            Aircraft_Wing_SPAN;
            Aircraft_VerticalTail_ASPECT_RATIO;
            Aircraft_VerticalTail_TAPER_RATIO];
  c_outs := [Aircraft_VerticalTail_AREA;
             Aircraft_VerticalTail_SPAN;
             Aircraft_VerticalTail_ROOT_CHORD;
             Aircraft_VerticalTail_AVERAGE_CHORD;
             Aircraft_VerticalTail_MOMENT_ARM];
  c_decl := [(Aircraft_VerticalTail_AREA, Aircraft_VerticalTail_VOLUME_COEFFICIENT, 0);
             (Aircraft_VerticalTail_AREA, Aircraft_Wing_AREA, 0);
             (Aircraft_VerticalTail_AREA, Aircraft_VerticalTail_MOMENT_RATIO, 0);
             (Aircraft_VerticalTail_SPAN, Aircraft_VerticalTail_VOLUME_COEFFICIENT, 0);
             (Aircraft_VerticalTail_SPAN, Aircraft_Wing_AREA, 0);
             (Aircraft_VerticalTail_SPAN, Aircraft_VerticalTail_MOMENT_RATIO, 0);
             (Aircraft_VerticalTail_SPAN, Aircraft_VerticalTail_ASPECT_RATIO, 0);
             (Aircraft_VerticalTail_ROOT_CHORD, Aircraft_VerticalTail_VOLUME_COEFFICIENT, 0);
             (Aircraft_VerticalTail_ROOT_CHORD, Aircraft_Wing_AREA, 0);
             (Aircraft_VerticalTail_ROOT_CHORD, Aircraft_VerticalTail_MOMENT_RATIO, 0);
             (Aircraft_VerticalTail_ROOT_CHORD, Aircraft_VerticalTail_ASPECT_RATIO, 0);
             (Aircraft_VerticalTail_ROOT_CHORD, Aircraft_VerticalTail_TAPER_RATIO, 0);
             (Aircraft_VerticalTail_AVERAGE_CHORD, Aircraft_VerticalTail_VOLUME_COEFFICIENT, 0);
             (Aircraft_VerticalTail_AVERAGE_CHORD, Aircraft_Wing_AREA, 0);
             (Aircraft_VerticalTail_AVERAGE_CHORD, Aircraft_VerticalTail_MOMENT_RATIO, 0);
             (Aircraft_VerticalTail_AVERAGE_CHORD, Aircraft_VerticalTail_ASPECT_RATIO, 0);
             (Aircraft_VerticalTail_AVERAGE_CHORD, Aircraft_VerticalTail_TAPER_RATIO, 0);
             (Aircraft_VerticalTail_MOMENT_ARM, Aircraft_VerticalTail_MOMENT_RATIO, 0);
             (Aircraft_VerticalTail_MOMENT_ARM, Aircraft_Wing_SPAN, 0)];
  c_run := TailSizeV_compute op; c_jac := TailSizeV_partials op |}.

(** f, /repo/aviary/subsystems/geometry/gasp_based/engine.py L11-15 *)
Definition buried_f (x : R) : R :=
  let diff := 5 / 10 - x in  (* L13 *)
  let y := 1 - acos (2 * diff) / PI in  (* L14 *)
  y.

(** df, /repo/aviary/subsystems/geometry/gasp_based/engine.py L18-22 *)
Definition buried_df (x : R) : R :=
  let diff := 5 / 10 - x in  (* L20 *)
  let dy := - 2 / sqrt (1 - 4 * diff * diff) / PI in  (* L21 *)
  dy.

(** d2f, /repo/aviary/subsystems/geometry/gasp_based/engine.py L25-29 *)
Definition buried_d2f (x : R) : R :=
  let diff := 5 / 10 - x in  (* L27 *)
  let d2y := 8 * diff / sqrt (1 - 4 * diff * diff) / (1 - 4 * diff * diff) / PI in  (* L28 *)
  d2y.

(** g1, /repo/aviary/subsystems/geometry/gasp_based/engine.py L32-48 *)
Definition buried_g1 (x : R) : R :=
  let A1 := buried_f (5 / 100) in  (* L40 *)
  let B1 := buried_df (5 / 100) in  (* L41 *)
  let C1 := buried_d2f (5 / 100) in  (* L42 *)
  let d1 := (A1 - 1 - 5 / 100 * B1 + 5 / 10 * (5 / 100) ^ 2 * C1) / (5 / 100) ^ 3 in  (* L43 *)
  let c1 := (C1 - 6 * d1 * (5 / 100)) / 2 in  (* L44 *)
  let b1 := B1 - 5 / 100 * C1 + 3 * d1 * (5 / 100) ^ 2 in  (* L45 *)
  let a1 := 1 in  (* L46 *)
  let y := a1 + b1 * x + c1 * x ^ 2 + d1 * x ^ 3 in  (* L47 *)
  y.

(** dg1, /repo/aviary/subsystems/geometry/gasp_based/engine.py L51-60 *)
Definition buried_dg1 (x : R) : R :=
  let A1 := buried_f (5 / 100) in  (* L53 *)
  let B1 := buried_df (5 / 100) in  (* L54 *)
  let C1 := buried_d2f (5 / 100) in  (* L55 *)
  let d1 := (A1 - 1 - 5 / 100 * B1 + 5 / 10 * (5 / 100) ^ 2 * C1) / (5 / 100) ^ 3 in  (* L56 *)
  let c1 := (C1 - 6 * d1 * (5 / 100)) / 2 in  (* L57 *)
  let b1 := B1 - 5 / 100 * C1 + 3 * d1 * (5 / 100) ^ 2 in  (* L58 *)
  let dy := b1 + 2 * c1 * x + 3 * d1 * x ^ 2 in  (* L59 *)
  dy.

(** g2, /repo/aviary/subsystems/geometry/gasp_based/engine.py L63-80 *)
Definition buried_g2 (x : R) : R :=
  let delta := 1 - 5 / 100 in  (* L71 *)
  let A2 := buried_f delta in  (* L72 *)
  let B2 := buried_df delta in  (* L73 *)
  let C2 := buried_d2f delta in  (* L74 *)
  let d2 := - (A2 + B2 * (5 / 100) + 5 / 10 * C2 * (5 / 100) ^ 2) / (5 / 100) ^ 3 in  (* L75 *)
  let c2 := (C2 - 6 * d2 * delta) / 2 in  (* L76 *)
  let b2 := B2 - C2 * delta + 3 * d2 * delta ^ 2 in  (* L77 *)
  let a2 := - (b2 + c2 + d2) in  (* L78 *)
  let y := a2 + b2 * x + c2 * x ^ 2 + d2 * x ^ 3 in  (* L79 *)
  y.

(** dg2, /repo/aviary/subsystems/geometry/gasp_based/engine.py L83-93 *)
Definition buried_dg2 (x : R) : R :=
  let delta := 1 - 5 / 100 in  (* L85 *)
  let A2 := buried_f delta in  (* L86 *)
  let B2 := buried_df delta in  (* L87 *)
  let C2 := buried_d2f delta in  (* L88 *)
  let d2 := - (A2 + B2 * (5 / 100) + 5 / 10 * C2 * (5 / 100) ^ 2) / (5 / 100) ^ 3 in  (* L89 *)
  let c2 := (C2 - 6 * d2 * delta) / 2 in  (* L90 *)
  let b2 := B2 - C2 * delta + 3 * d2 * delta ^ 2 in  (* L91 *)
  let dy := b2 + 2 * c2 * x + 3 * d2 * x ^ 2 in  (* L92 *)
  dy.

(** PercentNotInFuselage.compute, /repo/aviary/subsystems/geometry/gasp_based/engine.py L129-143 (one engine type or one node) *)
Definition PercentNotInFuselage_compute (op : options) (e : env) : list (string * R) :=
  let x := e Aircraft_Nacelle_PERCENT_DIAM_BURIED_IN_FUSELAGE in  (* L130 *)
  let pct_swn :=  (* L131 *)
    if ((leb (5 / 100) x) && (leb x (1 - 5 / 100)))%bool then
      let diff := 5 / 10 - x in  (* L132 *)
      let pct_swn := 1 - acos (2 * diff) / PI in  (* L133 *)
      pct_swn
    else
      let pct_swn :=  (* L134 *)
        if ((leb 0 x) && (ltb x (5 / 100)))%bool then
          let pct_swn := buried_g1 x in  (* L135 *)
          pct_swn
        else
          let pct_swn :=  (* L136 *)
            if ((leb x 1) && (ltb (1 - 5 / 100) x))%bool then
              let pct_swn := buried_g2 x in  (* L137 *)
              pct_swn
            else
              0 in
          pct_swn in
      pct_swn in
  let o_percent_exposed := pct_swn in  (* L143 *)
  [(v_percent_exposed, o_percent_exposed)].

(** PercentNotInFuselage.compute_partials, /repo/aviary/subsystems/geometry/gasp_based/engine.py L145-159 *)
Definition PercentNotInFuselage_partials (op : options) (e : env) : list (string * string * R) :=
  let x := e Aircraft_Nacelle_PERCENT_DIAM_BURIED_IN_FUSELAGE in  (* L146 *)
  let d_pct_swn :=  (* L147 *)
    if ((leb (5 / 100) x) && (leb x (1 - 5 / 100)))%bool then
      let diff := 5 / 10 - x in  (* L148 *)
      let d_pct_swn := - 2 / sqrt (1 - 4 * diff * diff) / PI in  (* L149 *)
      d_pct_swn
    else
      let d_pct_swn :=  (* L150 *)
        if ((leb 0 x) && (ltb x (5 / 100)))%bool then
          let d_pct_swn := buried_dg1 x in  (* L151 *)
          d_pct_swn
        else
          let d_pct_swn :=  (* L152 *)
            if ((leb x 1) && (ltb (1 - 5 / 100) x))%bool then
              let d_pct_swn := buried_dg2 x in  (* L153 *)
              d_pct_swn
            else
              0 in
          d_pct_swn in
      d_pct_swn in
  let d_percent_exposed__Nacelle_PERCENT_DIAM_BURIED_IN_FUSELAGE := d_pct_swn in  (* L159 *)
  [(v_percent_exposed, Aircraft_Nacelle_PERCENT_DIAM_BURIED_IN_FUSELAGE,
      d_percent_exposed__Nacelle_PERCENT_DIAM_BURIED_IN_FUSELAGE)].

(** Inputs, outputs and declared partials: /repo/aviary/subsystems/geometry/gasp_based/engine.py L106-127 *)
Definition PercentNotInFuselage (op : options) : comp := {|
  c_ins := [Aircraft_Nacelle_PERCENT_DIAM_BURIED_IN_FUSELAGE];
  c_outs := [v_percent_exposed];
  c_decl := [(v_percent_exposed, Aircraft_Nacelle_PERCENT_DIAM_BURIED_IN_FUSELAGE, 0)];
  c_run := PercentNotInFuselage_compute op; c_jac := PercentNotInFuselage_partials op |}.

(** GASPEngineDiameter.compute, /repo/aviary/subsystems/geometry/gasp_based/engine.py L208-219 (one engine type or one node) *)
Definition GASPEngineDiameter_compute (op : options) (e : env) : list (string * R) :=
  let num_engine := on op Aircraft_Engine_NUM_ENGINES in  (* L209 *)
  let coeff_inlet := e Aircraft_Engine_INLET_AREA_COEFFICIENT in  (* L210 *)
  let gross_mass := e Aircraft_Design_GROSS_MASS in  (* L212 *)
  let core_diam_ratio := e Aircraft_Nacelle_CORE_DIAMETER_RATIO in  (* L213 *)
  let area_engine := coeff_inlet * gross_mass / num_engine in  (* L215 *)
  let diam_engine := sqrt (4 * area_engine / PI) in  (* L216 *)
  let diam_nacelle := core_diam_ratio * diam_engine in  (* L217 *)
  let o_Nacelle_AVG_DIAMETER := diam_nacelle in  (* L219 *)
  [(Aircraft_Nacelle_AVG_DIAMETER, o_Nacelle_AVG_DIAMETER)].

(** GASPEngineDiameter.compute_partials, /repo/aviary/subsystems/geometry/gasp_based/engine.py L221-247 *)
Definition GASPEngineDiameter_partials (op : options) (e : env) : list (string * string * R) :=
  let num_engine := on op Aircraft_Engine_NUM_ENGINES in  (* L222 *)
  let coeff_inlet := e Aircraft_Engine_INLET_AREA_COEFFICIENT in  (* L223 *)
  let gross_mass := e Aircraft_Design_GROSS_MASS in  (* L225 *)
  let gross_mass := gross_mass in  (* L226 *)
  let core_diam_ratio := e Aircraft_Nacelle_CORE_DIAMETER_RATIO in  (* L227 *)
  let area_engine := coeff_inlet * gross_mass / num_engine in  (* L229 *)
  let diam_engine := sqrt (4 * area_engine / PI) in  (* L230 *)
  let darea_engine_dgross_mass := coeff_inlet * 1 / num_engine in  (* L232 *)
  let ddiam_engine_dgross_mass := 2 / PI / diam_engine * darea_engine_dgross_mass in  (* L233 *)
  let ddiam_nacelle_dgross_mass := core_diam_ratio * ddiam_engine_dgross_mass in  (* L234 *)
  let ddiam_nacelle_dcore_diam_ratio := diam_engine in  (* L235 *)
  let ddiam_nacelle_dcoeff_inlet := core_diam_ratio * 2 / diam_engine * gross_mass / num_engine / PI in  (* L237 *)
  let d_Nacelle_AVG_DIAMETER__Design_GROSS_MASS := ddiam_nacelle_dgross_mass in  (* L241 *)
  let d_Nacelle_AVG_DIAMETER__Nacelle_CORE_DIAMETER_RATIO := ddiam_nacelle_dcore_diam_ratio in  (* L242 *)
  let d_Nacelle_AVG_DIAMETER__Engine_INLET_AREA_COEFFICIENT := ddiam_nacelle_dcoeff_inlet in  (* L245 *)
  [(Aircraft_Nacelle_AVG_DIAMETER, Aircraft_Design_GROSS_MASS, d_Nacelle_AVG_DIAMETER__Design_GROSS_MASS);
   (Aircraft_Nacelle_AVG_DIAMETER, Aircraft_Nacelle_CORE_DIAMETER_RATIO,
       d_Nacelle_AVG_DIAMETER__Nacelle_CORE_DIAMETER_RATIO);
   (Aircraft_Nacelle_AVG_DIAMETER, Aircraft_Engine_INLET_AREA_COEFFICIENT,
       d_Nacelle_AVG_DIAMETER__Engine_INLET_AREA_COEFFICIENT)].

(** Inputs, outputs and declared partials: /repo/aviary/subsystems/geometry/gasp_based/engine.py L172-206 *)
Definition GASPEngineDiameter (op : options) : comp := {|
  c_ins := [Aircraft_Engine_INLET_AREA_COEFFICIENT;
            Aircraft_Design_GROSS_MASS;
            Aircraft_Nacelle_CORE_DIAMETER_RATIO];
  c_outs := [Aircraft_Nacelle_AVG_DIAMETER];
  c_decl := [(Aircraft_Nacelle_AVG_DIAMETER, Aircraft_Design_GROSS_MASS, 0);
             (Aircraft_Nacelle_AVG_DIAMETER, Aircraft_Engine_INLET_AREA_COEFFICIENT, 0);
             (Aircraft_Nacelle_AVG_DIAMETER, Aircraft_Nacelle_CORE_DIAMETER_RATIO, 0)];
  c_run := GASPEngineDiameter_compute op; c_jac := GASPEngineDiameter_partials op |}.

(** GASPEngineLength.compute, /repo/aviary/subsystems/geometry/gasp_based/engine.py L287-292 (one engine type or one node) *)
Definition GASPEngineLength_compute (op : options) (e : env) : list (string * R) :=
  let fineness_nac := e Aircraft_Nacelle_FINENESS in  (* L288 *)
  let diam_nacelle := e Aircraft_Nacelle_AVG_DIAMETER in  (* L289 *)
  let len_nacelle := fineness_nac * diam_nacelle in  (* L290 *)
  let o_Nacelle_AVG_LENGTH := len_nacelle in  (* L292 *)
  [(Aircraft_Nacelle_AVG_LENGTH, o_Nacelle_AVG_LENGTH)].

(** GASPEngineLength.compute_partials, /repo/aviary/subsystems/geometry/gasp_based/engine.py L294-299 *)
Definition GASPEngineLength_partials (op : options) (e : env) : list (string * string * R) :=
  let fineness_nac := e Aircraft_Nacelle_FINENESS in  (* L295 *)
  let diam_nacelle := e Aircraft_Nacelle_AVG_DIAMETER in  (* L296 *)
  let d_Nacelle_AVG_LENGTH__Nacelle_AVG_DIAMETER := fineness_nac in  (* L298 *)
  let d_Nacelle_AVG_LENGTH__Nacelle_FINENESS := diam_nacelle in  (* L299 *)
  [(Aircraft_Nacelle_AVG_LENGTH, Aircraft_Nacelle_AVG_DIAMETER, d_Nacelle_AVG_LENGTH__Nacelle_AVG_DIAMETER);
   (Aircraft_Nacelle_AVG_LENGTH, Aircraft_Nacelle_FINENESS, d_Nacelle_AVG_LENGTH__Nacelle_FINENESS)].

(** Inputs, outputs and declared partials: /repo/aviary/subsystems/geometry/gasp_based/engine.py L260-285 *)
Definition GASPEngineLength (op : options) : comp := {|
  c_ins := [Aircraft_Design_GROSS_MASS;
            Aircraft_Nacelle_CORE_DIAMETER_RATIO;
            Aircraft_Nacelle_FINENESS;
            v_percent_exposed;
            Aircraft_Nacelle_AVG_DIAMETER];
  c_outs := [Aircraft_Nacelle_AVG_LENGTH];
  c_decl := [(Aircraft_Nacelle_AVG_LENGTH, Aircraft_Nacelle_AVG_DIAMETER, 0);
             (Aircraft_Nacelle_AVG_LENGTH, Aircraft_Nacelle_FINENESS, 0)];
  c_run := GASPEngineLength_compute op; c_jac := GASPEngineLength_partials op |}.

(** GASPEngineSurfaceArea.compute, /repo/aviary/subsystems/geometry/gasp_based/engine.py L336-342 (one engine type or one node) *)
Definition GASPEngineSurfaceArea_compute (op : options) (e : env) : list (string * R) :=
  let pct_exposed := e v_percent_exposed in  (* L337 *)
  let diam_nacelle := e Aircraft_Nacelle_AVG_DIAMETER in  (* L338 *)
  let len_nacelle := e Aircraft_Nacelle_AVG_LENGTH in  (* L339 *)
  let wet_area_nacelle := PI * diam_nacelle * len_nacelle * pct_exposed in  (* L340 *)
  let o_Nacelle_SURFACE_AREA := wet_area_nacelle in  (* L342 *)
  [(Aircraft_Nacelle_SURFACE_AREA, o_Nacelle_SURFACE_AREA)].

(** GASPEngineSurfaceArea.compute_partials, /repo/aviary/subsystems/geometry/gasp_based/engine.py L344-355 *)
Definition GASPEngineSurfaceArea_partials (op : options) (e : env) : list (string * string * R) :=
  let pct_exposed := e v_percent_exposed in  (* L345 *)
  let diam_nacelle := e Aircraft_Nacelle_AVG_DIAMETER in  (* L346 *)
  let len_nacelle := e Aircraft_Nacelle_AVG_LENGTH in  (* L347 *)
  let d_Nacelle_SURFACE_AREA__Nacelle_AVG_DIAMETER := PI * len_nacelle * pct_exposed in  (* L349 *)
  let d_Nacelle_SURFACE_AREA__Nacelle_AVG_LENGTH := PI * diam_nacelle * pct_exposed in  (* L352 *)
  let d_Nacelle_SURFACE_AREA__percent_exposed := PI * diam_nacelle * len_nacelle in  (* L355 *)
  [(Aircraft_Nacelle_SURFACE_AREA, Aircraft_Nacelle_AVG_DIAMETER, d_Nacelle_SURFACE_AREA__Nacelle_AVG_DIAMETER);
   (Aircraft_Nacelle_SURFACE_AREA, Aircraft_Nacelle_AVG_LENGTH, d_Nacelle_SURFACE_AREA__Nacelle_AVG_LENGTH);
   (Aircraft_Nacelle_SURFACE_AREA, v_percent_exposed, d_Nacelle_SURFACE_AREA__percent_exposed)].

(** Inputs, outputs and declared partials: /repo/aviary/subsystems/geometry/gasp_based/engine.py L312-334 *)
Definition GASPEngineSurfaceArea (op : options) : comp := {|
  c_ins := [v_percent_exposed;
            Aircraft_Nacelle_AVG_DIAMETER;
            Aircraft_Nacelle_AVG_LENGTH];
  c_outs := [Aircraft_Nacelle_SURFACE_AREA];
  c_decl := [(Aircraft_Nacelle_SURFACE_AREA, Aircraft_Nacelle_AVG_DIAMETER, 0);
             (Aircraft_Nacelle_SURFACE_AREA, Aircraft_Nacelle_AVG_LENGTH, 0);
             (Aircraft_Nacelle_SURFACE_AREA, v_percent_exposed, 0)];
  c_run := GASPEngineSurfaceArea_compute op; c_jac := GASPEngineSurfaceArea_partials op |}.

(** FuselageParameters.compute, /repo/aviary/subsystems/geometry/gasp_based/fuselage.py L56-93 (one engine type or one node) *)
Definition FuselageParameters_compute (op : options) (e : env) : list (string * R) :=
  let seats_abreast := on op Aircraft_CrewPayload_Design_NUM_SEATS_ABREAST_ECONOMY in  (* L59 *)
  let seat_width := e Aircraft_Fuselage_SEAT_WIDTH_ECONOMY in  (* L60 *)
  let num_aisle := on op Aircraft_Fuselage_NUM_AISLES in  (* L61 *)
  let aisle_width := e Aircraft_Fuselage_AISLE_WIDTH in  (* L62 *)
  let PAX := on op Aircraft_CrewPayload_Design_NUM_PASSENGERS in  (* L63 *)
  let seat_pitch := on op Aircraft_CrewPayload_Design_SEAT_PITCH_ECONOMY in  (* L64 *)
  let delta_diameter := e Aircraft_Fuselage_DELTA_DIAMETER in  (* L66 *)
  let cabin_width := seats_abreast * seat_width + num_aisle * aisle_width + 12 in  (* L68 *)
  let cabin_len_a := PAX * seat_pitch / 12 in  (* L75 *)
  let nose_height_a := cabin_width / 12 in  (* L76 *)
  let cabin_height_a := nose_height_a + delta_diameter in  (* L77 *)
  let cabin_len_b := (PAX - 1) * seat_pitch / (seats_abreast * 12) in  (* L80 *)
  let cabin_height_b := cabin_width / 12 in  (* L81 *)
  let nose_height_b := cabin_height_b - delta_diameter in  (* L82 *)
  let o_Fuselage_AVG_DIAMETER := cabin_width in  (* L84 *)
  let sig1 := sigmoidX1 seats_abreast (15 / 10) (- 1 / 100) in  (* L89 *)
  let sig2 := sigmoidX1 seats_abreast (15 / 10) (1 / 100) in  (* L90 *)
  let o_cabin_height := cabin_height_a * sig1 + cabin_height_b * sig2 in  (* L91 *)
  let o_cabin_len := cabin_len_a * sig1 + cabin_len_b * sig2 in  (* L92 *)
  let o_nose_height := nose_height_a * sig1 + nose_height_b * sig2 in  (* L93 *)
  [(Aircraft_Fuselage_AVG_DIAMETER, o_Fuselage_AVG_DIAMETER);
   (v_cabin_height, o_cabin_height);
   (v_cabin_len, o_cabin_len);
   (v_nose_height, o_nose_height)].

(** FuselageParameters.compute_partials, /repo/aviary/subsystems/geometry/gasp_based/fuselage.py L95-119 *)
Definition FuselageParameters_partials (op : options) (e : env) : list (string * string * R) :=
  let seats_abreast := on op Aircraft_CrewPayload_Design_NUM_SEATS_ABREAST_ECONOMY in  (* L97 *)
  let num_aisle := on op Aircraft_Fuselage_NUM_AISLES in  (* L98 *)
  let sig1 := sigmoidX1 seats_abreast (15 / 10) (- 1 / 100) in  (* L99 *)
  let sig2 := sigmoidX1 seats_abreast (15 / 10) (1 / 100) in  (* L100 *)
  let d_Fuselage_AVG_DIAMETER__Fuselage_AISLE_WIDTH := num_aisle in  (* L102 *)
  let d_Fuselage_AVG_DIAMETER__Fuselage_SEAT_WIDTH_ECONOMY := seats_abreast in  (* L103 *)
  let d_nose_height__Fuselage_DELTA_DIAMETER := - sig2 in  (* L105 *)
  let d_nose_height__Fuselage_AISLE_WIDTH := num_aisle / 12 * sig1 + num_aisle / 12 * sig2 in  (* L106 *)
  let d_nose_height__Fuselage_SEAT_WIDTH_ECONOMY := seats_abreast / 12 * sig1 + seats_abreast / 12 * sig2 in  (* L109 *)
  let d_cabin_height__Fuselage_DELTA_DIAMETER := sig1 in  (* L113 *)
  let d_cabin_height__Fuselage_AISLE_WIDTH := num_aisle / 12 * sig1 + num_aisle / 12 * sig2 in  (* L114 *)
  let d_cabin_height__Fuselage_SEAT_WIDTH_ECONOMY := seats_abreast / 12 * sig1 + seats_abreast / 12 * sig2 in  (* L117 *)
  [(Aircraft_Fuselage_AVG_DIAMETER, Aircraft_Fuselage_AISLE_WIDTH, d_Fuselage_AVG_DIAMETER__Fuselage_AISLE_WIDTH);
   (Aircraft_Fuselage_AVG_DIAMETER, Aircraft_Fuselage_SEAT_WIDTH_ECONOMY,
       d_Fuselage_AVG_DIAMETER__Fuselage_SEAT_WIDTH_ECONOMY);
   (v_nose_height, Aircraft_Fuselage_DELTA_DIAMETER, d_nose_height__Fuselage_DELTA_DIAMETER);
   (v_nose_height, Aircraft_Fuselage_AISLE_WIDTH, d_nose_height__Fuselage_AISLE_WIDTH);
   (v_nose_height, Aircraft_Fuselage_SEAT_WIDTH_ECONOMY, d_nose_height__Fuselage_SEAT_WIDTH_ECONOMY);
   (v_cabin_height, Aircraft_Fuselage_DELTA_DIAMETER, d_cabin_height__Fuselage_DELTA_DIAMETER);
   (v_cabin_height, Aircraft_Fuselage_AISLE_WIDTH, d_cabin_height__Fuselage_AISLE_WIDTH);
   (v_cabin_height, Aircraft_Fuselage_SEAT_WIDTH_ECONOMY, d_cabin_height__Fuselage_SEAT_WIDTH_ECONOMY)].

(** Inputs, outputs and declared partials: /repo/aviary/subsystems/geometry/gasp_based/fuselage.py L20-54 *)
Definition FuselageParameters (op : options) : comp := {|
  c_ins := [Aircraft_Fuselage_DELTA_DIAMETER;
            Aircraft_Fuselage_AISLE_WIDTH;
            Aircraft_Fuselage_SEAT_WIDTH_ECONOMY];
  c_outs := [Aircraft_Fuselage_AVG_DIAMETER;
             v_cabin_height;
             v_cabin_len;
             v_nose_height];
  c_decl := [(Aircraft_Fuselage_AVG_DIAMETER, Aircraft_Fuselage_AISLE_WIDTH, 0);
             (Aircraft_Fuselage_AVG_DIAMETER, Aircraft_Fuselage_SEAT_WIDTH_ECONOMY, 0);
             (v_cabin_height, Aircraft_Fuselage_DELTA_DIAMETER, 0);
             (v_cabin_height, Aircraft_Fuselage_AISLE_WIDTH, 0);
             (v_cabin_height, Aircraft_Fuselage_SEAT_WIDTH_ECONOMY, 0);
             (v_nose_height, Aircraft_Fuselage_DELTA_DIAMETER, 0);
             (v_nose_height, Aircraft_Fuselage_AISLE_WIDTH, 0);
             (v_nose_height, Aircraft_Fuselage_SEAT_WIDTH_ECONOMY, 0)];
  c_run := FuselageParameters_compute op; c_jac := FuselageParameters_partials op |}.

(** FuselageSize.compute, /repo/aviary/subsystems/geometry/gasp_based/fuselage.py L184-212 (one engine type or one node) *)
Definition FuselageSize_compute (op : options) (e : env) : list (string * R) :=
  let LoverD_nose := e Aircraft_Fuselage_NOSE_FINENESS in  (* L186 *)
  let LoverD_tail := e Aircraft_Fuselage_TAIL_FINENESS in  (* L187 *)
  let cockpit_len := e Aircraft_Fuselage_PILOT_COMPARTMENT_LENGTH in  (* L188 *)
  let fus_SA_scaler := e Aircraft_Fuselage_WETTED_AREA_SCALER in  (* L189 *)
  let nose_height := e v_nose_height in  (* L190 *)
  let cabin_len := e v_cabin_len in  (* L191 *)
  let cabin_height := e v_cabin_height in  (* L192 *)
  let fus_len := LoverD_nose * nose_height + cockpit_len + cabin_len + LoverD_tail * cabin_height in  (* L194 *)
  let fus_SA := cabin_height * (25 / 10 * (LoverD_nose * nose_height + cockpit_len) + 314 / 100 * cabin_len + 21 / 10
      * LoverD_tail * cabin_height) in  (* L196 *)
  let fus_SA := fus_SA * fus_SA_scaler in  (* L202 *)
  let cabin_len_tailboom := fus_len in  (* L204 *)
  let cabin_width := cabin_height in  (* L206 *)
  let cabin_area := cabin_width * (cockpit_len + cabin_len) in  (* L207 *)
  let o_Fuselage_LENGTH := fus_len in  (* L209 *)
  let o_Fuselage_WETTED_AREA := fus_SA in  (* L210 *)
  let o_TailBoom_LENGTH := cabin_len_tailboom in  (* L211 *)
  let o_Fuselage_CABIN_AREA := cabin_area in  (* L212 *)
  [(Aircraft_Fuselage_LENGTH, o_Fuselage_LENGTH);
   (Aircraft_Fuselage_WETTED_AREA, o_Fuselage_WETTED_AREA);
   (Aircraft_TailBoom_LENGTH, o_TailBoom_LENGTH);
   (Aircraft_Fuselage_CABIN_AREA, o_Fuselage_CABIN_AREA)].

(** FuselageSize.compute_partials, /repo/aviary/subsystems/geometry/gasp_based/fuselage.py L214-264 *)
Definition FuselageSize_partials (op : options) (e : env) : list (string * string * R) :=
  let LoverD_nose := e Aircraft_Fuselage_NOSE_FINENESS in  (* L215 *)
  let LoverD_tail := e Aircraft_Fuselage_TAIL_FINENESS in  (* L216 *)
  let nose_height := e v_nose_height in  (* L217 *)
  let cabin_height := e v_cabin_height in  (* L218 *)
  let fus_SA_scaler := e Aircraft_Fuselage_WETTED_AREA_SCALER in  (* L219 *)
  let cockpit_len := e Aircraft_Fuselage_PILOT_COMPARTMENT_LENGTH in  (* L220 *)
  let cabin_len := e v_cabin_len in  (* L221 *)
  let d_Fuselage_LENGTH__Fuselage_NOSE_FINENESS := nose_height in  (* L223 *)
  let d_Fuselage_LENGTH__nose_height := LoverD_nose in  (* L224 *)
  let d_Fuselage_LENGTH__Fuselage_PILOT_COMPARTMENT_LENGTH := 1 in  (* L225 *)
  let d_Fuselage_LENGTH__cabin_len := 1 in  (* L226 *)
  let d_Fuselage_LENGTH__Fuselage_TAIL_FINENESS := cabin_height in  (* L227 *)
  let d_Fuselage_LENGTH__cabin_height := LoverD_tail in  (* L228 *)
  let d_Fuselage_WETTED_AREA__cabin_height := fus_SA_scaler * (25 / 10 * (LoverD_nose * nose_height + cockpit_len) +
      314 / 100 * cabin_len + 21 / 10 * LoverD_tail * cabin_height + cabin_height * (21 / 10) * LoverD_tail) in  (* L230 *)
  let d_Fuselage_WETTED_AREA__Fuselage_NOSE_FINENESS := fus_SA_scaler * cabin_height * (25 / 10) * nose_height in  (* L236 *)
  let d_Fuselage_WETTED_AREA__nose_height := fus_SA_scaler * cabin_height * (25 / 10) * LoverD_nose in  (* L239 *)
  let d_Fuselage_WETTED_AREA__Fuselage_PILOT_COMPARTMENT_LENGTH := fus_SA_scaler * cabin_height * (25 / 10) in  (* L242 *)
  let d_Fuselage_WETTED_AREA__cabin_len := fus_SA_scaler * (314 / 100) * cabin_height in  (* L245 *)
  let d_Fuselage_WETTED_AREA__Fuselage_TAIL_FINENESS := fus_SA_scaler * (21 / 10) * cabin_height ^ 2 in  (* L246 *)
  let d_Fuselage_WETTED_AREA__Fuselage_WETTED_AREA_SCALER := cabin_height * (25 / 10 * (LoverD_nose * nose_height +
      cockpit_len) + 314 / 100 * cabin_len + 21 / 10 * LoverD_tail * cabin_height) in  (* L249 *)
  let d_TailBoom_LENGTH__Fuselage_NOSE_FINENESS := nose_height in  (* L255 *)
  let d_TailBoom_LENGTH__nose_height := LoverD_nose in  (* L256 *)
  let d_TailBoom_LENGTH__Fuselage_PILOT_COMPARTMENT_LENGTH := 1 in  (* L257 *)
  let d_TailBoom_LENGTH__cabin_len := 1 in  (* L258 *)
  let d_TailBoom_LENGTH__Fuselage_TAIL_FINENESS := cabin_height in  (* L259 *)
  let d_TailBoom_LENGTH__cabin_height := LoverD_tail in  (* L260 *)
  let d_Fuselage_CABIN_AREA__cabin_len := cabin_height in  (* L262 *)
  let d_Fuselage_CABIN_AREA__cabin_height := cabin_len + cockpit_len in  (* L263 *)
  let d_Fuselage_CABIN_AREA__Fuselage_PILOT_COMPARTMENT_LENGTH := cabin_height in  (* L264 *)
  [(Aircraft_Fuselage_LENGTH, Aircraft_Fuselage_NOSE_FINENESS, d_Fuselage_LENGTH__Fuselage_NOSE_FINENESS);
   (Aircraft_Fuselage_LENGTH, v_nose_height, d_Fuselage_LENGTH__nose_height);
   (Aircraft_Fuselage_LENGTH, Aircraft_Fuselage_PILOT_COMPARTMENT_LENGTH,
       d_Fuselage_LENGTH__Fuselage_PILOT_COMPARTMENT_LENGTH);
   (Aircraft_Fuselage_LENGTH, v_cabin_len, d_Fuselage_LENGTH__cabin_len);
   (Aircraft_Fuselage_LENGTH, Aircraft_Fuselage_TAIL_FINENESS, d_Fuselage_LENGTH__Fuselage_TAIL_FINENESS);
   (Aircraft_Fuselage_LENGTH, v_cabin_height, d_Fuselage_LENGTH__cabin_height);
   (Aircraft_Fuselage_WETTED_AREA, v_cabin_height, d_Fuselage_WETTED_AREA__cabin_height);
   (Aircraft_Fuselage_WETTED_AREA, Aircraft_Fuselage_NOSE_FINENESS, d_Fuselage_WETTED_AREA__Fuselage_NOSE_FINENESS);
   (Aircraft_Fuselage_WETTED_AREA, v_nose_height, d_Fuselage_WETTED_AREA__nose_height);
   (Aircraft_Fuselage_WETTED_AREA, Aircraft_Fuselage_PILOT_COMPARTMENT_LENGTH,
       d_Fuselage_WETTED_AREA__Fuselage_PILOT_COMPARTMENT_LENGTH);
   (Aircraft_Fuselage_WETTED_AREA, v_cabin_len, d_Fuselage_WETTED_AREA__cabin_len);
   (Aircraft_Fuselage_WETTED_AREA, Aircraft_Fuselage_TAIL_FINENESS, d_Fuselage_WETTED_AREA__Fuselage_TAIL_FINENESS);
   (Aircraft_Fuselage_WETTED_AREA, Aircraft_Fuselage_WETTED_AREA_SCALER,
       d_Fuselage_WETTED_AREA__Fuselage_WETTED_AREA_SCALER);
   (Aircraft_TailBoom_LENGTH, Aircraft_Fuselage_NOSE_FINENESS, d_TailBoom_LENGTH__Fuselage_NOSE_FINENESS);
   (Aircraft_TailBoom_LENGTH, v_nose_height, d_TailBoom_LENGTH__nose_height);
   (Aircraft_TailBoom_LENGTH, Aircraft_Fuselage_PILOT_COMPARTMENT_LENGTH,
       d_TailBoom_LENGTH__Fuselage_PILOT_COMPARTMENT_LENGTH);
   (Aircraft_TailBoom_LENGTH, v_cabin_len, d_TailBoom_LENGTH__cabin_len);
   (Aircraft_TailBoom_LENGTH, Aircraft_Fuselage_TAIL_FINENESS, d_TailBoom_LENGTH__Fuselage_TAIL_FINENESS);
   (Aircraft_TailBoom_LENGTH, v_cabin_height, d_TailBoom_LENGTH__cabin_height);
   (Aircraft_Fuselage_CABIN_AREA, v_cabin_len, d_Fuselage_CABIN_AREA__cabin_len);
   (Aircraft_Fuselage_CABIN_AREA, v_cabin_height, d_Fuselage_CABIN_AREA__cabin_height);
   (Aircraft_Fuselage_CABIN_AREA, Aircraft_Fuselage_PILOT_COMPARTMENT_LENGTH,
       d_Fuselage_CABIN_AREA__Fuselage_PILOT_COMPARTMENT_LENGTH)].

(** Inputs, outputs and declared partials: /repo/aviary/subsystems/geometry/gasp_based/fuselage.py L128-182 *)
Definition FuselageSize (op : options) : comp := {|
  c_ins := [Aircraft_Fuselage_NOSE_FINENESS;
            v_nose_height;
            Aircraft_Fuselage_PILOT_COMPARTMENT_LENGTH;
            v_cabin_len;
            Aircraft_Fuselage_TAIL_FINENESS;
            v_cabin_height;
            Aircraft_Fuselage_WETTED_AREA_SCALER];
  c_outs := [Aircraft_Fuselage_LENGTH;
             Aircraft_Fuselage_WETTED_AREA;
             Aircraft_TailBoom_LENGTH;
             Aircraft_Fuselage_CABIN_AREA];
  c_decl := [(Aircraft_Fuselage_LENGTH, Aircraft_Fuselage_NOSE_FINENESS, 0);
             (Aircraft_Fuselage_LENGTH, v_nose_height, 0);
             (Aircraft_Fuselage_LENGTH, Aircraft_Fuselage_PILOT_COMPARTMENT_LENGTH, 0);
             (Aircraft_Fuselage_LENGTH, v_cabin_len, 0);
             (Aircraft_Fuselage_LENGTH, Aircraft_Fuselage_TAIL_FINENESS, 0);
             (Aircraft_Fuselage_LENGTH, v_cabin_height, 0);
             (Aircraft_Fuselage_WETTED_AREA, Aircraft_Fuselage_WETTED_AREA_SCALER, 0);
             (Aircraft_Fuselage_WETTED_AREA, v_cabin_height, 0);
             (Aircraft_Fuselage_WETTED_AREA, Aircraft_Fuselage_NOSE_FINENESS, 0);
             (Aircraft_Fuselage_WETTED_AREA, v_nose_height, 0);
             (Aircraft_Fuselage_WETTED_AREA, Aircraft_Fuselage_PILOT_COMPARTMENT_LENGTH, 0);
             (Aircraft_Fuselage_WETTED_AREA, v_cabin_len, 0);
             (Aircraft_Fuselage_WETTED_AREA, Aircraft_Fuselage_TAIL_FINENESS, 0);
             (Aircraft_TailBoom_LENGTH, Aircraft_Fuselage_NOSE_FINENESS, 0);
             (Aircraft_TailBoom_LENGTH, v_nose_height, 0);
             (Aircraft_TailBoom_LENGTH, Aircraft_Fuselage_PILOT_COMPARTMENT_LENGTH, 0);
             (Aircraft_TailBoom_LENGTH, v_cabin_len, 0);
             (Aircraft_TailBoom_LENGTH, Aircraft_Fuselage_TAIL_FINENESS, 0);
             (Aircraft_TailBoom_LENGTH, v_cabin_height, 0);
             (Aircraft_Fuselage_CABIN_AREA, v_cabin_len, 0);
             (Aircraft_Fuselage_CABIN_AREA, v_cabin_height, 0);
             (Aircraft_Fuselage_CABIN_AREA, Aircraft_Fuselage_PILOT_COMPARTMENT_LENGTH, 0)];
  c_run := FuselageSize_compute op; c_jac := FuselageSize_partials op |}.

(** BWBFuselageParameters1.compute, /repo/aviary/subsystems/geometry/gasp_based/fuselage.py L358-386 (one engine type or one node) *)
Definition BWBFuselageParameters1_compute (op : options) (e : env) : list (string * R) :=
  let seats_abreast := on op Aircraft_CrewPayload_Design_NUM_SEATS_ABREAST_ECONOMY in  (* L362 *)
  let seat_width := e Aircraft_Fuselage_SEAT_WIDTH_ECONOMY in  (* L363 *)
  let num_aisle := on op Aircraft_Fuselage_NUM_AISLES in  (* L364 *)
  let aisle_width := e Aircraft_Fuselage_AISLE_WIDTH in  (* L365 *)
  let PAX := on op Aircraft_CrewPayload_Design_NUM_PASSENGERS in  (* L366 *)
  let additional_width := e Aircraft_Fuselage_PRESSURIZED_WIDTH_ADDITIONAL in  (* L367 *)
  let cabin_width := (seats_abreast * seat_width + num_aisle * aisle_width) / 12 + 1 in  (* L368 *)
  let body_width := cabin_width + additional_width in  (* L369 *)
  let cabin_height := cabin_width * e Aircraft_Fuselage_HEIGHT_TO_WIDTH_RATIO in  (* L371 *)
  let nose_height := cabin_height - e Aircraft_Fuselage_DELTA_DIAMETER in  (* L372 *)
  let nose_length := nose_height * e Aircraft_Fuselage_NOSE_FINENESS in  (* L373 *)
  let fuselage_cross_area := PI * body_width * cabin_height / 4 in  (* L379 *)
  let hydraulic_diameter := sqrt (4 * fuselage_cross_area / PI) in  (* L380 *)
  let o_Fuselage_AVG_DIAMETER := body_width in  (* L382 *)
  let o_Fuselage_HYDRAULIC_DIAMETER := hydraulic_diameter in  (* L383 *)
  let o_cabin_height := cabin_height in  (* L384 *)
  let o_nose_height := nose_height in  (* L385 *)
  let o_nose_length := nose_length in  (* L386 *)
  [(Aircraft_Fuselage_AVG_DIAMETER, o_Fuselage_AVG_DIAMETER);
   (Aircraft_Fuselage_HYDRAULIC_DIAMETER, o_Fuselage_HYDRAULIC_DIAMETER);
   (v_cabin_height, o_cabin_height);
   (v_nose_height, o_nose_height);
   (v_nose_length, o_nose_length)].

(** BWBFuselageParameters1.compute_partials, /repo/aviary/subsystems/geometry/gasp_based/fuselage.py L388-444 *)
Definition BWBFuselageParameters1_partials (op : options) (e : env) : list (string * string * R) :=
  let seats_abreast := on op Aircraft_CrewPayload_Design_NUM_SEATS_ABREAST_ECONOMY in  (* L391 *)
  let seat_width := e Aircraft_Fuselage_SEAT_WIDTH_ECONOMY in  (* L392 *)
  let num_aisle := on op Aircraft_Fuselage_NUM_AISLES in  (* L393 *)
  let aisle_width := e Aircraft_Fuselage_AISLE_WIDTH in  (* L394 *)
  let additional_width := e Aircraft_Fuselage_PRESSURIZED_WIDTH_ADDITIONAL in  (* L395 *)
  let cabin_width := (seats_abreast * seat_width + num_aisle * aisle_width) / 12 + 1 in  (* L396 *)
  let body_width := cabin_width + additional_width in  (* L397 *)
  let nose_height_to_length := e Aircraft_Fuselage_HEIGHT_TO_WIDTH_RATIO in  (* L399 *)
  let delta_diameter := e Aircraft_Fuselage_DELTA_DIAMETER in  (* L400 *)
  let nose_fineness := e Aircraft_Fuselage_NOSE_FINENESS in  (* L401 *)
  let hydraulic_diameter := sqrt (body_width * cabin_width * nose_height_to_length) in  (* L402 *)
  let d_Fuselage_AVG_DIAMETER__Fuselage_PRESSURIZED_WIDTH_ADDITIONAL := 1 in  (* L404 *)
  let d_Fuselage_AVG_DIAMETER__Fuselage_AISLE_WIDTH := num_aisle / 12 in  (* L405 *)
  let d_Fuselage_AVG_DIAMETER__Fuselage_SEAT_WIDTH_ECONOMY := seats_abreast / 12 in  (* L406 *)
  let d_Fuselage_HYDRAULIC_DIAMETER__Fuselage_PRESSURIZED_WIDTH_ADDITIONAL := 5 / 10 * cabin_width *
      nose_height_to_length / hydraulic_diameter in  (* L408 *)
  let d_Fuselage_HYDRAULIC_DIAMETER__Fuselage_HEIGHT_TO_WIDTH_RATIO := 5 / 10 * body_width * cabin_width /
      hydraulic_diameter in  (* L411 *)
  let d_Fuselage_HYDRAULIC_DIAMETER__Fuselage_AISLE_WIDTH := cabin_width * num_aisle * nose_height_to_length /
      hydraulic_diameter / 12 in  (* L414 *)
  let d_Fuselage_HYDRAULIC_DIAMETER__Fuselage_SEAT_WIDTH_ECONOMY := 5 / 10 * seats_abreast / 12 * (cabin_width +
      body_width) * nose_height_to_length / hydraulic_diameter in  (* L417 *)
  let d_cabin_height__Fuselage_HEIGHT_TO_WIDTH_RATIO := cabin_width in  (* L421 *)
  let d_cabin_height__Fuselage_AISLE_WIDTH := num_aisle / 12 * nose_height_to_length in  (* L422 *)
  let d_cabin_height__Fuselage_SEAT_WIDTH_ECONOMY := seats_abreast / 12 * nose_height_to_length in  (* L423 *)
  let d_nose_height__Fuselage_HEIGHT_TO_WIDTH_RATIO := cabin_width in  (* L427 *)
  let d_nose_height__Fuselage_DELTA_DIAMETER := - 1 in  (* L428 *)
  let d_nose_height__Fuselage_AISLE_WIDTH := num_aisle / 12 * nose_height_to_length in  (* L429 *)
  let d_nose_height__Fuselage_SEAT_WIDTH_ECONOMY := seats_abreast / 12 * nose_height_to_length in  (* L430 *)
  let d_nose_length__Fuselage_HEIGHT_TO_WIDTH_RATIO := cabin_width * nose_fineness in  (* L434 *)
  let d_nose_length__Fuselage_DELTA_DIAMETER := - nose_fineness in  (* L435 *)
  let d_nose_length__Fuselage_NOSE_FINENESS := cabin_width * nose_height_to_length - delta_diameter in  (* L436 *)
  let d_nose_length__Fuselage_AISLE_WIDTH := num_aisle / 12 * nose_height_to_length * nose_fineness in  (* L439 *)
  let d_nose_length__Fuselage_SEAT_WIDTH_ECONOMY := seats_abreast / 12 * nose_height_to_length * nose_fineness in  (* L442 *)
  [(Aircraft_Fuselage_AVG_DIAMETER, Aircraft_Fuselage_PRESSURIZED_WIDTH_ADDITIONAL,
      d_Fuselage_AVG_DIAMETER__Fuselage_PRESSURIZED_WIDTH_ADDITIONAL);
   (Aircraft_Fuselage_AVG_DIAMETER, Aircraft_Fuselage_AISLE_WIDTH, d_Fuselage_AVG_DIAMETER__Fuselage_AISLE_WIDTH);
   (Aircraft_Fuselage_AVG_DIAMETER, Aircraft_Fuselage_SEAT_WIDTH_ECONOMY,
       d_Fuselage_AVG_DIAMETER__Fuselage_SEAT_WIDTH_ECONOMY);
   (Aircraft_Fuselage_HYDRAULIC_DIAMETER, Aircraft_Fuselage_PRESSURIZED_WIDTH_ADDITIONAL,
       d_Fuselage_HYDRAULIC_DIAMETER__Fuselage_PRESSURIZED_WIDTH_ADDITIONAL);
   (Aircraft_Fuselage_HYDRAULIC_DIAMETER, Aircraft_Fuselage_HEIGHT_TO_WIDTH_RATIO,
       d_Fuselage_HYDRAULIC_DIAMETER__Fuselage_HEIGHT_TO_WIDTH_RATIO);
   (Aircraft_Fuselage_HYDRAULIC_DIAMETER, Aircraft_Fuselage_AISLE_WIDTH,
       d_Fuselage_HYDRAULIC_DIAMETER__Fuselage_AISLE_WIDTH);
   (Aircraft_Fuselage_HYDRAULIC_DIAMETER, Aircraft_Fuselage_SEAT_WIDTH_ECONOMY,
       d_Fuselage_HYDRAULIC_DIAMETER__Fuselage_SEAT_WIDTH_ECONOMY);
   (v_cabin_height, Aircraft_Fuselage_HEIGHT_TO_WIDTH_RATIO, d_cabin_height__Fuselage_HEIGHT_TO_WIDTH_RATIO);
   (v_cabin_height, Aircraft_Fuselage_AISLE_WIDTH, d_cabin_height__Fuselage_AISLE_WIDTH);
   (v_cabin_height, Aircraft_Fuselage_SEAT_WIDTH_ECONOMY, d_cabin_height__Fuselage_SEAT_WIDTH_ECONOMY);
   (v_nose_height, Aircraft_Fuselage_HEIGHT_TO_WIDTH_RATIO, d_nose_height__Fuselage_HEIGHT_TO_WIDTH_RATIO);
   (v_nose_height, Aircraft_Fuselage_DELTA_DIAMETER, d_nose_height__Fuselage_DELTA_DIAMETER);
   (v_nose_height, Aircraft_Fuselage_AISLE_WIDTH, d_nose_height__Fuselage_AISLE_WIDTH);
   (v_nose_height, Aircraft_Fuselage_SEAT_WIDTH_ECONOMY, d_nose_height__Fuselage_SEAT_WIDTH_ECONOMY);
   (v_nose_length, Aircraft_Fuselage_HEIGHT_TO_WIDTH_RATIO, d_nose_length__Fuselage_HEIGHT_TO_WIDTH_RATIO);
   (v_nose_length, Aircraft_Fuselage_DELTA_DIAMETER, d_nose_length__Fuselage_DELTA_DIAMETER);
   (v_nose_length, Aircraft_Fuselage_NOSE_FINENESS, d_nose_length__Fuselage_NOSE_FINENESS);
   (v_nose_length, Aircraft_Fuselage_AISLE_WIDTH, d_nose_length__Fuselage_AISLE_WIDTH);
   (v_nose_length, Aircraft_Fuselage_SEAT_WIDTH_ECONOMY, d_nose_length__Fuselage_SEAT_WIDTH_ECONOMY)].

(** Inputs, outputs and declared partials: /repo/aviary/subsystems/geometry/gasp_based/fuselage.py L298-356 *)
Definition BWBFuselageParameters1 (op : options) : comp := {|
  c_ins := [Aircraft_Fuselage_DELTA_DIAMETER;
            Aircraft_Fuselage_HEIGHT_TO_WIDTH_RATIO;
            Aircraft_Fuselage_PRESSURIZED_WIDTH_ADDITIONAL;
            Aircraft_Fuselage_NOSE_FINENESS;
            Aircraft_Fuselage_AISLE_WIDTH;
            Aircraft_Fuselage_SEAT_WIDTH_ECONOMY];
  c_outs := [Aircraft_Fuselage_AVG_DIAMETER;
             Aircraft_Fuselage_HYDRAULIC_DIAMETER;
             v_cabin_height;
             v_nose_height;
             v_nose_length];
  c_decl := [(Aircraft_Fuselage_AVG_DIAMETER, Aircraft_Fuselage_PRESSURIZED_WIDTH_ADDITIONAL, 0);
             (Aircraft_Fuselage_AVG_DIAMETER, Aircraft_Fuselage_AISLE_WIDTH, 0);
             (Aircraft_Fuselage_AVG_DIAMETER, Aircraft_Fuselage_SEAT_WIDTH_ECONOMY, 0);
             (Aircraft_Fuselage_HYDRAULIC_DIAMETER, Aircraft_Fuselage_PRESSURIZED_WIDTH_ADDITIONAL, 0);
             (Aircraft_Fuselage_HYDRAULIC_DIAMETER, Aircraft_Fuselage_HEIGHT_TO_WIDTH_RATIO, 0);
             (Aircraft_Fuselage_HYDRAULIC_DIAMETER, Aircraft_Fuselage_AISLE_WIDTH, 0);
             (Aircraft_Fuselage_HYDRAULIC_DIAMETER, Aircraft_Fuselage_SEAT_WIDTH_ECONOMY, 0);
             (v_cabin_height, Aircraft_Fuselage_HEIGHT_TO_WIDTH_RATIO, 0);
             (v_cabin_height, Aircraft_Fuselage_AISLE_WIDTH, 0);
             (v_cabin_height, Aircraft_Fuselage_SEAT_WIDTH_ECONOMY, 0);
             (v_nose_height, Aircraft_Fuselage_HEIGHT_TO_WIDTH_RATIO, 0);
             (v_nose_height, Aircraft_Fuselage_DELTA_DIAMETER, 0);
             (v_nose_height, Aircraft_Fuselage_AISLE_WIDTH, 0);
             (v_nose_height, Aircraft_Fuselage_SEAT_WIDTH_ECONOMY, 0);
             (v_nose_length, Aircraft_Fuselage_HEIGHT_TO_WIDTH_RATIO, 0);
             (v_nose_length, Aircraft_Fuselage_DELTA_DIAMETER, 0);
             (v_nose_length, Aircraft_Fuselage_NOSE_FINENESS, 0);
             (v_nose_length, Aircraft_Fuselage_AISLE_WIDTH, 0);
             (v_nose_length, Aircraft_Fuselage_SEAT_WIDTH_ECONOMY, 0)];
  c_run := BWBFuselageParameters1_compute op; c_jac := BWBFuselageParameters1_partials op |}.

(** BWBFuselageParameters2.compute, /repo/aviary/subsystems/geometry/gasp_based/fuselage.py L796-829 (one engine type or one node) *)
Definition BWBFuselageParameters2_compute (op : options) (e : env) : list (string * R) :=
  let rad2deg := 180 / PI in  (* L797 *)
  let PASSENGER_LEADING_EDGE_SWEEP := e Aircraft_BWB_PASSENGER_LEADING_EDGE_SWEEP in  (* L799 *)
  let body_width := e Aircraft_Fuselage_AVG_DIAMETER in  (* L800 *)
  let additional_width := e Aircraft_Fuselage_PRESSURIZED_WIDTH_ADDITIONAL in  (* L801 *)
  let pilot_comp_len := e Aircraft_Fuselage_PILOT_COMPARTMENT_LENGTH in  (* L802 *)
  let len_to_diam_tail_cone := e Aircraft_Fuselage_TAIL_FINENESS in  (* L803 *)
  let nose_len := e v_nose_length in  (* L804 *)
  let cabin_height := e v_cabin_height in  (* L805 *)
  let fuselage_station_aft := e v_fuselage_station_aft in  (* L806 *)
  let cabin_width := body_width - additional_width in  (* L808 *)
  let forebody_len := 5 / 10 * cabin_width * tan (PASSENGER_LEADING_EDGE_SWEEP / rad2deg) in  (* L809 *)
  let nose_width := 2 * nose_len / tan (PASSENGER_LEADING_EDGE_SWEEP / rad2deg) in  (* L810 *)
  let aftbody_len := len_to_diam_tail_cone * cabin_height in  (* L811 *)
  let cabin_len := fuselage_station_aft - nose_len - pilot_comp_len in  (* L812 *)
  let area_nose_planform := 5 / 10 * nose_len * nose_width in  (* L814 *)
  let area_aftbody_planform := aftbody_len * (cabin_width + body_width) / 2 in  (* L815 *)
  let area_forebody := (forebody_len - nose_len) * (body_width + nose_width) / 2 in  (* L816 *)
  let area_aftbody := body_width * (fuselage_station_aft - forebody_len) in  (* L817 *)
  let area_cabin := area_forebody + area_aftbody in  (* L819 *)
  let area_body_planform := area_nose_planform + area_cabin + area_aftbody_planform in  (* L822 *)
  let o_cabin_len := cabin_len in  (* L824 *)
  let o_forebody_len := forebody_len in  (* L825 *)
  let o_aftbody_len := aftbody_len in  (* L826 *)
  let o_nose_area := area_nose_planform in  (* L827 *)
  let o_Fuselage_CABIN_AREA := area_cabin in  (* L828 *)
  let o_Fuselage_PLANFORM_AREA := area_body_planform in  (* L829 *)
  [(v_cabin_len, o_cabin_len);
   (v_forebody_len, o_forebody_len);
   (v_aftbody_len, o_aftbody_len);
   (v_nose_area, o_nose_area);
   (Aircraft_Fuselage_CABIN_AREA, o_Fuselage_CABIN_AREA);
   (Aircraft_Fuselage_PLANFORM_AREA, o_Fuselage_PLANFORM_AREA)].

(** BWBFuselageParameters2.compute_partials, /repo/aviary/subsystems/geometry/gasp_based/fuselage.py L831-936 *)
Definition BWBFuselageParameters2_partials (op : options) (e : env) : list (string * string * R) :=
  let rad2deg := 180 / PI in  (* L834 *)
  let PASSENGER_LEADING_EDGE_SWEEP := e Aircraft_BWB_PASSENGER_LEADING_EDGE_SWEEP in  (* L836 *)
  let body_width := e Aircraft_Fuselage_AVG_DIAMETER in  (* L837 *)
  let additional_width := e Aircraft_Fuselage_PRESSURIZED_WIDTH_ADDITIONAL in  (* L838 *)
  let len_to_diam_tail_cone := e Aircraft_Fuselage_TAIL_FINENESS in  (* L839 *)
  let nose_len := e v_nose_length in  (* L840 *)
  let cabin_height := e v_cabin_height in  (* L841 *)
  let fuselage_station_aft := e v_fuselage_station_aft in  (* L842 *)
  let fb_sweep_rad := PASSENGER_LEADING_EDGE_SWEEP / rad2deg in  (* L847 *)
  let fb_tan := tan fb_sweep_rad in  (* L848 *)
  let fb_cos := cos fb_sweep_rad in  (* L849 *)
  let fb_dtan := 1 / rad2deg / (fb_cos * fb_cos) in  (* L850 *)
  let cabin_width := body_width - additional_width in  (* L852 *)
  let d_cabin_len__fuselage_station_aft := 1 in  (* L854 *)
  let d_cabin_len__nose_length := - 1 in  (* L855 *)
  let d_cabin_len__Fuselage_PILOT_COMPARTMENT_LENGTH := - 1 in  (* L856 *)
  let d_forebody_len__Fuselage_AVG_DIAMETER := 5 / 10 * fb_tan in  (* L858 *)
  let d_forebody_len__BWB_PASSENGER_LEADING_EDGE_SWEEP := 5 / 10 * cabin_width * fb_dtan in  (* L859 *)
  let d_forebody_len__Fuselage_PRESSURIZED_WIDTH_ADDITIONAL := - 5 / 10 * fb_tan in  (* L860 *)
  let d_aftbody_len__Fuselage_TAIL_FINENESS := cabin_height in  (* L862 *)
  let d_aftbody_len__cabin_height := len_to_diam_tail_cone in  (* L863 *)
  let d_forebody_area_d_bd_width := 5 / 10 * fb_tan * (5 / 10 * body_width + nose_len / fb_tan) + (5 / 10 *
      cabin_width * fb_tan - nose_len) * (5 / 10) in  (* L865 *)
  let d_forebody_area_d_ns_length := - (5 / 10 * body_width + nose_len / fb_tan) + (5 / 10 * cabin_width * fb_tan -
      nose_len) / fb_tan in  (* L868 *)
  let d_forebody_area_d_add_length := - 5 / 10 * fb_tan * (5 / 10 * body_width + nose_len / fb_tan) in  (* L872 *)
  let d_forebody_area_d_sweep := 5 / 10 * cabin_width * fb_dtan * (5 / 10 * body_width + nose_len / fb_tan) - (5 / 10
      * cabin_width * fb_tan - nose_len) * nose_len / fb_tan ^ 2 * fb_dtan in  (* L873 *)
  let d_aftbody_area_d_bd_width := fuselage_station_aft - 5 / 10 * cabin_width * fb_tan - 5 / 10 * body_width * fb_tan
      in  (* L876 *)
  let d_aftbody_area_d_fuselage_aft := body_width in  (* L879 *)
  let d_aftbody_area_d_additional := 5 / 10 * body_width * fb_tan in  (* L880 *)
  let d_aftbody_area_d_sweep := - 5 / 10 * body_width * cabin_width * fb_dtan in  (* L881 *)
  let d_cabin_area_d_body_len := d_forebody_area_d_bd_width + d_aftbody_area_d_bd_width in  (* L886 *)
  let d_Fuselage_CABIN_AREA__Fuselage_AVG_DIAMETER := d_cabin_area_d_body_len in  (* L887 *)
  let d_cabin_area_d_nose_len := d_forebody_area_d_ns_length in  (* L889 *)
  let d_Fuselage_CABIN_AREA__nose_length := d_cabin_area_d_nose_len in  (* L890 *)
  let d_cabin_area_d_fuselage_aft := d_aftbody_area_d_fuselage_aft in  (* L892 *)
  let d_Fuselage_CABIN_AREA__fuselage_station_aft := d_cabin_area_d_fuselage_aft in  (* L893 *)
  let d_cabin_area_d_additional := d_forebody_area_d_add_length + d_aftbody_area_d_additional in  (* L895 *)
  let d_Fuselage_CABIN_AREA__Fuselage_PRESSURIZED_WIDTH_ADDITIONAL := d_cabin_area_d_additional in  (* L896 *)
  let d_cabin_area_d_sweep := d_forebody_area_d_sweep + d_aftbody_area_d_sweep in  (* L900 *)
  let d_Fuselage_CABIN_AREA__BWB_PASSENGER_LEADING_EDGE_SWEEP := d_cabin_area_d_sweep in  (* L901 *)
  let d_nose_pf_area_d_nose_len := 2 * nose_len / fb_tan in  (* L905 *)
  let d_nose_area__nose_length := d_nose_pf_area_d_nose_len in  (* L906 *)
  let d_nose_pf_area_d_sweep := - nose_len * nose_len / fb_tan / fb_tan * fb_dtan in  (* L907 *)
  let d_nose_area__BWB_PASSENGER_LEADING_EDGE_SWEEP := d_nose_pf_area_d_sweep in  (* L908 *)
  let d_tail_pf_area_d_tail_fineness := cabin_height * (body_width - 5 / 10 * additional_width) in  (* L910 *)
  let d_tail_pf_area_d_both_width := len_to_diam_tail_cone * cabin_height in  (* L911 *)
  let d_tail_pf_area_d_additional := - 5 / 10 * len_to_diam_tail_cone * cabin_height in  (* L912 *)
  let d_tail_pf_area_d_cabin_height := len_to_diam_tail_cone * (body_width - 5 / 10 * additional_width) in  (* L913 *)
  let d_Fuselage_PLANFORM_AREA__BWB_PASSENGER_LEADING_EDGE_SWEEP := d_nose_pf_area_d_sweep + d_cabin_area_d_sweep in  (* L920 *)
  let d_Fuselage_PLANFORM_AREA__Fuselage_AVG_DIAMETER := d_cabin_area_d_body_len + d_tail_pf_area_d_both_width in  (* L923 *)
  let d_Fuselage_PLANFORM_AREA__Fuselage_PRESSURIZED_WIDTH_ADDITIONAL := d_cabin_area_d_additional +
      d_tail_pf_area_d_additional in  (* L926 *)
  let d_Fuselage_PLANFORM_AREA__fuselage_station_aft := d_cabin_area_d_fuselage_aft in  (* L929 *)
  let d_Fuselage_PLANFORM_AREA__nose_length := d_nose_pf_area_d_nose_len + d_cabin_area_d_nose_len in  (* L930 *)
  let d_Fuselage_PLANFORM_AREA__cabin_height := d_tail_pf_area_d_cabin_height in  (* L933 *)
  let d_Fuselage_PLANFORM_AREA__Fuselage_TAIL_FINENESS := d_tail_pf_area_d_tail_fineness in  (* L934 *)
  [(v_cabin_len, v_fuselage_station_aft, d_cabin_len__fuselage_station_aft);
   (v_cabin_len, v_nose_length, d_cabin_len__nose_length);
   (v_cabin_len, Aircraft_Fuselage_PILOT_COMPARTMENT_LENGTH, d_cabin_len__Fuselage_PILOT_COMPARTMENT_LENGTH);
   (v_forebody_len, Aircraft_Fuselage_AVG_DIAMETER, d_forebody_len__Fuselage_AVG_DIAMETER);
   (v_forebody_len, Aircraft_BWB_PASSENGER_LEADING_EDGE_SWEEP, d_forebody_len__BWB_PASSENGER_LEADING_EDGE_SWEEP);
   (v_forebody_len, Aircraft_Fuselage_PRESSURIZED_WIDTH_ADDITIONAL,
       d_forebody_len__Fuselage_PRESSURIZED_WIDTH_ADDITIONAL);
   (v_aftbody_len, Aircraft_Fuselage_TAIL_FINENESS, d_aftbody_len__Fuselage_TAIL_FINENESS);
   (v_aftbody_len, v_cabin_height, d_aftbody_len__cabin_height);
   (Aircraft_Fuselage_CABIN_AREA, Aircraft_Fuselage_AVG_DIAMETER, d_Fuselage_CABIN_AREA__Fuselage_AVG_DIAMETER);
   (Aircraft_Fuselage_CABIN_AREA, v_nose_length, d_Fuselage_CABIN_AREA__nose_length);
   (Aircraft_Fuselage_CABIN_AREA, v_fuselage_station_aft, d_Fuselage_CABIN_AREA__fuselage_station_aft);
   (Aircraft_Fuselage_CABIN_AREA, Aircraft_Fuselage_PRESSURIZED_WIDTH_ADDITIONAL,
       d_Fuselage_CABIN_AREA__Fuselage_PRESSURIZED_WIDTH_ADDITIONAL);
   (Aircraft_Fuselage_CABIN_AREA, Aircraft_BWB_PASSENGER_LEADING_EDGE_SWEEP,
       d_Fuselage_CABIN_AREA__BWB_PASSENGER_LEADING_EDGE_SWEEP);
   (v_nose_area, v_nose_length, d_nose_area__nose_length);
   (v_nose_area, Aircraft_BWB_PASSENGER_LEADING_EDGE_SWEEP, d_nose_area__BWB_PASSENGER_LEADING_EDGE_SWEEP);
   (Aircraft_Fuselage_PLANFORM_AREA, Aircraft_BWB_PASSENGER_LEADING_EDGE_SWEEP,
       d_Fuselage_PLANFORM_AREA__BWB_PASSENGER_LEADING_EDGE_SWEEP);
   (Aircraft_Fuselage_PLANFORM_AREA, Aircraft_Fuselage_AVG_DIAMETER, d_Fuselage_PLANFORM_AREA__Fuselage_AVG_DIAMETER);
   (Aircraft_Fuselage_PLANFORM_AREA, Aircraft_Fuselage_PRESSURIZED_WIDTH_ADDITIONAL,
       d_Fuselage_PLANFORM_AREA__Fuselage_PRESSURIZED_WIDTH_ADDITIONAL);
   (Aircraft_Fuselage_PLANFORM_AREA, v_fuselage_station_aft, d_Fuselage_PLANFORM_AREA__fuselage_station_aft);
   (Aircraft_Fuselage_PLANFORM_AREA, v_nose_length, d_Fuselage_PLANFORM_AREA__nose_length);
   (Aircraft_Fuselage_PLANFORM_AREA, v_cabin_height, d_Fuselage_PLANFORM_AREA__cabin_height);
   (Aircraft_Fuselage_PLANFORM_AREA, Aircraft_Fuselage_TAIL_FINENESS,
       d_Fuselage_PLANFORM_AREA__Fuselage_TAIL_FINENESS)].

(** Inputs, outputs and declared partials: /repo/aviary/subsystems/geometry/gasp_based/fuselage.py L715-794 *)
Definition BWBFuselageParameters2 (op : options) : comp := {|
  c_ins := [Aircraft_BWB_PASSENGER_LEADING_EDGE_SWEEP;
            Aircraft_Fuselage_PILOT_COMPARTMENT_LENGTH;
            Aircraft_Fuselage_AVG_DIAMETER;
            Aircraft_Fuselage_PRESSURIZED_WIDTH_ADDITIONAL;
            Aircraft_Fuselage_TAIL_FINENESS;
            v_fuselage_station_aft;
            v_nose_length;
            v_cabin_height];
  c_outs := [Aircraft_Fuselage_CABIN_AREA;
             Aircraft_Fuselage_PLANFORM_AREA;
             v_cabin_len;
             v_forebody_len;
             v_aftbody_len;
             v_nose_area];
  c_decl := [(v_cabin_len, v_fuselage_station_aft, 0);
             (v_cabin_len, v_nose_length, 0);
             (v_cabin_len, Aircraft_Fuselage_PILOT_COMPARTMENT_LENGTH, 0);
             (v_forebody_len, Aircraft_Fuselage_AVG_DIAMETER, 0);
             (v_forebody_len, Aircraft_BWB_PASSENGER_LEADING_EDGE_SWEEP, 0);
             (v_forebody_len, Aircraft_Fuselage_PRESSURIZED_WIDTH_ADDITIONAL, 0);
             (v_aftbody_len, Aircraft_Fuselage_TAIL_FINENESS, 0);
             (v_aftbody_len, v_cabin_height, 0);
             (v_nose_area, v_nose_length, 0);
             (v_nose_area, Aircraft_BWB_PASSENGER_LEADING_EDGE_SWEEP, 0);
             (Aircraft_Fuselage_CABIN_AREA, Aircraft_BWB_PASSENGER_LEADING_EDGE_SWEEP, 0);
             (Aircraft_Fuselage_CABIN_AREA, Aircraft_Fuselage_AVG_DIAMETER, 0);
             (Aircraft_Fuselage_CABIN_AREA, Aircraft_Fuselage_PRESSURIZED_WIDTH_ADDITIONAL, 0);
             (Aircraft_Fuselage_CABIN_AREA, v_fuselage_station_aft, 0);
             (Aircraft_Fuselage_CABIN_AREA, v_nose_length, 0);
             (Aircraft_Fuselage_PLANFORM_AREA, Aircraft_BWB_PASSENGER_LEADING_EDGE_SWEEP, 0);
             (Aircraft_Fuselage_PLANFORM_AREA, Aircraft_Fuselage_AVG_DIAMETER, 0);
             (Aircraft_Fuselage_PLANFORM_AREA, Aircraft_Fuselage_PRESSURIZED_WIDTH_ADDITIONAL, 0);
             (Aircraft_Fuselage_PLANFORM_AREA, v_fuselage_station_aft, 0);
             (Aircraft_Fuselage_PLANFORM_AREA, v_nose_length, 0);
             (Aircraft_Fuselage_PLANFORM_AREA, v_cabin_height, 0);
             (Aircraft_Fuselage_PLANFORM_AREA, Aircraft_Fuselage_TAIL_FINENESS, 0)];
  c_run := BWBFuselageParameters2_compute op; c_jac := BWBFuselageParameters2_partials op |}.

(** BWBFuselageSize.compute, /repo/aviary/subsystems/geometry/gasp_based/fuselage.py L1003-1041 (one engine type or one node) *)
Definition BWBFuselageSize_compute (op : options) (e : env) : list (string * R) :=
  let cockpit_len := e Aircraft_Fuselage_PILOT_COMPARTMENT_LENGTH in  (* L1004 *)
  let cabin_len := e v_cabin_len in  (* L1005 *)
  let nose_length := e v_nose_length in  (* L1006 *)
  let aftbody_len := e v_aftbody_len in  (* L1007 *)
  let fuselage_length := nose_length + cockpit_len + cabin_len + aftbody_len in  (* L1009 *)
  let o_Fuselage_LENGTH := fuselage_length in  (* L1010 *)
  let cabin_len_tailboom := fuselage_length in  (* L1012 *)
  let o_TailBoom_LENGTH := cabin_len_tailboom in  (* L1013 *)
  let body_width := e Aircraft_Fuselage_AVG_DIAMETER in  (* L1015 *)
  let additional_width := e Aircraft_Fuselage_PRESSURIZED_WIDTH_ADDITIONAL in  (* L1016 *)
  let fus_SA_scaler := e Aircraft_Fuselage_WETTED_AREA_SCALER in  (* L1017 *)
  let fuselage_station_aft := e v_fuselage_station_aft in  (* L1018 *)
  let cabin_height := e v_cabin_height in  (* L1019 *)
  let forebody_len := e v_forebody_len in  (* L1020 *)
  let nose_area := e v_nose_area in  (* L1021 *)
  let diag_a_c := sqrt (aftbody_len ^ 2 + (cabin_height / 2) ^ 2) in  (* L1023 *)
  let diag_a_a := sqrt (aftbody_len ^ 2 + (additional_width / 2) ^ 2) in  (* L1024 *)
  let diag_f_b := sqrt (forebody_len ^ 2 + (body_width / 2) ^ 2) in  (* L1025 *)
  let diag_f_c := sqrt (forebody_len ^ 2 + (cabin_height / 2) ^ 2) in  (* L1026 *)
  let forebody_surface_area := cabin_height * diag_f_b + body_width * diag_f_c in  (* L1029 *)
  let cabin_surface_area := 2 * (body_width * (fuselage_station_aft - forebody_len) + nose_area) in  (* L1032 *)
  let body_width_pass := body_width - additional_width in  (* L1034 *)
  let aftbody_surface_area := (body_width + body_width_pass) * diag_a_c + cabin_height * diag_a_a in  (* L1035 *)
  let fuselage_wetted_area := forebody_surface_area + cabin_surface_area + aftbody_surface_area in  (* L1037 *)
  let fuselage_wetted_area := fuselage_wetted_area * fus_SA_scaler in  (* L1039 *)
  let o_Fuselage_WETTED_AREA := fuselage_wetted_area in  (* L1041 *)
  [(Aircraft_Fuselage_LENGTH, o_Fuselage_LENGTH);
   (Aircraft_TailBoom_LENGTH, o_TailBoom_LENGTH);
   (Aircraft_Fuselage_WETTED_AREA, o_Fuselage_WETTED_AREA)].

(** BWBFuselageSize.compute_partials, /repo/aviary/subsystems/geometry/gasp_based/fuselage.py L1043-1118 *)
Definition BWBFuselageSize_partials (op : options) (e : env) : list (string * string * R) :=
  let d_Fuselage_LENGTH__Fuselage_PILOT_COMPARTMENT_LENGTH := 1 in  (* L1044 *)
  let d_Fuselage_LENGTH__nose_length := 1 in  (* L1045 *)
  let d_Fuselage_LENGTH__aftbody_len := 1 in  (* L1046 *)
  let d_Fuselage_LENGTH__cabin_len := 1 in  (* L1047 *)
  let d_TailBoom_LENGTH__Fuselage_PILOT_COMPARTMENT_LENGTH := 1 in  (* L1049 *)
  let d_TailBoom_LENGTH__nose_length := 1 in  (* L1050 *)
  let d_TailBoom_LENGTH__aftbody_len := 1 in  (* L1051 *)
  let d_TailBoom_LENGTH__cabin_len := 1 in  (* L1052 *)
  let body_width := e Aircraft_Fuselage_AVG_DIAMETER in  (* L1054 *)
  let additional_width := e Aircraft_Fuselage_PRESSURIZED_WIDTH_ADDITIONAL in  (* L1055 *)
  let fus_SA_scaler := e Aircraft_Fuselage_WETTED_AREA_SCALER in  (* L1056 *)
  let fuselage_station_aft := e v_fuselage_station_aft in  (* L1057 *)
  let cabin_height := e v_cabin_height in  (* L1058 *)
  let forebody_len := e v_forebody_len in  (* L1059 *)
  let nose_area := e v_nose_area in  (* L1060 *)
  let aftbody_len := e v_aftbody_len in  (* L1061 *)
  let body_width_pass := body_width - additional_width in  (* L1062 *)
  let diag_a_c := sqrt (aftbody_len ^ 2 + (cabin_height / 2) ^ 2) in  (* L1064 *)
  let diag_a_a := sqrt (aftbody_len ^ 2 + (additional_width / 2) ^ 2) in  (* L1065 *)
  let diag_f_b := sqrt (forebody_len ^ 2 + (body_width / 2) ^ 2) in  (* L1066 *)
  let diag_f_c := sqrt (forebody_len ^ 2 + (cabin_height / 2) ^ 2) in  (* L1067 *)
  let forebody_surface_area := cabin_height * diag_f_b + body_width * diag_f_c in  (* L1069 *)
  let cabin_surface_area := 2 * (body_width * (fuselage_station_aft - forebody_len) + nose_area) in  (* L1070 *)
  let aftbody_surface_area := (body_width + body_width_pass) * diag_a_c + cabin_height * diag_a_a in  (* L1071 *)
  let d_fb_area_d_cabin_height := diag_f_b + body_width * cabin_height * (25 / 100) / diag_f_c in  (* L1073 *)
  let d_fb_area_d_fb_len := cabin_height * forebody_len / diag_f_b + body_width * forebody_len / diag_f_c in  (* L1074 *)
  let d_fb_area_d_wody_width := cabin_height * body_width * (25 / 100) / diag_f_b + diag_f_c in  (* L1077 *)
  let d_cabin_area_d_body_width := 2 * (fuselage_station_aft - forebody_len) in  (* L1079 *)
  let d_cabin_area_d_station_aft := 2 * body_width in  (* L1080 *)
  let d_cabin_area_d_fb_len := - 2 * body_width in  (* L1081 *)
  let d_cabin_area_d_nose_area := 2 in  (* L1082 *)
  let d_aft_d_body_width := 2 * diag_a_c in  (* L1084 *)
  let d_aft_d_additional_width := - diag_a_c + cabin_height * additional_width * (25 / 100) * diag_a_c in  (* L1085 *)
  let d_aft_d_aft_len := (2 * body_width - additional_width) * aftbody_len / diag_a_c + cabin_height * aftbody_len /
      diag_a_a in  (* L1086 *)
  let d_aft_d_cabin_height := (2 * body_width - additional_width) * cabin_height * (25 / 100) / diag_a_c + diag_a_a in  (* L1089 *)
  let d_Fuselage_WETTED_AREA__Fuselage_WETTED_AREA_SCALER := forebody_surface_area + cabin_surface_area +
      aftbody_surface_area in  (* L1098 *)
  let d_Fuselage_WETTED_AREA__Fuselage_PRESSURIZED_WIDTH_ADDITIONAL := d_aft_d_additional_width * fus_SA_scaler in  (* L1101 *)
  let d_Fuselage_WETTED_AREA__Fuselage_AVG_DIAMETER := fus_SA_scaler * (d_fb_area_d_wody_width +
      d_cabin_area_d_body_width + d_aft_d_body_width) in  (* L1104 *)
  let d_Fuselage_WETTED_AREA__cabin_height := (d_fb_area_d_cabin_height + d_aft_d_cabin_height) * fus_SA_scaler in  (* L1108 *)
  let d_Fuselage_WETTED_AREA__forebody_len := (d_fb_area_d_fb_len + d_cabin_area_d_fb_len) * fus_SA_scaler in  (* L1111 *)
  let d_Fuselage_WETTED_AREA__fuselage_station_aft := d_cabin_area_d_station_aft * fus_SA_scaler in  (* L1114 *)
  let d_Fuselage_WETTED_AREA__aftbody_len := d_aft_d_aft_len * fus_SA_scaler in  (* L1117 *)
  let d_Fuselage_WETTED_AREA__nose_area := d_cabin_area_d_nose_area * fus_SA_scaler in  (* L1118 *)
  [(Aircraft_Fuselage_LENGTH, Aircraft_Fuselage_PILOT_COMPARTMENT_LENGTH,
      d_Fuselage_LENGTH__Fuselage_PILOT_COMPARTMENT_LENGTH);
   (Aircraft_Fuselage_LENGTH, v_nose_length, d_Fuselage_LENGTH__nose_length);
   (Aircraft_Fuselage_LENGTH, v_aftbody_len, d_Fuselage_LENGTH__aftbody_len);
   (Aircraft_Fuselage_LENGTH, v_cabin_len, d_Fuselage_LENGTH__cabin_len);
   (Aircraft_TailBoom_LENGTH, Aircraft_Fuselage_PILOT_COMPARTMENT_LENGTH,
       d_TailBoom_LENGTH__Fuselage_PILOT_COMPARTMENT_LENGTH);
   (Aircraft_TailBoom_LENGTH, v_nose_length, d_TailBoom_LENGTH__nose_length);
   (Aircraft_TailBoom_LENGTH, v_aftbody_len, d_TailBoom_LENGTH__aftbody_len);
   (Aircraft_TailBoom_LENGTH, v_cabin_len, d_TailBoom_LENGTH__cabin_len);
   (Aircraft_Fuselage_WETTED_AREA, Aircraft_Fuselage_WETTED_AREA_SCALER,
       d_Fuselage_WETTED_AREA__Fuselage_WETTED_AREA_SCALER);
   (Aircraft_Fuselage_WETTED_AREA, Aircraft_Fuselage_PRESSURIZED_WIDTH_ADDITIONAL,
       d_Fuselage_WETTED_AREA__Fuselage_PRESSURIZED_WIDTH_ADDITIONAL);
   (Aircraft_Fuselage_WETTED_AREA, Aircraft_Fuselage_AVG_DIAMETER, d_Fuselage_WETTED_AREA__Fuselage_AVG_DIAMETER);
   (Aircraft_Fuselage_WETTED_AREA, v_cabin_height, d_Fuselage_WETTED_AREA__cabin_height);
   (Aircraft_Fuselage_WETTED_AREA, v_forebody_len, d_Fuselage_WETTED_AREA__forebody_len);
   (Aircraft_Fuselage_WETTED_AREA, v_fuselage_station_aft, d_Fuselage_WETTED_AREA__fuselage_station_aft);
   (Aircraft_Fuselage_WETTED_AREA, v_aftbody_len, d_Fuselage_WETTED_AREA__aftbody_len);
   (Aircraft_Fuselage_WETTED_AREA, v_nose_area, d_Fuselage_WETTED_AREA__nose_area)].

(** Inputs, outputs and declared partials: /repo/aviary/subsystems/geometry/gasp_based/fuselage.py L945-1001 *)
Definition BWBFuselageSize (op : options) : comp := {|
  c_ins := [Aircraft_Fuselage_AVG_DIAMETER;
            Aircraft_Fuselage_PRESSURIZED_WIDTH_ADDITIONAL;
            Aircraft_Fuselage_WETTED_AREA_SCALER;
            Aircraft_Fuselage_PILOT_COMPARTMENT_LENGTH;
            v_cabin_height;
            v_forebody_len;
            v_fuselage_station_aft;
            v_nose_area;
            v_aftbody_len;
            v_nose_length;
            v_cabin_len];
  c_outs := [Aircraft_Fuselage_LENGTH;
             Aircraft_Fuselage_WETTED_AREA;
             Aircraft_TailBoom_LENGTH];
  c_decl := [(Aircraft_Fuselage_LENGTH, Aircraft_Fuselage_PILOT_COMPARTMENT_LENGTH, 0);
             (Aircraft_Fuselage_LENGTH, v_nose_length, 0);
             (Aircraft_Fuselage_LENGTH, v_aftbody_len, 0);
             (Aircraft_Fuselage_LENGTH, v_cabin_len, 0);
             (Aircraft_TailBoom_LENGTH, Aircraft_Fuselage_PILOT_COMPARTMENT_LENGTH, 0);
             (Aircraft_TailBoom_LENGTH, v_nose_length, 0);
             (Aircraft_TailBoom_LENGTH, v_aftbody_len, 0);
             (Aircraft_TailBoom_LENGTH, v_cabin_len, 0);
             (Aircraft_Fuselage_WETTED_AREA, Aircraft_Fuselage_AVG_DIAMETER, 0);
             (Aircraft_Fuselage_WETTED_AREA, Aircraft_Fuselage_PRESSURIZED_WIDTH_ADDITIONAL, 0);
             (Aircraft_Fuselage_WETTED_AREA, Aircraft_Fuselage_WETTED_AREA_SCALER, 0);
             (Aircraft_Fuselage_WETTED_AREA, v_cabin_height, 0);
             (Aircraft_Fuselage_WETTED_AREA, v_forebody_len, 0);
             (Aircraft_Fuselage_WETTED_AREA, v_nose_area, 0);
             (Aircraft_Fuselage_WETTED_AREA, v_aftbody_len, 0);
             (Aircraft_Fuselage_WETTED_AREA, v_fuselage_station_aft, 0)];
  c_run := BWBFuselageSize_compute op; c_jac := BWBFuselageSize_partials op |}.

(** StrutCalcs.compute, /repo/aviary/subsystems/geometry/gasp_based/non_dimensional_conversion.py L40-50 (one engine type or one node) *)
Definition StrutCalcsDim_compute (op : options) (e : env) : list (string * R) :=
  let wing_span := e Aircraft_Wing_SPAN in  (* L41 *)
  let o_Strut_ATTACHMENT_LOCATION_DIMENSIONLESS :=  (* L44 *)
    if ob op Aircraft_Wing_HAS_STRUT then
      let strut_x := e Aircraft_Strut_ATTACHMENT_LOCATION in  (* L46 *)
      let o_Strut_ATTACHMENT_LOCATION_DIMENSIONLESS := strut_x / wing_span in  (* L47 *)
      o_Strut_ATTACHMENT_LOCATION_DIMENSIONLESS
    else
      0 in
  [(Aircraft_Strut_ATTACHMENT_LOCATION_DIMENSIONLESS, o_Strut_ATTACHMENT_LOCATION_DIMENSIONLESS)].

(** StrutCalcs.compute_partials, /repo/aviary/subsystems/geometry/gasp_based/non_dimensional_conversion.py L52-66 *)
Definition StrutCalcsDim_partials (op : options) (e : env) : list (string * string * R) :=
  let wing_span := e Aircraft_Wing_SPAN in  (* L53 *)
  let '(d_Strut_ATTACHMENT_LOCATION_DIMENSIONLESS__Strut_ATTACHMENT_LOCATION,
      d_Strut_ATTACHMENT_LOCATION_DIMENSIONLESS__Wing_SPAN) :=  (* L56 *)
    if ob op Aircraft_Wing_HAS_STRUT then
      let d_Strut_ATTACHMENT_LOCATION_DIMENSIONLESS__Strut_ATTACHMENT_LOCATION := 1 / wing_span in  (* L58 *)
      let d_Strut_ATTACHMENT_LOCATION_DIMENSIONLESS__Wing_SPAN := - e Aircraft_Strut_ATTACHMENT_LOCATION / wing_span ^
          2 in  (* L59 *)
      (d_Strut_ATTACHMENT_LOCATION_DIMENSIONLESS__Strut_ATTACHMENT_LOCATION,
          d_Strut_ATTACHMENT_LOCATION_DIMENSIONLESS__Wing_SPAN)
    else
      (0, 0) in
  [(Aircraft_Strut_ATTACHMENT_LOCATION_DIMENSIONLESS, Aircraft_Strut_ATTACHMENT_LOCATION,
      d_Strut_ATTACHMENT_LOCATION_DIMENSIONLESS__Strut_ATTACHMENT_LOCATION);
   (Aircraft_Strut_ATTACHMENT_LOCATION_DIMENSIONLESS, Aircraft_Wing_SPAN,
       d_Strut_ATTACHMENT_LOCATION_DIMENSIONLESS__Wing_SPAN)].

(** Inputs, outputs and declared partials: /repo/aviary/subsystems/geometry/gasp_based/non_dimensional_conversion.py L14-38 *)
Definition StrutCalcsDim (op : options) : comp := {|
  c_ins := [Aircraft_Wing_SPAN;
            Aircraft_Strut_ATTACHMENT_LOCATION];
  c_outs := [Aircraft_Strut_ATTACHMENT_LOCATION_DIMENSIONLESS];
  c_decl := [(Aircraft_Strut_ATTACHMENT_LOCATION_DIMENSIONLESS, Aircraft_Strut_ATTACHMENT_LOCATION, 0);
             (Aircraft_Strut_ATTACHMENT_LOCATION_DIMENSIONLESS, Aircraft_Wing_SPAN, 0)];
  c_run := StrutCalcsDim_compute op; c_jac := StrutCalcsDim_partials op |}.

(** StrutCalcs.compute, /repo/aviary/subsystems/geometry/gasp_based/non_dimensional_conversion.py L40-50 (one engine type or one node) *)
Definition StrutCalcsNonDim_compute (op : options) (e : env) : list (string * R) :=
  let wing_span := e Aircraft_Wing_SPAN in  (* L41 *)
  let o_Strut_ATTACHMENT_LOCATION :=  (* L44 *)
    if ob op Aircraft_Wing_HAS_STRUT then
      let strut_x := e Aircraft_Strut_ATTACHMENT_LOCATION_DIMENSIONLESS in  (* L49 *)
      let o_Strut_ATTACHMENT_LOCATION := strut_x * wing_span in  (* L50 *)
      o_Strut_ATTACHMENT_LOCATION
    else
      0 in
  [(Aircraft_Strut_ATTACHMENT_LOCATION, o_Strut_ATTACHMENT_LOCATION)].

(** StrutCalcs.compute_partials, /repo/aviary/subsystems/geometry/gasp_based/non_dimensional_conversion.py L52-66 *)
Definition StrutCalcsNonDim_partials (op : options) (e : env) : list (string * string * R) :=
  let wing_span := e Aircraft_Wing_SPAN in  (* L53 *)
  let '(d_Strut_ATTACHMENT_LOCATION__Strut_ATTACHMENT_LOCATION_DIMENSIONLESS, d_Strut_ATTACHMENT_LOCATION__Wing_SPAN)
      :=  (* L56 *)
    if ob op Aircraft_Wing_HAS_STRUT then
      let d_Strut_ATTACHMENT_LOCATION__Strut_ATTACHMENT_LOCATION_DIMENSIONLESS := wing_span in  (* L63 *)
      let d_Strut_ATTACHMENT_LOCATION__Wing_SPAN := e Aircraft_Strut_ATTACHMENT_LOCATION_DIMENSIONLESS in  (* L64 *)
      (d_Strut_ATTACHMENT_LOCATION__Strut_ATTACHMENT_LOCATION_DIMENSIONLESS, d_Strut_ATTACHMENT_LOCATION__Wing_SPAN)
    else
      (0, 0) in
  [(Aircraft_Strut_ATTACHMENT_LOCATION, Aircraft_Strut_ATTACHMENT_LOCATION_DIMENSIONLESS,
      d_Strut_ATTACHMENT_LOCATION__Strut_ATTACHMENT_LOCATION_DIMENSIONLESS);
   (Aircraft_Strut_ATTACHMENT_LOCATION, Aircraft_Wing_SPAN, d_Strut_ATTACHMENT_LOCATION__Wing_SPAN)].

(** Inputs, outputs and declared partials: /repo/aviary/subsystems/geometry/gasp_based/non_dimensional_conversion.py L14-38 *)
Definition StrutCalcsNonDim (op : options) : comp := {|
  c_ins := [Aircraft_Wing_SPAN;
            Aircraft_Strut_ATTACHMENT_LOCATION_DIMENSIONLESS];
  c_outs := [Aircraft_Strut_ATTACHMENT_LOCATION];
  c_decl := [(Aircraft_Strut_ATTACHMENT_LOCATION, Aircraft_Strut_ATTACHMENT_LOCATION_DIMENSIONLESS, 0);
             (Aircraft_Strut_ATTACHMENT_LOCATION, Aircraft_Wing_SPAN, 0)];
  c_run := StrutCalcsNonDim_compute op; c_jac := StrutCalcsNonDim_partials op |}.

(** FoldCalcs.compute, /repo/aviary/subsystems/geometry/gasp_based/non_dimensional_conversion.py L97-106 (one engine type or one node) *)
Definition FoldCalcsDim_compute (op : options) (e : env) : list (string * R) :=
  let wing_span := e Aircraft_Wing_SPAN in  (* L98 *)
  let fold_y := e Aircraft_Wing_FOLDED_SPAN in  (* L102 *)
  let o_Wing_FOLDED_SPAN_DIMENSIONLESS := fold_y / wing_span in  (* L103 *)
  [(Aircraft_Wing_FOLDED_SPAN_DIMENSIONLESS, o_Wing_FOLDED_SPAN_DIMENSIONLESS)].

(** FoldCalcs.compute_partials, /repo/aviary/subsystems/geometry/gasp_based/non_dimensional_conversion.py L108-121 *)
Definition FoldCalcsDim_partials (op : options) (e : env) : list (string * string * R) :=
  let wing_span := e Aircraft_Wing_SPAN in  (* L109 *)
  let d_Wing_FOLDED_SPAN_DIMENSIONLESS__Wing_FOLDED_SPAN := 1 / wing_span in  (* L113 *)
  let d_Wing_FOLDED_SPAN_DIMENSIONLESS__Wing_SPAN := - e Aircraft_Wing_FOLDED_SPAN / wing_span ^ 2 in  (* L114 *)
  [(Aircraft_Wing_FOLDED_SPAN_DIMENSIONLESS, Aircraft_Wing_FOLDED_SPAN,
      d_Wing_FOLDED_SPAN_DIMENSIONLESS__Wing_FOLDED_SPAN);
   (Aircraft_Wing_FOLDED_SPAN_DIMENSIONLESS, Aircraft_Wing_SPAN, d_Wing_FOLDED_SPAN_DIMENSIONLESS__Wing_SPAN)].

(** Inputs, outputs and declared partials: /repo/aviary/subsystems/geometry/gasp_based/non_dimensional_conversion.py L75-95 *)
Definition FoldCalcsDim (op : options) : comp := {|
  c_ins := [Aircraft_Wing_SPAN;
            Aircraft_Wing_FOLDED_SPAN];
  c_outs := [Aircraft_Wing_FOLDED_SPAN_DIMENSIONLESS];
  c_decl := [(Aircraft_Wing_FOLDED_SPAN_DIMENSIONLESS, Aircraft_Wing_FOLDED_SPAN, 0);
             (Aircraft_Wing_FOLDED_SPAN_DIMENSIONLESS, Aircraft_Wing_SPAN, 0)];
  c_run := FoldCalcsDim_compute op; c_jac := FoldCalcsDim_partials op |}.

(** FoldCalcs.compute, /repo/aviary/subsystems/geometry/gasp_based/non_dimensional_conversion.py L97-106 (one engine type or one node) *)
Definition FoldCalcsNonDim_compute (op : options) (e : env) : list (string * R) :=
  let wing_span := e Aircraft_Wing_SPAN in  (* L98 *)
  let fold_y := e Aircraft_Wing_FOLDED_SPAN_DIMENSIONLESS in  (* L105 *)
  let o_Wing_FOLDED_SPAN := fold_y * wing_span in  (* L106 *)
  [(Aircraft_Wing_FOLDED_SPAN, o_Wing_FOLDED_SPAN)].

(** FoldCalcs.compute_partials, /repo/aviary/subsystems/geometry/gasp_based/non_dimensional_conversion.py L108-121 *)
Definition FoldCalcsNonDim_partials (op : options) (e : env) : list (string * string * R) :=
  let wing_span := e Aircraft_Wing_SPAN in  (* L109 *)
  let d_Wing_FOLDED_SPAN__Wing_FOLDED_SPAN_DIMENSIONLESS := wing_span in  (* L118 *)
  let d_Wing_FOLDED_SPAN__Wing_SPAN := e Aircraft_Wing_FOLDED_SPAN_DIMENSIONLESS in  (* L119 *)
  [(Aircraft_Wing_FOLDED_SPAN, Aircraft_Wing_FOLDED_SPAN_DIMENSIONLESS,
      d_Wing_FOLDED_SPAN__Wing_FOLDED_SPAN_DIMENSIONLESS);
   (Aircraft_Wing_FOLDED_SPAN, Aircraft_Wing_SPAN, d_Wing_FOLDED_SPAN__Wing_SPAN)].

(** Inputs, outputs and declared partials: /repo/aviary/subsystems/geometry/gasp_based/non_dimensional_conversion.py L75-95 *)
Definition FoldCalcsNonDim (op : options) : comp := {|
  c_ins := [Aircraft_Wing_SPAN;
            Aircraft_Wing_FOLDED_SPAN_DIMENSIONLESS];
  c_outs := [Aircraft_Wing_FOLDED_SPAN];
  c_decl := [(Aircraft_Wing_FOLDED_SPAN, Aircraft_Wing_FOLDED_SPAN_DIMENSIONLESS, 0);
             (Aircraft_Wing_FOLDED_SPAN, Aircraft_Wing_SPAN, 0)];
  c_run := FoldCalcsNonDim_compute op; c_jac := FoldCalcsNonDim_partials op |}.

(** StrutGeom.compute, /repo/aviary/subsystems/geometry/gasp_based/strut.py L50-67 (one engine type or one node) *)
Definition StrutGeom_compute (op : options) (e : env) : list (string * R) :=
  let strut_x := e Aircraft_Strut_ATTACHMENT_LOCATION in  (* L51 *)
  let wing_area := e Aircraft_Wing_AREA in  (* L52 *)
  let strut_wing_area_ratio := e Aircraft_Strut_AREA_RATIO in  (* L53 *)
  let cabin_width := e Aircraft_Fuselage_AVG_DIAMETER in  (* L54 *)
  let o_strut_y := strut_x / 2 in  (* L56 *)
  let o_Strut_LENGTH := sqrt ((o_strut_y - cabin_width / 2) ^ 2 + cabin_width ^ 2) in  (* L63 *)
  let o_Strut_AREA := wing_area * strut_wing_area_ratio in  (* L66 *)
  let strut_area := o_Strut_AREA in  (* L66 *)
  let o_Strut_CHORD := 5 / 10 * strut_area / o_Strut_LENGTH in  (* L67 *)
  [(v_strut_y, o_strut_y);
   (Aircraft_Strut_LENGTH, o_Strut_LENGTH);
   (Aircraft_Strut_AREA, o_Strut_AREA);
   (Aircraft_Strut_CHORD, o_Strut_CHORD)].

(** StrutGeom.compute_partials, /repo/aviary/subsystems/geometry/gasp_based/strut.py L69-102 *)
Definition StrutGeom_partials (op : options) (e : env) : list (string * string * R) :=
  let strut_x := e Aircraft_Strut_ATTACHMENT_LOCATION in  (* L70 *)
  let wing_area := e Aircraft_Wing_AREA in  (* L71 *)
  let strut_wing_area_ratio := e Aircraft_Strut_AREA_RATIO in  (* L72 *)
  let cabin_width := e Aircraft_Fuselage_AVG_DIAMETER in  (* L73 *)
  let dstruty_dstrutx := 1 / 2 in  (* L75 *)
  let d_strut_y__Strut_ATTACHMENT_LOCATION := dstruty_dstrutx in  (* L75 *)
  let strut_y := strut_x / 2 in  (* L76 *)
  let strut_length := sqrt ((strut_y - cabin_width / 2) ^ 2 + cabin_width ^ 2) in  (* L77 *)
  let dlength_dstrutx := 5 / 10 * ((strut_y - cabin_width / 2) ^ 2 + cabin_width ^ 2) ** (- 5 / 10) * 2 * (strut_y -
      cabin_width / 2) * dstruty_dstrutx in  (* L79 *)
  let d_Strut_LENGTH__Strut_ATTACHMENT_LOCATION := dlength_dstrutx in  (* L79 *)
  let dlength_dwidth := (5 * cabin_width - 2 * strut_y) / (2 * sqrt (5 * cabin_width ^ 2 - 4 * cabin_width * strut_y +
      4 * strut_y ^ 2)) in  (* L86 *)
  let d_Strut_LENGTH__Fuselage_AVG_DIAMETER := dlength_dwidth in  (* L86 *)
  let d_Strut_CHORD__Strut_ATTACHMENT_LOCATION := - 1 * (5 / 10) * wing_area * strut_wing_area_ratio / strut_length ^
      2 * dlength_dstrutx in  (* L90 *)
  let d_Strut_CHORD__Fuselage_AVG_DIAMETER := - 1 * (5 / 10) * wing_area * strut_wing_area_ratio / strut_length ^ 2 *
      dlength_dwidth in  (* L93 *)
  let d_Strut_CHORD__Wing_AREA := 5 / 10 / strut_length * strut_wing_area_ratio in  (* L96 *)
  let d_Strut_CHORD__Strut_AREA_RATIO := 5 / 10 / strut_length * wing_area in  (* L99 *)
  let d_Strut_AREA__Wing_AREA := strut_wing_area_ratio in  (* L101 *)
  let d_Strut_AREA__Strut_AREA_RATIO := wing_area in  (* L102 *)
  [(v_strut_y, Aircraft_Strut_ATTACHMENT_LOCATION, d_strut_y__Strut_ATTACHMENT_LOCATION);
   (Aircraft_Strut_LENGTH, Aircraft_Strut_ATTACHMENT_LOCATION, d_Strut_LENGTH__Strut_ATTACHMENT_LOCATION);
   (Aircraft_Strut_LENGTH, Aircraft_Fuselage_AVG_DIAMETER, d_Strut_LENGTH__Fuselage_AVG_DIAMETER);
   (Aircraft_Strut_CHORD, Aircraft_Strut_ATTACHMENT_LOCATION, d_Strut_CHORD__Strut_ATTACHMENT_LOCATION);
   (Aircraft_Strut_CHORD, Aircraft_Fuselage_AVG_DIAMETER, d_Strut_CHORD__Fuselage_AVG_DIAMETER);
   (Aircraft_Strut_CHORD, Aircraft_Wing_AREA, d_Strut_CHORD__Wing_AREA);
   (Aircraft_Strut_CHORD, Aircraft_Strut_AREA_RATIO, d_Strut_CHORD__Strut_AREA_RATIO);
   (Aircraft_Strut_AREA, Aircraft_Wing_AREA, d_Strut_AREA__Wing_AREA);
   (Aircraft_Strut_AREA, Aircraft_Strut_AREA_RATIO, d_Strut_AREA__Strut_AREA_RATIO)].

(** Inputs, outputs and declared partials: /repo/aviary/subsystems/geometry/gasp_based/strut.py L13-48 *)
Definition StrutGeom (op : options) : comp := {|
  c_ins := [Aircraft_Wing_AREA;
            Aircraft_Strut_AREA_RATIO;
            Aircraft_Strut_ATTACHMENT_LOCATION;
            Aircraft_Fuselage_AVG_DIAMETER];
  c_outs := [v_strut_y;
             Aircraft_Strut_LENGTH;
             Aircraft_Strut_AREA;
             Aircraft_Strut_CHORD];
  c_decl := [(v_strut_y, Aircraft_Strut_ATTACHMENT_LOCATION, 0);
             (Aircraft_Strut_LENGTH, Aircraft_Strut_ATTACHMENT_LOCATION, 0);
             (Aircraft_Strut_LENGTH, Aircraft_Fuselage_AVG_DIAMETER, 0);
             (Aircraft_Strut_CHORD, Aircraft_Wing_AREA, 0);
             (Aircraft_Strut_CHORD, Aircraft_Strut_AREA_RATIO, 0);
             (Aircraft_Strut_CHORD, Aircraft_Strut_ATTACHMENT_LOCATION, 0);
             (Aircraft_Strut_CHORD, Aircraft_Fuselage_AVG_DIAMETER, 0);
             (Aircraft_Strut_AREA, Aircraft_Wing_AREA, 0);
             (Aircraft_Strut_AREA, Aircraft_Strut_AREA_RATIO, 0)];
  c_run := StrutGeom_compute op; c_jac := StrutGeom_partials op |}.

(** f, /repo/aviary/subsystems/geometry/gasp_based/wing.py L1681-1685 *)
Definition mount_f (x : R) : R :=
  let diff := 5 / 10 - x in  (* L1683 *)
  let y := sqrt (25 / 100 - diff ^ 2) in  (* L1684 *)
  y.

(** df, /repo/aviary/subsystems/geometry/gasp_based/wing.py L1688-1692 *)
Definition mount_df (x : R) : R :=
  let diff := 5 / 10 - x in  (* L1690 *)
  let dy := (5 / 10 - x) / sqrt (25 / 100 - diff ^ 2) in  (* L1691 *)
  dy.

(** d2f, /repo/aviary/subsystems/geometry/gasp_based/wing.py L1695-1699 *)
Definition mount_d2f (x : R) : R :=
  let diff := 5 / 10 - x in  (* L1697 *)
  let d2y := - 25 / 100 / sqrt (25 / 100 - diff ^ 2) ^ 3 in  (* L1698 *)
  d2y.

(** g1, /repo/aviary/subsystems/geometry/gasp_based/wing.py L1702-1718 *)
Definition mount_g1 (x : R) : R :=
  let A1 := mount_f (5 / 100) in  (* L1710 *)
  let B1 := mount_df (5 / 100) in  (* L1711 *)
  let C1 := mount_d2f (5 / 100) in  (* L1712 *)
  let d1 := (A1 - 5 / 100 * B1 + 5 / 10 * (5 / 100) ^ 2 * C1) / (5 / 100) ^ 3 in  (* L1713 *)
  let c1 := (C1 - 6 * d1 * (5 / 100)) / 2 in  (* L1714 *)
  let b1 := B1 - 5 / 100 * C1 + 3 * d1 * (5 / 100) ^ 2 in  (* L1715 *)
  let a1 := 0 in  (* L1716 *)
  let y := a1 + b1 * x + c1 * x ^ 2 + d1 * x ^ 3 in  (* L1717 *)
  y.

(** dg1, /repo/aviary/subsystems/geometry/gasp_based/wing.py L1721-1730 *)
Definition mount_dg1 (x : R) : R :=
  let A1 := mount_f (5 / 100) in  (* L1723 *)
  let B1 := mount_df (5 / 100) in  (* L1724 *)
  let C1 := mount_d2f (5 / 100) in  (* L1725 *)
  let d1 := (A1 - 5 / 100 * B1 + 5 / 10 * (5 / 100) ^ 2 * C1) / (5 / 100) ^ 3 in  (* L1726 *)
  let c1 := (C1 - 6 * d1 * (5 / 100)) / 2 in  (* L1727 *)
  let b1 := B1 - 5 / 100 * C1 + 3 * d1 * (5 / 100) ^ 2 in  (* L1728 *)
  let dy := b1 + 2 * c1 * x + 3 * d1 * x ^ 2 in  (* L1729 *)
  dy.

(** g2, /repo/aviary/subsystems/geometry/gasp_based/wing.py L1733-1750 *)
Definition mount_g2 (x : R) : R :=
  let delta := 1 - 5 / 100 in  (* L1741 *)
  let A2 := mount_f delta in  (* L1742 *)
  let B2 := mount_df delta in  (* L1743 *)
  let C2 := mount_d2f delta in  (* L1744 *)
  let d2 := - (A2 + B2 * (5 / 100) + 5 / 10 * C2 * (5 / 100) ^ 2) / (5 / 100) ^ 3 in  (* L1745 *)
  let c2 := (C2 - 6 * d2 * delta) / 2 in  (* L1746 *)
  let b2 := B2 - C2 * delta + 3 * d2 * delta ^ 2 in  (* L1747 *)
  let a2 := - (b2 + c2 + d2) in  (* L1748 *)
  let y := a2 + b2 * x + c2 * x ^ 2 + d2 * x ^ 3 in  (* L1749 *)
  y.

(** dg2, /repo/aviary/subsystems/geometry/gasp_based/wing.py L1753-1763 *)
Definition mount_dg2 (x : R) : R :=
  let delta := 1 - 5 / 100 in  (* L1755 *)
  let A2 := mount_f delta in  (* L1756 *)
  let B2 := mount_df delta in  (* L1757 *)
  let C2 := mount_d2f delta in  (* L1758 *)
  let d2 := - (A2 + B2 * (5 / 100) + 5 / 10 * C2 * (5 / 100) ^ 2) / (5 / 100) ^ 3 in  (* L1759 *)
  let c2 := (C2 - 6 * d2 * delta) / 2 in  (* L1760 *)
  let b2 := B2 - C2 * delta + 3 * d2 * delta ^ 2 in  (* L1761 *)
  let dy := b2 + 2 * c2 * x + 3 * d2 * x ^ 2 in  (* L1762 *)
  dy.

(** WingSize.compute, /repo/aviary/subsystems/geometry/gasp_based/wing.py L39-48 (one engine type or one node) *)
Definition WingSize_compute (op : options) (e : env) : list (string * R) :=
  let gross_mass_initial := e Aircraft_Design_GROSS_MASS in  (* L40 *)
  let wing_loading := e Aircraft_Design_WING_LOADING in  (* L41 *)
  let AR := e Aircraft_Wing_ASPECT_RATIO in  (* L42 *)
  let wing_area := gross_mass_initial * GRAV_ENGLISH_LBM / wing_loading in  (* L44 *)
  let wingspan := (AR * wing_area) ** (5 / 10) in  (* L45 *)
  let o_Wing_AREA := wing_area in  (* L47 *)
  let o_Wing_SPAN := wingspan in  (* L48 *)
  [(Aircraft_Wing_AREA, o_Wing_AREA);
   (Aircraft_Wing_SPAN, o_Wing_SPAN)].

(** WingSize.compute_partials, /repo/aviary/subsystems/geometry/gasp_based/wing.py L50-70 *)
Definition WingSize_partials (op : options) (e : env) : list (string * string * R) :=
  let gross_mass_initial := e Aircraft_Design_GROSS_MASS in  (* L51 *)
  let wing_loading := e Aircraft_Design_WING_LOADING in  (* L52 *)
  let AR := e Aircraft_Wing_ASPECT_RATIO in  (* L53 *)
  let wing_area := gross_mass_initial * GRAV_ENGLISH_LBM / wing_loading in  (* L55 *)
  let d_Wing_AREA__Design_GROSS_MASS := GRAV_ENGLISH_LBM / wing_loading in  (* L57 *)
  let dWA_dGMT := d_Wing_AREA__Design_GROSS_MASS in  (* L57 *)
  let d_Wing_AREA__Design_WING_LOADING := - gross_mass_initial * GRAV_ENGLISH_LBM / wing_loading ^ 2 in  (* L60 *)
  let dWA_dWL := d_Wing_AREA__Design_WING_LOADING in  (* L60 *)
  let d_Wing_SPAN__Wing_ASPECT_RATIO := 5 / 10 * wing_area ** (5 / 10) * AR ** (- 5 / 10) in  (* L64 *)
  let d_Wing_SPAN__Design_GROSS_MASS := 5 / 10 * AR ** (5 / 10) * wing_area ** (- 5 / 10) * dWA_dGMT in  (* L65 *)
  let d_Wing_SPAN__Design_WING_LOADING := 5 / 10 * AR ** (5 / 10) * wing_area ** (- 5 / 10) * dWA_dWL in  (* L68 *)
  [(Aircraft_Wing_AREA, Aircraft_Design_GROSS_MASS, d_Wing_AREA__Design_GROSS_MASS);
   (Aircraft_Wing_AREA, Aircraft_Design_WING_LOADING, d_Wing_AREA__Design_WING_LOADING);
   (Aircraft_Wing_SPAN, Aircraft_Wing_ASPECT_RATIO, d_Wing_SPAN__Wing_ASPECT_RATIO);
   (Aircraft_Wing_SPAN, Aircraft_Design_GROSS_MASS, d_Wing_SPAN__Design_GROSS_MASS);
   (Aircraft_Wing_SPAN, Aircraft_Design_WING_LOADING, d_Wing_SPAN__Design_WING_LOADING)].

(** Inputs, outputs and declared partials: /repo/aviary/subsystems/geometry/gasp_based/wing.py L19-37 *)
Definition WingSize (op : options) : comp := {|
  c_ins := [Aircraft_Design_GROSS_MASS;
            Aircraft_Design_WING_LOADING;
            Aircraft_Wing_ASPECT_RATIO];
  c_outs := [Aircraft_Wing_AREA;
             Aircraft_Wing_SPAN];
  c_decl := [(Aircraft_Wing_AREA, Aircraft_Design_GROSS_MASS, 0);
             (Aircraft_Wing_AREA, Aircraft_Design_WING_LOADING, 0);
             (Aircraft_Wing_SPAN, Aircraft_Wing_ASPECT_RATIO, 0);
             (Aircraft_Wing_SPAN, Aircraft_Design_GROSS_MASS, 0);
             (Aircraft_Wing_SPAN, Aircraft_Design_WING_LOADING, 0)];
  c_run := WingSize_compute op; c_jac := WingSize_partials op |}.

(** WingParameters.compute, /repo/aviary/subsystems/geometry/gasp_based/wing.py L132-171 (one engine type or one node) *)
Definition WingParameters_compute (op : options) (e : env) : list (string * R) :=
  let wing_area := e Aircraft_Wing_AREA in  (* L133 *)
  let wingspan := e Aircraft_Wing_SPAN in  (* L134 *)
  let AR := e Aircraft_Wing_ASPECT_RATIO in  (* L135 *)
  let taper_ratio := e Aircraft_Wing_TAPER_RATIO in  (* L136 *)
  let sweep_c4 := e Aircraft_Wing_SWEEP in  (* L137 *)
  let tc_ratio_root := e Aircraft_Wing_THICKNESS_TO_CHORD_ROOT in  (* L138 *)
  let cabin_width := e Aircraft_Fuselage_AVG_DIAMETER in  (* L139 *)
  let tc_ratio_tip := e Aircraft_Wing_THICKNESS_TO_CHORD_TIP in  (* L140 *)
  let center_chord := 2 * wing_area / wingspan / (1 + taper_ratio) in  (* L142 *)
  let avg_chord := 2 * center_chord / 3 * (1 + taper_ratio - taper_ratio / (1 + taper_ratio)) in  (* L143 *)
  let tan_sweep_LE := (1 - taper_ratio) / (1 + taper_ratio) / AR + tan (sweep_c4 * PI / 180) in  (* L146 *)
  let o_Wing_LEADING_EDGE_SWEEP := atan tan_sweep_LE in  (* L149 *)
  let tan_sweep_TE := 3 * (taper_ratio - 1) / (1 + taper_ratio) / AR + tan (sweep_c4 * (PI / 180)) in  (* L150 *)
  let FHP := 2 * (tc_ratio_root * center_chord * (cabin_width - tc_ratio_root * center_chord)) ** (5 / 10) + 4 / 10 in  (* L155 *)
  let HP := FHP * tan_sweep_LE / 2 in  (* L160 *)
  let root_chord := center_chord - HP + FHP * tan_sweep_TE / 2 in  (* L161 *)
  let tc_ratio_avg := ((tc_ratio_root - cabin_width / wingspan * (tc_ratio_root - tc_ratio_tip)) * (1 - cabin_width /
      wingspan * (1 - taper_ratio)) + taper_ratio * tc_ratio_tip) / (1 + taper_ratio - cabin_width / wingspan * (1 -
      taper_ratio)) in  (* L162 *)
  let o_Wing_CENTER_CHORD := center_chord in  (* L168 *)
  let o_Wing_AVERAGE_CHORD := avg_chord in  (* L169 *)
  let o_Wing_ROOT_CHORD := root_chord in  (* L170 *)
  let o_Wing_THICKNESS_TO_CHORD_UNWEIGHTED := tc_ratio_avg in  (* L171 *)
  [(Aircraft_Wing_LEADING_EDGE_SWEEP, o_Wing_LEADING_EDGE_SWEEP);
   (Aircraft_Wing_CENTER_CHORD, o_Wing_CENTER_CHORD);
   (Aircraft_Wing_AVERAGE_CHORD, o_Wing_AVERAGE_CHORD);
   (Aircraft_Wing_ROOT_CHORD, o_Wing_ROOT_CHORD);
   (Aircraft_Wing_THICKNESS_TO_CHORD_UNWEIGHTED, o_Wing_THICKNESS_TO_CHORD_UNWEIGHTED)].

(** WingParameters.compute_partials, /repo/aviary/subsystems/geometry/gasp_based/wing.py L173-327 *)
Definition WingParameters_partials (op : options) (e : env) : list (string * string * R) :=
  let wing_area := e Aircraft_Wing_AREA in  (* L174 *)
  let wingspan := e Aircraft_Wing_SPAN in  (* L175 *)
  let AR := e Aircraft_Wing_ASPECT_RATIO in  (* L176 *)
  let taper_ratio := e Aircraft_Wing_TAPER_RATIO in  (* L177 *)
  let sweep_c4 := e Aircraft_Wing_SWEEP in  (* L178 *)
  let tc_ratio_root := e Aircraft_Wing_THICKNESS_TO_CHORD_ROOT in  (* L179 *)
  let cabin_width := e Aircraft_Fuselage_AVG_DIAMETER in  (* L180 *)
  let tc_ratio_tip := e Aircraft_Wing_THICKNESS_TO_CHORD_TIP in  (* L181 *)
  let center_chord := 2 * wing_area / wingspan / (1 + taper_ratio) in  (* L183 *)
  let FHP := 2 * (tc_ratio_root * center_chord * (cabin_width - tc_ratio_root * center_chord)) ** (5 / 10) + 4 / 10 in  (* L184 *)
  let tan_sweep_LE := (1 - taper_ratio) / (1 + taper_ratio) / AR + tan (sweep_c4 * (PI / 180)) in  (* L190 *)
  let tan_sweep_TE := 3 * (taper_ratio - 1) / (1 + taper_ratio) / AR + tan (sweep_c4 * (PI / 180)) in  (* L193 *)
  let dCenterChord_dWingArea := 2 / (wingspan * (1 + taper_ratio)) in  (* L197 *)
  let dCenterChord_dWingspan := - 2 * wing_area / ((1 + taper_ratio) * wingspan ^ 2) in  (* L198 *)
  let dCenterChord_dTaperRatio := - 2 * wing_area / (wingspan * (1 + taper_ratio) ^ 2) in  (* L199 *)
  let dFHP_dtc_ratio_rootatioRoot := (tc_ratio_root * center_chord * (cabin_width - tc_ratio_root * center_chord)) **
      (- 5 / 10) * (center_chord * cabin_width - 2 * tc_ratio_root * center_chord ^ 2) in  (* L200 *)
  let dFHP_dCabinWidth := (tc_ratio_root * center_chord * (cabin_width - tc_ratio_root * center_chord)) ** (- 5 / 10)
      * tc_ratio_root * center_chord in  (* L203 *)
  let dFHP_dWingArea := (tc_ratio_root * center_chord * (cabin_width - tc_ratio_root * center_chord)) ** (- 5 / 10) *
      (tc_ratio_root * cabin_width - 2 * tc_ratio_root ^ 2 * center_chord) * dCenterChord_dWingArea in  (* L208 *)
  let dFHP_dWingspan := (tc_ratio_root * center_chord * (cabin_width - tc_ratio_root * center_chord)) ** (- 5 / 10) *
      (tc_ratio_root * cabin_width - 2 * tc_ratio_root ^ 2 * center_chord) * dCenterChord_dWingspan in  (* L213 *)
  let dFHP_dTaperRatio := (tc_ratio_root * center_chord * (cabin_width - tc_ratio_root * center_chord)) ** (- 5 / 10)
      * (tc_ratio_root * cabin_width - 2 * tc_ratio_root ^ 2 * center_chord) * dCenterChord_dTaperRatio in  (* L218 *)
  let dTanSweepLE_dTaperRatio := (- (1 + taper_ratio) * AR - (1 - taper_ratio) * AR) / ((1 + taper_ratio) ^ 2 * AR ^
      2) in  (* L224 *)
  let dTanSweepLE_dAR := - (1 - taper_ratio) / ((1 + taper_ratio) * AR ^ 2) in  (* L227 *)
  let dTanSweepLE_dSweepC4 := PI / 180 * 1 / cos (sweep_c4 * (PI / 180)) ^ 2 in  (* L228 *)
  let dTanSweepTE_dSweepC4 := dTanSweepLE_dSweepC4 in  (* L228 *)
  let dTanSweepTE_dTaperRatio := 3 * ((1 + taper_ratio) * AR - (taper_ratio - 1) * AR) / ((1 + taper_ratio) ^ 2 * AR ^
      2) in  (* L231 *)
  let dTanSweepTE_dAR := - 3 * (taper_ratio - 1) / ((1 + taper_ratio) * AR ^ 2) in  (* L234 *)
  let dRootChord_dWingArea := dCenterChord_dWingArea + dFHP_dWingArea * (- tan_sweep_LE / 2 + tan_sweep_TE / 2) in  (* L236 *)
  let dRootChord_dWingspan := dCenterChord_dWingspan + dFHP_dWingspan * (- tan_sweep_LE / 2 + tan_sweep_TE / 2) in  (* L239 *)
  let dRootChord_dTaperRatio := dCenterChord_dTaperRatio + dFHP_dTaperRatio * (- tan_sweep_LE / 2 + tan_sweep_TE / 2)
      + FHP * (- dTanSweepLE_dTaperRatio / 2 + dTanSweepTE_dTaperRatio / 2) in  (* L242 *)
  let dRootChord_dtc_ratio_rootatioRoot := dFHP_dtc_ratio_rootatioRoot * (- tan_sweep_LE / 2 + tan_sweep_TE / 2) in  (* L247 *)
  let dRootChord_dCabinWidth := dFHP_dCabinWidth * (- tan_sweep_LE / 2 + tan_sweep_TE / 2) in  (* L250 *)
  let dRootChord_dAR := FHP * (- dTanSweepLE_dAR / 2 + dTanSweepTE_dAR / 2) in  (* L251 *)
  let dRootChord_dSweepC4 := FHP * (5 / 10) * (- dTanSweepLE_dSweepC4 + dTanSweepTE_dSweepC4) in  (* L252 *)
  let d_Wing_ROOT_CHORD__Wing_AREA := dRootChord_dWingArea in  (* L254 *)
  let d_Wing_ROOT_CHORD__Wing_SPAN := dRootChord_dWingspan in  (* L255 *)
  let d_Wing_ROOT_CHORD__Wing_TAPER_RATIO := dRootChord_dTaperRatio in  (* L256 *)
  let d_Wing_ROOT_CHORD__Wing_THICKNESS_TO_CHORD_ROOT := dRootChord_dtc_ratio_rootatioRoot in  (* L257 *)
  let d_Wing_ROOT_CHORD__Fuselage_AVG_DIAMETER := dRootChord_dCabinWidth in  (* L260 *)
  let d_Wing_ROOT_CHORD__Wing_ASPECT_RATIO := dRootChord_dAR in  (* L261 *)
  let d_Wing_ROOT_CHORD__Wing_SWEEP := dRootChord_dSweepC4 in  (* L262 *)
  let d_Wing_CENTER_CHORD__Wing_AREA := dCenterChord_dWingArea in  (* L264 *)
  let d_Wing_CENTER_CHORD__Wing_SPAN := dCenterChord_dWingspan in  (* L265 *)
  let d_Wing_CENTER_CHORD__Wing_TAPER_RATIO := dCenterChord_dTaperRatio in  (* L266 *)
  let d_Wing_AVERAGE_CHORD__Wing_AREA := 2 / 3 * (1 + taper_ratio - taper_ratio / (1 + taper_ratio)) *
      dCenterChord_dWingArea in  (* L268 *)
  let d_Wing_AVERAGE_CHORD__Wing_SPAN := 2 / 3 * (1 + taper_ratio - taper_ratio / (1 + taper_ratio)) *
      dCenterChord_dWingspan in  (* L273 *)
  let d_Wing_AVERAGE_CHORD__Wing_TAPER_RATIO := dCenterChord_dTaperRatio * (2 / 3) * (1 + taper_ratio - taper_ratio /
      (1 + taper_ratio)) + 2 * center_chord / 3 * (1 - (1 + taper_ratio - taper_ratio) / (1 + taper_ratio) ^ 2) in  (* L278 *)
  let a := tc_ratio_root - cabin_width / wingspan * (tc_ratio_root - tc_ratio_tip) in  (* L284 *)
  let b := 1 - cabin_width / wingspan * (1 - taper_ratio) in  (* L285 *)
  let c := taper_ratio * tc_ratio_tip in  (* L286 *)
  let d := 1 + taper_ratio - cabin_width / wingspan * (1 - taper_ratio) in  (* L287 *)
  let dAB_dCabW := a * (taper_ratio - 1) / wingspan + b * (tc_ratio_tip - tc_ratio_root) / wingspan in  (* L289 *)
  let dD_dCabW := (taper_ratio - 1) / wingspan in  (* L290 *)
  let dAB_dWingspan := a * cabin_width * (1 - taper_ratio) / wingspan ^ 2 + b * cabin_width * (tc_ratio_root -
      tc_ratio_tip) / wingspan ^ 2 in  (* L291 *)
  let dD_dWingspan := cabin_width * (1 - taper_ratio) / wingspan ^ 2 in  (* L295 *)
  let dABC_dTR := a * cabin_width / wingspan + tc_ratio_tip in  (* L296 *)
  let dD_dTR := 1 + cabin_width / wingspan in  (* L297 *)
  let d_Wing_THICKNESS_TO_CHORD_UNWEIGHTED__Wing_THICKNESS_TO_CHORD_ROOT := (1 - cabin_width / wingspan) * b / d in  (* L299 *)
  let d_Wing_THICKNESS_TO_CHORD_UNWEIGHTED__Fuselage_AVG_DIAMETER := (d * dAB_dCabW - (a * b + c) * dD_dCabW) / d ^ 2
      in  (* L303 *)
  let d_Wing_THICKNESS_TO_CHORD_UNWEIGHTED__Wing_SPAN := (d * dAB_dWingspan - (a * b + c) * dD_dWingspan) / d ^ 2 in  (* L306 *)
  let d_Wing_THICKNESS_TO_CHORD_UNWEIGHTED__Wing_THICKNESS_TO_CHORD_TIP := (cabin_width / wingspan * b + taper_ratio)
      / d in  (* L309 *)
  let d_Wing_THICKNESS_TO_CHORD_UNWEIGHTED__Wing_TAPER_RATIO := (d * dABC_dTR - (a * b + c) * dD_dTR) / d ^ 2 in  (* L313 *)
  let trp1 := taper_ratio + 1 in  (* L317 *)
  let swprad := PI * sweep_c4 / 180 in  (* L318 *)
  let tswprad := tan swprad in  (* L319 *)
  let denom := AR ^ 2 * trp1 ^ 2 + (AR * trp1 * tswprad - taper_ratio + 1) ^ 2 in  (* L320 *)
  let d_Wing_LEADING_EDGE_SWEEP__Wing_TAPER_RATIO := - 2 * AR / denom in  (* L321 *)
  let d_Wing_LEADING_EDGE_SWEEP__Wing_ASPECT_RATIO := (taper_ratio - 1) * trp1 / denom in  (* L322 *)
  let d_Wing_LEADING_EDGE_SWEEP__Wing_SWEEP := PI * AR ^ 2 * trp1 ^ 2 / denom / 180 / cos swprad ^ 2 in  (* L325 *)
  [(Aircraft_Wing_ROOT_CHORD, Aircraft_Wing_AREA, d_Wing_ROOT_CHORD__Wing_AREA);
   (Aircraft_Wing_ROOT_CHORD, Aircraft_Wing_SPAN, d_Wing_ROOT_CHORD__Wing_SPAN);
   (Aircraft_Wing_ROOT_CHORD, Aircraft_Wing_TAPER_RATIO, d_Wing_ROOT_CHORD__Wing_TAPER_RATIO);
   (Aircraft_Wing_ROOT_CHORD, Aircraft_Wing_THICKNESS_TO_CHORD_ROOT, d_Wing_ROOT_CHORD__Wing_THICKNESS_TO_CHORD_ROOT);
   (Aircraft_Wing_ROOT_CHORD, Aircraft_Fuselage_AVG_DIAMETER, d_Wing_ROOT_CHORD__Fuselage_AVG_DIAMETER);
   (Aircraft_Wing_ROOT_CHORD, Aircraft_Wing_ASPECT_RATIO, d_Wing_ROOT_CHORD__Wing_ASPECT_RATIO);
   (Aircraft_Wing_ROOT_CHORD, Aircraft_Wing_SWEEP, d_Wing_ROOT_CHORD__Wing_SWEEP);
   (Aircraft_Wing_CENTER_CHORD, Aircraft_Wing_AREA, d_Wing_CENTER_CHORD__Wing_AREA);
   (Aircraft_Wing_CENTER_CHORD, Aircraft_Wing_SPAN, d_Wing_CENTER_CHORD__Wing_SPAN);
   (Aircraft_Wing_CENTER_CHORD, Aircraft_Wing_TAPER_RATIO, d_Wing_CENTER_CHORD__Wing_TAPER_RATIO);
   (Aircraft_Wing_AVERAGE_CHORD, Aircraft_Wing_AREA, d_Wing_AVERAGE_CHORD__Wing_AREA);
   (Aircraft_Wing_AVERAGE_CHORD, Aircraft_Wing_SPAN, d_Wing_AVERAGE_CHORD__Wing_SPAN);
   (Aircraft_Wing_AVERAGE_CHORD, Aircraft_Wing_TAPER_RATIO, d_Wing_AVERAGE_CHORD__Wing_TAPER_RATIO);
   (Aircraft_Wing_THICKNESS_TO_CHORD_UNWEIGHTED, Aircraft_Wing_THICKNESS_TO_CHORD_ROOT,
       d_Wing_THICKNESS_TO_CHORD_UNWEIGHTED__Wing_THICKNESS_TO_CHORD_ROOT);
   (Aircraft_Wing_THICKNESS_TO_CHORD_UNWEIGHTED, Aircraft_Fuselage_AVG_DIAMETER,
       d_Wing_THICKNESS_TO_CHORD_UNWEIGHTED__Fuselage_AVG_DIAMETER);
   (Aircraft_Wing_THICKNESS_TO_CHORD_UNWEIGHTED, Aircraft_Wing_SPAN, d_Wing_THICKNESS_TO_CHORD_UNWEIGHTED__Wing_SPAN);
   (Aircraft_Wing_THICKNESS_TO_CHORD_UNWEIGHTED, Aircraft_Wing_THICKNESS_TO_CHORD_TIP,
       d_Wing_THICKNESS_TO_CHORD_UNWEIGHTED__Wing_THICKNESS_TO_CHORD_TIP);
   (Aircraft_Wing_THICKNESS_TO_CHORD_UNWEIGHTED, Aircraft_Wing_TAPER_RATIO,
       d_Wing_THICKNESS_TO_CHORD_UNWEIGHTED__Wing_TAPER_RATIO);
   (Aircraft_Wing_LEADING_EDGE_SWEEP, Aircraft_Wing_TAPER_RATIO, d_Wing_LEADING_EDGE_SWEEP__Wing_TAPER_RATIO);
   (Aircraft_Wing_LEADING_EDGE_SWEEP, Aircraft_Wing_ASPECT_RATIO, d_Wing_LEADING_EDGE_SWEEP__Wing_ASPECT_RATIO);
   (Aircraft_Wing_LEADING_EDGE_SWEEP, Aircraft_Wing_SWEEP, d_Wing_LEADING_EDGE_SWEEP__Wing_SWEEP)].

(** Inputs, outputs and declared partials: /repo/aviary/subsystems/geometry/gasp_based/wing.py L76-130 *)
Definition WingParameters (op : options) : comp := {|
  c_ins := [Aircraft_Wing_AREA;
            Aircraft_Wing_SPAN;
            Aircraft_Wing_ASPECT_RATIO;
            Aircraft_Wing_TAPER_RATIO;
            Aircraft_Wing_SWEEP;
            Aircraft_Wing_THICKNESS_TO_CHORD_ROOT;
            Aircraft_Fuselage_AVG_DIAMETER;
            Aircraft_Wing_THICKNESS_TO_CHORD_TIP];
  c_outs := [Aircraft_Wing_CENTER_CHORD;
             Aircraft_Wing_AVERAGE_CHORD;
             Aircraft_Wing_ROOT_CHORD;
             Aircraft_Wing_THICKNESS_TO_CHORD_UNWEIGHTED;
             Aircraft_Wing_LEADING_EDGE_SWEEP];
  c_decl := [(Aircraft_Wing_CENTER_CHORD, Aircraft_Wing_AREA, 0);
             (Aircraft_Wing_CENTER_CHORD, Aircraft_Wing_SPAN, 0);
             (Aircraft_Wing_CENTER_CHORD, Aircraft_Wing_TAPER_RATIO, 0);
             (Aircraft_Wing_AVERAGE_CHORD, Aircraft_Wing_AREA, 0);
             (Aircraft_Wing_AVERAGE_CHORD, Aircraft_Wing_SPAN, 0);
             (Aircraft_Wing_AVERAGE_CHORD, Aircraft_Wing_TAPER_RATIO, 0);
             (Aircraft_Wing_THICKNESS_TO_CHORD_UNWEIGHTED, Aircraft_Wing_THICKNESS_TO_CHORD_ROOT, 0);
             (Aircraft_Wing_THICKNESS_TO_CHORD_UNWEIGHTED, Aircraft_Fuselage_AVG_DIAMETER, 0);
             (Aircraft_Wing_THICKNESS_TO_CHORD_UNWEIGHTED, Aircraft_Wing_SPAN, 0);
             (Aircraft_Wing_THICKNESS_TO_CHORD_UNWEIGHTED, Aircraft_Wing_THICKNESS_TO_CHORD_TIP, 0);
             (Aircraft_Wing_THICKNESS_TO_CHORD_UNWEIGHTED, Aircraft_Wing_TAPER_RATIO, 0);
             (Aircraft_Wing_ROOT_CHORD, Aircraft_Wing_AREA, 0);
             (Aircraft_Wing_ROOT_CHORD, Aircraft_Wing_SPAN, 0);
             (Aircraft_Wing_ROOT_CHORD, Aircraft_Wing_TAPER_RATIO, 0);
             (Aircraft_Wing_ROOT_CHORD, Aircraft_Wing_THICKNESS_TO_CHORD_ROOT, 0);
             (Aircraft_Wing_ROOT_CHORD, Aircraft_Fuselage_AVG_DIAMETER, 0);
             (Aircraft_Wing_ROOT_CHORD, Aircraft_Wing_ASPECT_RATIO, 0);
             (Aircraft_Wing_ROOT_CHORD, Aircraft_Wing_SWEEP, 0);
             (Aircraft_Wing_LEADING_EDGE_SWEEP, Aircraft_Wing_TAPER_RATIO, 0);
             (Aircraft_Wing_LEADING_EDGE_SWEEP, Aircraft_Wing_ASPECT_RATIO, 0);
             (Aircraft_Wing_LEADING_EDGE_SWEEP, Aircraft_Wing_SWEEP, 0)];
  c_run := WingParameters_compute op; c_jac := WingParameters_partials op |}.

(** WingVolume.compute, /repo/aviary/subsystems/geometry/gasp_based/wing.py L366-387 (one engine type or one node) *)
Definition WingVolume_compute (op : options) (e : env) : list (string * R) :=
  let wing_area := e Aircraft_Wing_AREA in  (* L369 *)
  let wingspan := e Aircraft_Wing_SPAN in  (* L370 *)
  let AR := e Aircraft_Wing_ASPECT_RATIO in  (* L371 *)
  let taper_ratio := e Aircraft_Wing_TAPER_RATIO in  (* L372 *)
  let tc_ratio_root := e Aircraft_Wing_THICKNESS_TO_CHORD_ROOT in  (* L373 *)
  let cabin_width := e Aircraft_Fuselage_AVG_DIAMETER in  (* L374 *)
  let tc_ratio_tip := e Aircraft_Wing_THICKNESS_TO_CHORD_TIP in  (* L375 *)
  let fuel_vol_frac := e Aircraft_Fuel_WING_FUEL_FRACTION in  (* L376 *)
  let tc_ratio_avg := ((tc_ratio_root - cabin_width / wingspan * (tc_ratio_root - tc_ratio_tip)) * (1 - cabin_width /
      wingspan * (1 - taper_ratio)) + taper_ratio * tc_ratio_tip) / (1 + taper_ratio - cabin_width / wingspan * (1 -
      taper_ratio)) in  (* L378 *)
  let geometric_fuel_vol := fuel_vol_frac * (888889 / 1000000) * tc_ratio_avg * wing_area ** (15 / 10) * (2 *
      taper_ratio + 1) / (AR ** (5 / 10) * (taper_ratio + 1) ^ 2) in  (* L384 *)
  let o_Fuel_WING_VOLUME_GEOMETRIC_MAX := geometric_fuel_vol in  (* L387 *)
  [(Aircraft_Fuel_WING_VOLUME_GEOMETRIC_MAX, o_Fuel_WING_VOLUME_GEOMETRIC_MAX)].

(** WingVolume.compute_partials, /repo/aviary/subsystems/geometry/gasp_based/wing.py L389-480 *)
Definition WingVolume_partials (op : options) (e : env) : list (string * string * R) :=
  let wing_area := e Aircraft_Wing_AREA in  (* L390 *)
  let wingspan := e Aircraft_Wing_SPAN in  (* L391 *)
  let AR := e Aircraft_Wing_ASPECT_RATIO in  (* L392 *)
  let taper_ratio := e Aircraft_Wing_TAPER_RATIO in  (* L393 *)
  let tc_ratio_root := e Aircraft_Wing_THICKNESS_TO_CHORD_ROOT in  (* L394 *)
  let cabin_width := e Aircraft_Fuselage_AVG_DIAMETER in  (* L395 *)
  let tc_ratio_tip := e Aircraft_Wing_THICKNESS_TO_CHORD_TIP in  (* L396 *)
  let tc_ratio_avg := ((tc_ratio_root - cabin_width / wingspan * (tc_ratio_root - tc_ratio_tip)) * (1 - cabin_width /
      wingspan * (1 - taper_ratio)) + taper_ratio * tc_ratio_tip) / (1 + taper_ratio - cabin_width / wingspan * (1 -
      taper_ratio)) in  (* L398 *)
  let a := tc_ratio_root - cabin_width / wingspan * (tc_ratio_root - tc_ratio_tip) in  (* L403 *)
  let b := 1 - cabin_width / wingspan * (1 - taper_ratio) in  (* L404 *)
  let c := taper_ratio * tc_ratio_tip in  (* L405 *)
  let d := 1 + taper_ratio - cabin_width / wingspan * (1 - taper_ratio) in  (* L406 *)
  let dAB_dCabW := a * (taper_ratio - 1) / wingspan + b * (tc_ratio_tip - tc_ratio_root) / wingspan in  (* L408 *)
  let dD_dCabW := (taper_ratio - 1) / wingspan in  (* L409 *)
  let dAB_dWingspan := a * cabin_width * (1 - taper_ratio) / wingspan ^ 2 + b * cabin_width * (tc_ratio_root -
      tc_ratio_tip) / wingspan ^ 2 in  (* L410 *)
  let dD_dWingspan := cabin_width * (1 - taper_ratio) / wingspan ^ 2 in  (* L414 *)
  let dABC_dTR := a * cabin_width / wingspan + tc_ratio_tip in  (* L415 *)
  let dD_dTR := 1 + cabin_width / wingspan in  (* L416 *)
  let dTCA_dtc_ratio_root := (1 - cabin_width / wingspan) * b / d in  (* L418 *)
  let dTCA_dCabW := (d * dAB_dCabW - (a * b + c) * dD_dCabW) / d ^ 2 in  (* L419 *)
  let dTCA_dWingspan := (d * dAB_dWingspan - (a * b + c) * dD_dWingspan) / d ^ 2 in  (* L420 *)
  let dTCA_dtc_ratio_tip := (cabin_width / wingspan * b + taper_ratio) / d in  (* L421 *)
  let dTCA_dTR := (d * dABC_dTR - (a * b + c) * dD_dTR) / d ^ 2 in  (* L422 *)
  let fuel_vol_frac := e Aircraft_Fuel_WING_FUEL_FRACTION in  (* L424 *)
  let num := fuel_vol_frac * (888889 / 1000000) * tc_ratio_avg * wing_area ** (15 / 10) * (2 * taper_ratio + 1) in  (* L425 *)
  let den := AR ** (5 / 10) * (taper_ratio + 1) ^ 2 in  (* L426 *)
  let dNum_dTR := fuel_vol_frac * (888889 / 1000000) * dTCA_dTR * wing_area ** (15 / 10) * (2 * taper_ratio + 1) +
      fuel_vol_frac * (888889 / 1000000) * tc_ratio_avg * wing_area ** (15 / 10) * 2 in  (* L427 *)
  let dDen_dTR := 2 * AR ** (5 / 10) * (taper_ratio + 1) in  (* L431 *)
  let d_Fuel_WING_VOLUME_GEOMETRIC_MAX__Fuel_WING_FUEL_FRACTION := 888889 / 1000000 * tc_ratio_avg * wing_area ** (15
      / 10) * (2 * taper_ratio + 1) / (AR ** (5 / 10) * (taper_ratio + 1) ^ 2) in  (* L433 *)
  let d_Fuel_WING_VOLUME_GEOMETRIC_MAX__Wing_AREA := 15 / 10 * (fuel_vol_frac * (888889 / 1000000) * tc_ratio_avg *
      wing_area ** (5 / 10) * (2 * taper_ratio + 1)) / (AR ** (5 / 10) * (taper_ratio + 1) ^ 2) in  (* L436 *)
  let d_Fuel_WING_VOLUME_GEOMETRIC_MAX__Wing_TAPER_RATIO := (den * dNum_dTR - num * dDen_dTR) / den ^ 2 in  (* L447 *)
  let d_Fuel_WING_VOLUME_GEOMETRIC_MAX__Wing_ASPECT_RATIO := - 5 / 10 * (fuel_vol_frac * (888889 / 1000000) *
      tc_ratio_avg * wing_area ** (15 / 10) * (2 * taper_ratio + 1)) / (AR ** (15 / 10) * (taper_ratio + 1) ^ 2) in  (* L450 *)
  let d_Fuel_WING_VOLUME_GEOMETRIC_MAX__Wing_THICKNESS_TO_CHORD_ROOT := fuel_vol_frac * (888889 / 1000000) *
      dTCA_dtc_ratio_root * wing_area ** (15 / 10) * (2 * taper_ratio + 1) / (AR ** (5 / 10) * (taper_ratio + 1) ^ 2)
      in  (* L461 *)
  let d_Fuel_WING_VOLUME_GEOMETRIC_MAX__Fuselage_AVG_DIAMETER := fuel_vol_frac * (888889 / 1000000) * dTCA_dCabW *
      wing_area ** (15 / 10) * (2 * taper_ratio + 1) / (AR ** (5 / 10) * (taper_ratio + 1) ^ 2) in  (* L468 *)
  let d_Fuel_WING_VOLUME_GEOMETRIC_MAX__Wing_SPAN := fuel_vol_frac * (888889 / 1000000) * dTCA_dWingspan * wing_area
      ** (15 / 10) * (2 * taper_ratio + 1) / (AR ** (5 / 10) * (taper_ratio + 1) ^ 2) in  (* L471 *)
  let d_Fuel_WING_VOLUME_GEOMETRIC_MAX__Wing_THICKNESS_TO_CHORD_TIP := fuel_vol_frac * (888889 / 1000000) *
      dTCA_dtc_ratio_tip * wing_area ** (15 / 10) * (2 * taper_ratio + 1) / (AR ** (5 / 10) * (taper_ratio + 1) ^ 2)
      in  (* L474 *)
  [(Aircraft_Fuel_WING_VOLUME_GEOMETRIC_MAX, Aircraft_Fuel_WING_FUEL_FRACTION,
      d_Fuel_WING_VOLUME_GEOMETRIC_MAX__Fuel_WING_FUEL_FRACTION);
   (Aircraft_Fuel_WING_VOLUME_GEOMETRIC_MAX, Aircraft_Wing_AREA, d_Fuel_WING_VOLUME_GEOMETRIC_MAX__Wing_AREA);
   (Aircraft_Fuel_WING_VOLUME_GEOMETRIC_MAX, Aircraft_Wing_TAPER_RATIO,
       d_Fuel_WING_VOLUME_GEOMETRIC_MAX__Wing_TAPER_RATIO);
   (Aircraft_Fuel_WING_VOLUME_GEOMETRIC_MAX, Aircraft_Wing_ASPECT_RATIO,
       d_Fuel_WING_VOLUME_GEOMETRIC_MAX__Wing_ASPECT_RATIO);
   (Aircraft_Fuel_WING_VOLUME_GEOMETRIC_MAX, Aircraft_Wing_THICKNESS_TO_CHORD_ROOT,
       d_Fuel_WING_VOLUME_GEOMETRIC_MAX__Wing_THICKNESS_TO_CHORD_ROOT);
   (Aircraft_Fuel_WING_VOLUME_GEOMETRIC_MAX, Aircraft_Fuselage_AVG_DIAMETER,
       d_Fuel_WING_VOLUME_GEOMETRIC_MAX__Fuselage_AVG_DIAMETER);
   (Aircraft_Fuel_WING_VOLUME_GEOMETRIC_MAX, Aircraft_Wing_SPAN, d_Fuel_WING_VOLUME_GEOMETRIC_MAX__Wing_SPAN);
   (Aircraft_Fuel_WING_VOLUME_GEOMETRIC_MAX, Aircraft_Wing_THICKNESS_TO_CHORD_TIP,
       d_Fuel_WING_VOLUME_GEOMETRIC_MAX__Wing_THICKNESS_TO_CHORD_TIP)].

(** Inputs, outputs and declared partials: /repo/aviary/subsystems/geometry/gasp_based/wing.py L339-364 *)
Definition WingVolume (op : options) : comp := {|
  c_ins := [Aircraft_Wing_AREA;
            Aircraft_Wing_SPAN;
            Aircraft_Wing_ASPECT_RATIO;
            Aircraft_Wing_TAPER_RATIO;
            Aircraft_Wing_THICKNESS_TO_CHORD_ROOT;
            Aircraft_Fuselage_AVG_DIAMETER;
            Aircraft_Wing_THICKNESS_TO_CHORD_TIP;
            Aircraft_Fuel_WING_FUEL_FRACTION];
  c_outs := [Aircraft_Fuel_WING_VOLUME_GEOMETRIC_MAX];
  c_decl := [(Aircraft_Fuel_WING_VOLUME_GEOMETRIC_MAX, Aircraft_Fuel_WING_FUEL_FRACTION, 0);
             (Aircraft_Fuel_WING_VOLUME_GEOMETRIC_MAX, Aircraft_Wing_THICKNESS_TO_CHORD_ROOT, 0);
             (Aircraft_Fuel_WING_VOLUME_GEOMETRIC_MAX, Aircraft_Fuselage_AVG_DIAMETER, 0);
             (Aircraft_Fuel_WING_VOLUME_GEOMETRIC_MAX, Aircraft_Wing_SPAN, 0);
             (Aircraft_Fuel_WING_VOLUME_GEOMETRIC_MAX, Aircraft_Wing_THICKNESS_TO_CHORD_TIP, 0);
             (Aircraft_Fuel_WING_VOLUME_GEOMETRIC_MAX, Aircraft_Wing_AREA, 0);
             (Aircraft_Fuel_WING_VOLUME_GEOMETRIC_MAX, Aircraft_Wing_TAPER_RATIO, 0);
             (Aircraft_Fuel_WING_VOLUME_GEOMETRIC_MAX, Aircraft_Wing_ASPECT_RATIO, 0)];
  c_run := WingVolume_compute op; c_jac := WingVolume_partials op |}.

(** BWBWingVolume.compute, /repo/aviary/subsystems/geometry/gasp_based/wing.py L546-598 (one engine type or one node) *)
Definition BWBWingVolumeFold_compute (op : options) (e : env) : list (string * R) :=
  let smooth := ob op Aircraft_Design_SMOOTH_MASS_DISCONTINUITIES in  (* L549 *)
  let mu := on op v_mu in  (* L550 *)
  let taper_ratio := e Aircraft_Wing_TAPER_RATIO in  (* L552 *)
  let loc_main_gear := e Aircraft_LandingGear_MAIN_GEAR_LOCATION in  (* L553 *)
  let tc_ratio_root := e Aircraft_Wing_THICKNESS_TO_CHORD_ROOT in  (* L554 *)
  let tc_ratio_tip := e Aircraft_Wing_THICKNESS_TO_CHORD_TIP in  (* L555 *)
  let fuselage_width := e Aircraft_Fuselage_AVG_DIAMETER in  (* L556 *)
  let wingspan := e Aircraft_Wing_SPAN in  (* L557 *)
  let fuel_vol_frac := e Aircraft_Fuel_WING_FUEL_FRACTION in  (* L558 *)
  let center_chort := e Aircraft_Wing_CENTER_CHORD in  (* L559 *)
  let WID_GRX :=  (* L561 *)
    if smooth then
      let WID_GRX := 6 * sigmoidX1 loc_main_gear 0 mu in  (* L562 *)
      WID_GRX
    else
      let WID_GRX :=  (* L564 *)
        if ltb 0 loc_main_gear then
          let WID_GRX := 6 in  (* L565 *)
          WID_GRX
        else
          let WID_GRX := 0 in  (* L567 *)
          WID_GRX in
      WID_GRX in
  let CTIP := taper_ratio * center_chort in  (* L569 *)
  let TCF := tc_ratio_root - 2 * (5 / 10 * fuselage_width + WID_GRX) * (tc_ratio_root - tc_ratio_tip) / wingspan in  (* L570 *)
  let CFUEL := center_chort + 2 * (5 / 10 * fuselage_width + WID_GRX) * (CTIP - center_chort) / wingspan in  (* L574 *)
  let SW_NFX := (5 / 10 * wingspan - (5 / 10 * fuselage_width + WID_GRX)) * (CFUEL + CTIP) in  (* L580 *)
  let SLM_NFX := CTIP / CFUEL in  (* L584 *)
  let AR_NFX := (wingspan - fuselage_width - 2 * WID_GRX) ^ 2 / SW_NFX in  (* L585 *)
  let TCM := 5 / 10 * (TCF + tc_ratio_tip) in  (* L589 *)
  let numer := fuel_vol_frac * (888889 / 1000000) * TCM * SW_NFX ** (15 / 10) * (2 * SLM_NFX + 1) in  (* L592 *)
  let denom := AR_NFX ** (5 / 10) * (SLM_NFX + 1) ^ 2 in  (* L593 *)
  let FVOLW_GEOM := numer / denom in  (* L594 *)
  let o_wing_volume_no_fold := FVOLW_GEOM in  (* L596 *)
  [(v_wing_volume_no_fold, o_wing_volume_no_fold)].

(** BWBWingVolume.compute_partials, /repo/aviary/subsystems/geometry/gasp_based/wing.py L600-866 *)
Definition BWBWingVolumeFold_partials (op : options) (e : env) : list (string * string * R) :=
  let smooth := ob op Aircraft_Design_SMOOTH_MASS_DISCONTINUITIES in  (* L601 *)
  let mu := on op v_mu in  (* L602 *)
  let taper_ratio := e Aircraft_Wing_TAPER_RATIO in  (* L604 *)
  let loc_main_gear := e Aircraft_LandingGear_MAIN_GEAR_LOCATION in  (* L605 *)
  let tc_ratio_root := e Aircraft_Wing_THICKNESS_TO_CHORD_ROOT in  (* L606 *)
  let tc_ratio_tip := e Aircraft_Wing_THICKNESS_TO_CHORD_TIP in  (* L607 *)
  let fuselage_width := e Aircraft_Fuselage_AVG_DIAMETER in  (* L608 *)
  let wingspan := e Aircraft_Wing_SPAN in  (* L609 *)
  let fuel_vol_frac := e Aircraft_Fuel_WING_FUEL_FRACTION in  (* L610 *)
  let center_chort := e Aircraft_Wing_CENTER_CHORD in  (* L611 *)
  let '(WID_GRX, dWID_GRX_dloc_main_gear) :=  (* L613 *)
    if smooth then
      let WID_GRX := 6 * sigmoidX1 loc_main_gear 0 mu in  (* L614 *)
      let dWID_GRX_dloc_main_gear := dSigmoidX1 loc_main_gear 0 mu / mu in  (* L615 *)
      (WID_GRX, dWID_GRX_dloc_main_gear)
    else
      let WID_GRX :=  (* L617 *)
        if ltb 0 loc_main_gear then
          let WID_GRX := 6 in  (* L618 *)
          WID_GRX
        else
          let WID_GRX := 0 in  (* L620 *)
          WID_GRX in
      let dWID_GRX_dloc_main_gear := 0 in  (* L621 *)
      (WID_GRX, dWID_GRX_dloc_main_gear) in
  let TCF := tc_ratio_root - 2 * (5 / 10 * fuselage_width + WID_GRX) * (tc_ratio_root - tc_ratio_tip) / wingspan in  (* L623 *)
  let dTCF_dloc_main_gear := - 2 * dWID_GRX_dloc_main_gear * (tc_ratio_root - tc_ratio_tip) / wingspan in  (* L627 *)
  let dTCF_dtaper_ratio := 0 in  (* L630 *)
  let dTCF_dcenter_chord_wing := 0 in  (* L631 *)
  let dTCF_dtc_ratio_root := 1 - 2 * (5 / 10 * fuselage_width + WID_GRX) / wingspan in  (* L632 *)
  let dTCF_dtc_ratio_tip := 2 * (5 / 10 * fuselage_width + WID_GRX) / wingspan in  (* L633 *)
  let dTCF_dSWF := - (tc_ratio_root - tc_ratio_tip) / wingspan in  (* L634 *)
  let dTCF_dwingspan := 2 * (5 / 10 * fuselage_width + WID_GRX) * (tc_ratio_root - tc_ratio_tip) / wingspan ^ 2 in  (* L635 *)
  let CFUEL := center_chort + 2 * (5 / 10 * fuselage_width + WID_GRX) * (taper_ratio - 1) * center_chort / wingspan in  (* L639 *)
  let dCFUEL_dcenter_chord_wing := 1 + 2 * (5 / 10 * fuselage_width + WID_GRX) * (taper_ratio - 1) / wingspan in  (* L643 *)
  let dCFUEL_dSWF := (taper_ratio - 1) * center_chort / wingspan in  (* L646 *)
  let dCFUEL_dloc_main_gear := 2 * dWID_GRX_dloc_main_gear * (taper_ratio - 1) / wingspan in  (* L647 *)
  let dCFUEL_dtaper_ratio := 2 * (5 / 10 * fuselage_width + WID_GRX) * center_chort / wingspan in  (* L648 *)
  let dCFUEL_dwingspan := - 2 * (5 / 10 * fuselage_width + WID_GRX) * (taper_ratio - 1) * center_chort / wingspan ^ 2
      in  (* L649 *)
  let SW_NFX := (5 / 10 * wingspan - (5 / 10 * fuselage_width + WID_GRX)) * (CFUEL + taper_ratio * center_chort) in  (* L657 *)
  let dSW_NFX_dcenter_chord_wing := (5 / 10 * wingspan - (5 / 10 * fuselage_width + WID_GRX)) *
      (dCFUEL_dcenter_chord_wing + taper_ratio) in  (* L660 *)
  let dSW_NFX_dSWF := - 5 / 10 * (CFUEL + taper_ratio * center_chort) + (5 / 10 * wingspan - (5 / 10 * fuselage_width
      + WID_GRX)) * dCFUEL_dSWF in  (* L663 *)
  let dSW_NFX_dloc_main_gear := - dWID_GRX_dloc_main_gear * (CFUEL + taper_ratio * center_chort) in  (* L667 *)
  let dSW_NFX_dtaper_ratio := (5 / 10 * wingspan - (5 / 10 * fuselage_width + WID_GRX)) * (dCFUEL_dtaper_ratio +
      center_chort) in  (* L668 *)
  let dSW_NFX_dwingspan := 5 / 10 * (CFUEL + taper_ratio * center_chort) + (5 / 10 * wingspan - (5 / 10 *
      fuselage_width + WID_GRX)) * dCFUEL_dwingspan in  (* L671 *)
  let SLM_NFX := taper_ratio * center_chort / CFUEL in  (* L676 *)
  let dtaper_ratio_NFX_dtaper_ratio := center_chort / CFUEL - taper_ratio * center_chort * dCFUEL_dtaper_ratio / CFUEL
      ^ 2 in  (* L677 *)
  let dtaper_ratio_NFX_dcenter_chord_wing := taper_ratio / CFUEL - taper_ratio * center_chort *
      dCFUEL_dcenter_chord_wing / CFUEL ^ 2 in  (* L680 *)
  let dtaper_ratio_NFX_dSWF := - taper_ratio * center_chort * dCFUEL_dSWF / CFUEL ^ 2 in  (* L683 *)
  let dtaper_ratio_NFX_dloc_main_gear := - taper_ratio * center_chort * dCFUEL_dloc_main_gear / CFUEL ^ 2 in  (* L684 *)
  let dtaper_ratio_NFX_dwingspan := - taper_ratio * center_chort * dCFUEL_dwingspan / CFUEL ^ 2 in  (* L687 *)
  let AR_NFX := (wingspan - fuselage_width - 2 * WID_GRX) ^ 2 / SW_NFX in  (* L689 *)
  let dAR_NFX_dtaper_ratio := - (wingspan - fuselage_width - 2 * WID_GRX) ^ 2 * dSW_NFX_dtaper_ratio / SW_NFX ^ 2 in  (* L690 *)
  let dAR_NFX_dcenter_chord_wing := - (wingspan - fuselage_width - 2 * WID_GRX) ^ 2 * dSW_NFX_dcenter_chord_wing /
      SW_NFX ^ 2 in  (* L693 *)
  let dAR_NFX_dSWF := - 2 * (wingspan - fuselage_width - 2 * WID_GRX) / SW_NFX - (wingspan - fuselage_width - 2 *
      WID_GRX) ^ 2 * dSW_NFX_dSWF / SW_NFX ^ 2 in  (* L698 *)
  let dAR_NFX_dloc_main_gear := - (wingspan - fuselage_width - 2 * WID_GRX) ^ 2 * dSW_NFX_dloc_main_gear / SW_NFX ^ 2
      in  (* L702 *)
  let dAR_NFX_dwingspan := 2 * (wingspan - fuselage_width - 2 * WID_GRX) / SW_NFX - (wingspan - fuselage_width - 2 *
      WID_GRX) ^ 2 * dSW_NFX_dwingspan / SW_NFX ^ 2 in  (* L705 *)
  let TCM := 5 / 10 * (TCF + tc_ratio_tip) in  (* L710 *)
  let dTCM_dloc_main_gear := 5 / 10 * dTCF_dloc_main_gear in  (* L711 *)
  let dTCM_dtaper_ratio := 5 / 10 * dTCF_dtaper_ratio in  (* L712 *)
  let dTCM_dcenter_chord_wing := 5 / 10 * dTCF_dcenter_chord_wing in  (* L713 *)
  let dTCM_dtc_ratio_root := 5 / 10 * dTCF_dtc_ratio_root in  (* L714 *)
  let dTCM_dtc_ratio_tip := 5 / 10 * dTCF_dtc_ratio_tip + 5 / 10 in  (* L715 *)
  let dTCM_dSWF := 5 / 10 * dTCF_dSWF in  (* L716 *)
  let dTCM_dwingspan := 5 / 10 * dTCF_dwingspan in  (* L717 *)
  let numer := fuel_vol_frac * (888889 / 1000000) * TCM * SW_NFX ** (15 / 10) * (2 * SLM_NFX + 1) in  (* L719 *)
  let dnumer_dfuel_vol_frac := 888889 / 1000000 * TCM * SW_NFX ** (15 / 10) * (2 * SLM_NFX + 1) in  (* L720 *)
  let dnumer_dloc_main_gear := fuel_vol_frac * (888889 / 1000000) * dTCM_dloc_main_gear * SW_NFX ** (15 / 10) * (2 *
      SLM_NFX + 1) + fuel_vol_frac * (888889 / 1000000) * TCM * (15 / 10) * dSW_NFX_dloc_main_gear * SW_NFX ** (5 /
      10) * (2 * SLM_NFX + 1) + fuel_vol_frac * (888889 / 1000000) * TCM * SW_NFX ** (15 / 10) * (2 *
      dtaper_ratio_NFX_dloc_main_gear) in  (* L721 *)
  let dnumer_dtaper_ratio := fuel_vol_frac * (888889 / 1000000) * dTCM_dtaper_ratio * SW_NFX ** (15 / 10) * (2 *
      SLM_NFX + 1) + fuel_vol_frac * (888889 / 1000000) * TCM * (15 / 10) * dSW_NFX_dtaper_ratio * SW_NFX ** (5 / 10)
      * (2 * SLM_NFX + 1) + fuel_vol_frac * (888889 / 1000000) * TCM * SW_NFX ** (15 / 10) * (2 *
      dtaper_ratio_NFX_dtaper_ratio) in  (* L732 *)
  let dnumer_dcenter_chord_wing := fuel_vol_frac * (888889 / 1000000) * dTCM_dcenter_chord_wing * SW_NFX ** (15 / 10)
      * (2 * SLM_NFX + 1) + fuel_vol_frac * (888889 / 1000000) * TCM * (15 / 10) * dSW_NFX_dcenter_chord_wing * SW_NFX
      ** (5 / 10) * (2 * SLM_NFX + 1) + fuel_vol_frac * (888889 / 1000000) * TCM * SW_NFX ** (15 / 10) * (2 *
      dtaper_ratio_NFX_dcenter_chord_wing) in  (* L743 *)
  let dnumer_dtc_ratio_root := fuel_vol_frac * (888889 / 1000000) * dTCM_dtc_ratio_root * SW_NFX ** (15 / 10) * (2 *
      SLM_NFX + 1) in  (* L758 *)
  let dnumer_dtc_ratio_tip := fuel_vol_frac * (888889 / 1000000) * dTCM_dtc_ratio_tip * SW_NFX ** (15 / 10) * (2 *
      SLM_NFX + 1) in  (* L761 *)
  let dnumer_dSWF := fuel_vol_frac * (888889 / 1000000) * dTCM_dSWF * SW_NFX ** (15 / 10) * (2 * SLM_NFX + 1) +
      fuel_vol_frac * (888889 / 1000000) * TCM * (15 / 10) * dSW_NFX_dSWF * SW_NFX ** (5 / 10) * (2 * SLM_NFX + 1) +
      fuel_vol_frac * (888889 / 1000000) * TCM * SW_NFX ** (15 / 10) * (2 * dtaper_ratio_NFX_dSWF) in  (* L764 *)
  let dnumer_dwingspan := fuel_vol_frac * (888889 / 1000000) * dTCM_dwingspan * SW_NFX ** (15 / 10) * (2 * SLM_NFX +
      1) + fuel_vol_frac * (888889 / 1000000) * TCM * (15 / 10) * dSW_NFX_dwingspan * SW_NFX ** (5 / 10) * (2 *
      SLM_NFX + 1) + fuel_vol_frac * (888889 / 1000000) * TCM * SW_NFX ** (15 / 10) * (2 * dtaper_ratio_NFX_dwingspan)
      in  (* L775 *)
  let denom := AR_NFX ** (5 / 10) * (SLM_NFX + 1) ^ 2 in  (* L787 *)
  let ddenom_dtaper_ratio := 5 / 10 * dAR_NFX_dtaper_ratio / AR_NFX ** (5 / 10) * (SLM_NFX + 1) ^ 2 + 2 * AR_NFX ** (5
      / 10) * dtaper_ratio_NFX_dtaper_ratio * (SLM_NFX + 1) in  (* L788 *)
  let ddenom_dcenter_chord_wing := 5 / 10 * dAR_NFX_dcenter_chord_wing / AR_NFX ** (5 / 10) * (SLM_NFX + 1) ^ 2 + 2 *
      AR_NFX ** (5 / 10) * dtaper_ratio_NFX_dcenter_chord_wing * (SLM_NFX + 1) in  (* L791 *)
  let ddenom_dSWF := 5 / 10 * dAR_NFX_dSWF / AR_NFX ** (5 / 10) * (SLM_NFX + 1) ^ 2 + 2 * AR_NFX ** (5 / 10) *
      dtaper_ratio_NFX_dSWF * (SLM_NFX + 1) in  (* L794 *)
  let ddenom_dloc_main_gear := 5 / 10 * dAR_NFX_dloc_main_gear / AR_NFX ** (5 / 10) * (SLM_NFX + 1) ^ 2 + 2 * AR_NFX
      ** (5 / 10) * dtaper_ratio_NFX_dloc_main_gear * (SLM_NFX + 1) in  (* L797 *)
  let ddenom_dwingspan := 5 / 10 * dAR_NFX_dwingspan / AR_NFX ** (5 / 10) * (SLM_NFX + 1) ^ 2 + 2 * AR_NFX ** (5 / 10)
      * dtaper_ratio_NFX_dwingspan * (SLM_NFX + 1) in  (* L800 *)
  let ddenom_dfuel_vol_frac := 0 in  (* L803 *)
  let ddenom_dtc_ratio_root := 0 in  (* L804 *)
  let ddenom_dtc_ratio_tip := 0 in  (* L805 *)
  let dFVOLW_GEOM_dfuel_vol_frac := (dnumer_dfuel_vol_frac * denom - numer * ddenom_dfuel_vol_frac) / denom ^ 2 in  (* L808 *)
  let dFVOLW_GEOM_dtc_ratio_root := (dnumer_dtc_ratio_root * denom - numer * ddenom_dtc_ratio_root) / denom ^ 2 in  (* L811 *)
  let dFVOLW_GEOM_dtc_ratio_tip := (dnumer_dtc_ratio_tip * denom - numer * ddenom_dtc_ratio_tip) / denom ^ 2 in  (* L814 *)
  let dFVOLW_GEOM_dloc_main_gear := (dnumer_dloc_main_gear * denom - numer * ddenom_dloc_main_gear) / denom ^ 2 in  (* L817 *)
  let dFVOLW_GEOM_dtaper_ratio := (dnumer_dtaper_ratio * denom - numer * ddenom_dtaper_ratio) / denom ^ 2 in  (* L820 *)
  let dFVOLW_GEOM_dcenter_chord_wing := (dnumer_dcenter_chord_wing * denom - numer * ddenom_dcenter_chord_wing) /
      denom ^ 2 in  (* L823 *)
  let dFVOLW_GEOM_dSWF := (dnumer_dSWF * denom - numer * ddenom_dSWF) / denom ^ 2 in  (* L826 *)
  let dFVOLW_GEOM_dwingspan := (dnumer_dwingspan * denom - numer * ddenom_dwingspan) / denom ^ 2 in  (* L827 *)
  let d_wing_volume_no_fold__Fuel_WING_FUEL_FRACTION := dFVOLW_GEOM_dfuel_vol_frac in  (* L830 *)
  let d_wing_volume_no_fold__LandingGear_MAIN_GEAR_LOCATION := dFVOLW_GEOM_dloc_main_gear in  (* L831 *)
  let d_wing_volume_no_fold__Wing_TAPER_RATIO := dFVOLW_GEOM_dtaper_ratio in  (* L834 *)
  let d_wing_volume_no_fold__Wing_CENTER_CHORD := dFVOLW_GEOM_dcenter_chord_wing in  (* L835 *)
  let d_wing_volume_no_fold__Wing_THICKNESS_TO_CHORD_ROOT := dFVOLW_GEOM_dtc_ratio_root in  (* L836 *)
  let d_wing_volume_no_fold__Wing_THICKNESS_TO_CHORD_TIP := dFVOLW_GEOM_dtc_ratio_tip in  (* L839 *)
  let d_wing_volume_no_fold__Fuselage_AVG_DIAMETER := dFVOLW_GEOM_dSWF in  (* L842 *)
  let d_wing_volume_no_fold__Wing_SPAN := dFVOLW_GEOM_dwingspan in  (* L843 *)
  [(v_wing_volume_no_fold, Aircraft_Fuel_WING_FUEL_FRACTION, d_wing_volume_no_fold__Fuel_WING_FUEL_FRACTION);
   (v_wing_volume_no_fold, Aircraft_LandingGear_MAIN_GEAR_LOCATION,
       d_wing_volume_no_fold__LandingGear_MAIN_GEAR_LOCATION);
   (v_wing_volume_no_fold, Aircraft_Wing_TAPER_RATIO, d_wing_volume_no_fold__Wing_TAPER_RATIO);
   (v_wing_volume_no_fold, Aircraft_Wing_CENTER_CHORD, d_wing_volume_no_fold__Wing_CENTER_CHORD);
   (v_wing_volume_no_fold, Aircraft_Wing_THICKNESS_TO_CHORD_ROOT,
       d_wing_volume_no_fold__Wing_THICKNESS_TO_CHORD_ROOT);
   (v_wing_volume_no_fold, Aircraft_Wing_THICKNESS_TO_CHORD_TIP, d_wing_volume_no_fold__Wing_THICKNESS_TO_CHORD_TIP);
   (v_wing_volume_no_fold, Aircraft_Fuselage_AVG_DIAMETER, d_wing_volume_no_fold__Fuselage_AVG_DIAMETER);
   (v_wing_volume_no_fold, Aircraft_Wing_SPAN, d_wing_volume_no_fold__Wing_SPAN)].

(** Inputs, outputs and declared partials: /repo/aviary/subsystems/geometry/gasp_based/wing.py L496-544 *)
Definition BWBWingVolumeFold (op : options) : comp := {|
  c_ins := [Aircraft_LandingGear_MAIN_GEAR_LOCATION;
            Aircraft_Wing_THICKNESS_TO_CHORD_ROOT;
            Aircraft_Wing_THICKNESS_TO_CHORD_TIP;
            Aircraft_Fuselage_AVG_DIAMETER;
            Aircraft_Wing_SPAN;
            Aircraft_Wing_CENTER_CHORD;
            Aircraft_Wing_TAPER_RATIO;
            Aircraft_Fuel_WING_FUEL_FRACTION];
  c_outs := [v_wing_volume_no_fold];
  c_decl := [(v_wing_volume_no_fold, Aircraft_LandingGear_MAIN_GEAR_LOCATION, 0);
             (v_wing_volume_no_fold, Aircraft_Wing_THICKNESS_TO_CHORD_ROOT, 0);
             (v_wing_volume_no_fold, Aircraft_Wing_THICKNESS_TO_CHORD_TIP, 0);
             (v_wing_volume_no_fold, Aircraft_Wing_SPAN, 0);
             (v_wing_volume_no_fold, Aircraft_Fuselage_AVG_DIAMETER, 0);
             (v_wing_volume_no_fold, Aircraft_Wing_CENTER_CHORD, 0);
             (v_wing_volume_no_fold, Aircraft_Wing_TAPER_RATIO, 0);
             (v_wing_volume_no_fold, Aircraft_Fuel_WING_FUEL_FRACTION, 0)];
  c_run := BWBWingVolumeFold_compute op; c_jac := BWBWingVolumeFold_partials op |}.

(** BWBWingVolume.compute, /repo/aviary/subsystems/geometry/gasp_based/wing.py L546-598 (one engine type or one node) *)
Definition BWBWingVolumeNoFold_compute (op : options) (e : env) : list (string * R) :=
  let smooth := ob op Aircraft_Design_SMOOTH_MASS_DISCONTINUITIES in  (* L549 *)
  let mu := on op v_mu in  (* L550 *)
  let taper_ratio := e Aircraft_Wing_TAPER_RATIO in  (* L552 *)
  let loc_main_gear := e Aircraft_LandingGear_MAIN_GEAR_LOCATION in  (* L553 *)
  let tc_ratio_root := e Aircraft_Wing_THICKNESS_TO_CHORD_ROOT in  (* L554 *)
  let tc_ratio_tip := e Aircraft_Wing_THICKNESS_TO_CHORD_TIP in  (* L555 *)
  let fuselage_width := e Aircraft_Fuselage_AVG_DIAMETER in  (* L556 *)
  let wingspan := e Aircraft_Wing_SPAN in  (* L557 *)
  let fuel_vol_frac := e Aircraft_Fuel_WING_FUEL_FRACTION in  (* L558 *)
  let center_chort := e Aircraft_Wing_CENTER_CHORD in  (* L559 *)
  let WID_GRX :=  (* L561 *)
    if smooth then
      let WID_GRX := 6 * sigmoidX1 loc_main_gear 0 mu in  (* L562 *)
      WID_GRX
    else
      let WID_GRX :=  (* L564 *)
        if ltb 0 loc_main_gear then
          let WID_GRX := 6 in  (* L565 *)
          WID_GRX
        else
          let WID_GRX := 0 in  (* L567 *)
          WID_GRX in
      WID_GRX in
  let CTIP := taper_ratio * center_chort in  (* L569 *)
  let TCF := tc_ratio_root - 2 * (5 / 10 * fuselage_width + WID_GRX) * (tc_ratio_root - tc_ratio_tip) / wingspan in  (* L570 *)
  let CFUEL := center_chort + 2 * (5 / 10 * fuselage_width + WID_GRX) * (CTIP - center_chort) / wingspan in  (* L574 *)
  let SW_NFX := (5 / 10 * wingspan - (5 / 10 * fuselage_width + WID_GRX)) * (CFUEL + CTIP) in  (* L580 *)
  let SLM_NFX := CTIP / CFUEL in  (* L584 *)
  let AR_NFX := (wingspan - fuselage_width - 2 * WID_GRX) ^ 2 / SW_NFX in  (* L585 *)
  let TCM := 5 / 10 * (TCF + tc_ratio_tip) in  (* L589 *)
  let numer := fuel_vol_frac * (888889 / 1000000) * TCM * SW_NFX ** (15 / 10) * (2 * SLM_NFX + 1) in  (* L592 *)
  let denom := AR_NFX ** (5 / 10) * (SLM_NFX + 1) ^ 2 in  (* L593 *)
  let FVOLW_GEOM := numer / denom in  (* L594 *)
  let o_Fuel_WING_VOLUME_GEOMETRIC_MAX := FVOLW_GEOM in  (* L598 *)
  [(Aircraft_Fuel_WING_VOLUME_GEOMETRIC_MAX, o_Fuel_WING_VOLUME_GEOMETRIC_MAX)].

(** BWBWingVolume.compute_partials, /repo/aviary/subsystems/geometry/gasp_based/wing.py L600-866 *)
Definition BWBWingVolumeNoFold_partials (op : options) (e : env) : list (string * string * R) :=
  let smooth := ob op Aircraft_Design_SMOOTH_MASS_DISCONTINUITIES in  (* L601 *)
  let mu := on op v_mu in  (* L602 *)
  let taper_ratio := e Aircraft_Wing_TAPER_RATIO in  (* L604 *)
  let loc_main_gear := e Aircraft_LandingGear_MAIN_GEAR_LOCATION in  (* L605 *)
  let tc_ratio_root := e Aircraft_Wing_THICKNESS_TO_CHORD_ROOT in  (* L606 *)
  let tc_ratio_tip := e Aircraft_Wing_THICKNESS_TO_CHORD_TIP in  (* L607 *)
  let fuselage_width := e Aircraft_Fuselage_AVG_DIAMETER in  (* L608 *)
  let wingspan := e Aircraft_Wing_SPAN in  (* L609 *)
  let fuel_vol_frac := e Aircraft_Fuel_WING_FUEL_FRACTION in  (* L610 *)
  let center_chort := e Aircraft_Wing_CENTER_CHORD in  (* L611 *)
  let '(WID_GRX, dWID_GRX_dloc_main_gear) :=  (* L613 *)
    if smooth then
      let WID_GRX := 6 * sigmoidX1 loc_main_gear 0 mu in  (* L614 *)
      let dWID_GRX_dloc_main_gear := dSigmoidX1 loc_main_gear 0 mu / mu in  (* L615 *)
      (WID_GRX, dWID_GRX_dloc_main_gear)
    else
      let WID_GRX :=  (* L617 *)
        if ltb 0 loc_main_gear then
          let WID_GRX := 6 in  (* L618 *)
          WID_GRX
        else
          let WID_GRX := 0 in  (* L620 *)
          WID_GRX in
      let dWID_GRX_dloc_main_gear := 0 in  (* L621 *)
      (WID_GRX, dWID_GRX_dloc_main_gear) in
  let TCF := tc_ratio_root - 2 * (5 / 10 * fuselage_width + WID_GRX) * (tc_ratio_root - tc_ratio_tip) / wingspan in  (* L623 *)
  let dTCF_dloc_main_gear := - 2 * dWID_GRX_dloc_main_gear * (tc_ratio_root - tc_ratio_tip) / wingspan in  (* L627 *)
  let dTCF_dtaper_ratio := 0 in  (* L630 *)
  let dTCF_dcenter_chord_wing := 0 in  (* L631 *)
  let dTCF_dtc_ratio_root := 1 - 2 * (5 / 10 * fuselage_width + WID_GRX) / wingspan in  (* L632 *)
  let dTCF_dtc_ratio_tip := 2 * (5 / 10 * fuselage_width + WID_GRX) / wingspan in  (* L633 *)
  let dTCF_dSWF := - (tc_ratio_root - tc_ratio_tip) / wingspan in  (* L634 *)
  let dTCF_dwingspan := 2 * (5 / 10 * fuselage_width + WID_GRX) * (tc_ratio_root - tc_ratio_tip) / wingspan ^ 2 in  (* L635 *)
  let CFUEL := center_chort + 2 * (5 / 10 * fuselage_width + WID_GRX) * (taper_ratio - 1) * center_chort / wingspan in  (* L639 *)
  let dCFUEL_dcenter_chord_wing := 1 + 2 * (5 / 10 * fuselage_width + WID_GRX) * (taper_ratio - 1) / wingspan in  (* L643 *)
  let dCFUEL_dSWF := (taper_ratio - 1) * center_chort / wingspan in  (* L646 *)
  let dCFUEL_dloc_main_gear := 2 * dWID_GRX_dloc_main_gear * (taper_ratio - 1) / wingspan in  (* L647 *)
  let dCFUEL_dtaper_ratio := 2 * (5 / 10 * fuselage_width + WID_GRX) * center_chort / wingspan in  (* L648 *)
  let dCFUEL_dwingspan := - 2 * (5 / 10 * fuselage_width + WID_GRX) * (taper_ratio - 1) * center_chort / wingspan ^ 2
      in  (* L649 *)
  let SW_NFX := (5 / 10 * wingspan - (5 / 10 * fuselage_width + WID_GRX)) * (CFUEL + taper_ratio * center_chort) in  (* L657 *)
  let dSW_NFX_dcenter_chord_wing := (5 / 10 * wingspan - (5 / 10 * fuselage_width + WID_GRX)) *
      (dCFUEL_dcenter_chord_wing + taper_ratio) in  (* L660 *)
  let dSW_NFX_dSWF := - 5 / 10 * (CFUEL + taper_ratio * center_chort) + (5 / 10 * wingspan - (5 / 10 * fuselage_width
      + WID_GRX)) * dCFUEL_dSWF in  (* L663 *)
  let dSW_NFX_dloc_main_gear := - dWID_GRX_dloc_main_gear * (CFUEL + taper_ratio * center_chort) in  (* L667 *)
  let dSW_NFX_dtaper_ratio := (5 / 10 * wingspan - (5 / 10 * fuselage_width + WID_GRX)) * (dCFUEL_dtaper_ratio +
      center_chort) in  (* L668 *)
  let dSW_NFX_dwingspan := 5 / 10 * (CFUEL + taper_ratio * center_chort) + (5 / 10 * wingspan - (5 / 10 *
      fuselage_width + WID_GRX)) * dCFUEL_dwingspan in  (* L671 *)
  let SLM_NFX := taper_ratio * center_chort / CFUEL in  (* L676 *)
  let dtaper_ratio_NFX_dtaper_ratio := center_chort / CFUEL - taper_ratio * center_chort * dCFUEL_dtaper_ratio / CFUEL
      ^ 2 in  (* L677 *)
  let dtaper_ratio_NFX_dcenter_chord_wing := taper_ratio / CFUEL - taper_ratio * center_chort *
      dCFUEL_dcenter_chord_wing / CFUEL ^ 2 in  (* L680 *)
  let dtaper_ratio_NFX_dSWF := - taper_ratio * center_chort * dCFUEL_dSWF / CFUEL ^ 2 in  (* L683 *)
  let dtaper_ratio_NFX_dloc_main_gear := - taper_ratio * center_chort * dCFUEL_dloc_main_gear / CFUEL ^ 2 in  (* L684 *)
  let dtaper_ratio_NFX_dwingspan := - taper_ratio * center_chort * dCFUEL_dwingspan / CFUEL ^ 2 in  (* L687 *)
  let AR_NFX := (wingspan - fuselage_width - 2 * WID_GRX) ^ 2 / SW_NFX in  (* L689 *)
  let dAR_NFX_dtaper_ratio := - (wingspan - fuselage_width - 2 * WID_GRX) ^ 2 * dSW_NFX_dtaper_ratio / SW_NFX ^ 2 in  (* L690 *)
  let dAR_NFX_dcenter_chord_wing := - (wingspan - fuselage_width - 2 * WID_GRX) ^ 2 * dSW_NFX_dcenter_chord_wing /
      SW_NFX ^ 2 in  (* L693 *)
  let dAR_NFX_dSWF := - 2 * (wingspan - fuselage_width - 2 * WID_GRX) / SW_NFX - (wingspan - fuselage_width - 2 *
      WID_GRX) ^ 2 * dSW_NFX_dSWF / SW_NFX ^ 2 in  (* L698 *)
  let dAR_NFX_dloc_main_gear := - (wingspan - fuselage_width - 2 * WID_GRX) ^ 2 * dSW_NFX_dloc_main_gear / SW_NFX ^ 2
      in  (* L702 *)
  let dAR_NFX_dwingspan := 2 * (wingspan - fuselage_width - 2 * WID_GRX) / SW_NFX - (wingspan - fuselage_width - 2 *
      WID_GRX) ^ 2 * dSW_NFX_dwingspan / SW_NFX ^ 2 in  (* L705 *)
  let TCM := 5 / 10 * (TCF + tc_ratio_tip) in  (* L710 *)
  let dTCM_dloc_main_gear := 5 / 10 * dTCF_dloc_main_gear in  (* L711 *)
  let dTCM_dtaper_ratio := 5 / 10 * dTCF_dtaper_ratio in  (* L712 *)
  let dTCM_dcenter_chord_wing := 5 / 10 * dTCF_dcenter_chord_wing in  (* L713 *)
  let dTCM_dtc_ratio_root := 5 / 10 * dTCF_dtc_ratio_root in  (* L714 *)
  let dTCM_dtc_ratio_tip := 5 / 10 * dTCF_dtc_ratio_tip + 5 / 10 in  (* L715 *)
  let dTCM_dSWF := 5 / 10 * dTCF_dSWF in  (* L716 *)
  let dTCM_dwingspan := 5 / 10 * dTCF_dwingspan in  (* L717 *)
  let numer := fuel_vol_frac * (888889 / 1000000) * TCM * SW_NFX ** (15 / 10) * (2 * SLM_NFX + 1) in  (* L719 *)
  let dnumer_dfuel_vol_frac := 888889 / 1000000 * TCM * SW_NFX ** (15 / 10) * (2 * SLM_NFX + 1) in  (* L720 *)
  let dnumer_dloc_main_gear := fuel_vol_frac * (888889 / 1000000) * dTCM_dloc_main_gear * SW_NFX ** (15 / 10) * (2 *
      SLM_NFX + 1) + fuel_vol_frac * (888889 / 1000000) * TCM * (15 / 10) * dSW_NFX_dloc_main_gear * SW_NFX ** (5 /
      10) * (2 * SLM_NFX + 1) + fuel_vol_frac * (888889 / 1000000) * TCM * SW_NFX ** (15 / 10) * (2 *
      dtaper_ratio_NFX_dloc_main_gear) in  (* L721 *)
  let dnumer_dtaper_ratio := fuel_vol_frac * (888889 / 1000000) * dTCM_dtaper_ratio * SW_NFX ** (15 / 10) * (2 *
      SLM_NFX + 1) + fuel_vol_frac * (888889 / 1000000) * TCM * (15 / 10) * dSW_NFX_dtaper_ratio * SW_NFX ** (5 / 10)
      * (2 * SLM_NFX + 1) + fuel_vol_frac * (888889 / 1000000) * TCM * SW_NFX ** (15 / 10) * (2 *
      dtaper_ratio_NFX_dtaper_ratio) in  (* L732 *)
  let dnumer_dcenter_chord_wing := fuel_vol_frac * (888889 / 1000000) * dTCM_dcenter_chord_wing * SW_NFX ** (15 / 10)
      * (2 * SLM_NFX + 1) + fuel_vol_frac * (888889 / 1000000) * TCM * (15 / 10) * dSW_NFX_dcenter_chord_wing * SW_NFX
      ** (5 / 10) * (2 * SLM_NFX + 1) + fuel_vol_frac * (888889 / 1000000) * TCM * SW_NFX ** (15 / 10) * (2 *
      dtaper_ratio_NFX_dcenter_chord_wing) in  (* L743 *)
  let dnumer_dtc_ratio_root := fuel_vol_frac * (888889 / 1000000) * dTCM_dtc_ratio_root * SW_NFX ** (15 / 10) * (2 *
      SLM_NFX + 1) in  (* L758 *)
  let dnumer_dtc_ratio_tip := fuel_vol_frac * (888889 / 1000000) * dTCM_dtc_ratio_tip * SW_NFX ** (15 / 10) * (2 *
      SLM_NFX + 1) in  (* L761 *)
  let dnumer_dSWF := fuel_vol_frac * (888889 / 1000000) * dTCM_dSWF * SW_NFX ** (15 / 10) * (2 * SLM_NFX + 1) +
      fuel_vol_frac * (888889 / 1000000) * TCM * (15 / 10) * dSW_NFX_dSWF * SW_NFX ** (5 / 10) * (2 * SLM_NFX + 1) +
      fuel_vol_frac * (888889 / 1000000) * TCM * SW_NFX ** (15 / 10) * (2 * dtaper_ratio_NFX_dSWF) in  (* L764 *)
  let dnumer_dwingspan := fuel_vol_frac * (888889 / 1000000) * dTCM_dwingspan * SW_NFX ** (15 / 10) * (2 * SLM_NFX +
      1) + fuel_vol_frac * (888889 / 1000000) * TCM * (15 / 10) * dSW_NFX_dwingspan * SW_NFX ** (5 / 10) * (2 *
      SLM_NFX + 1) + fuel_vol_frac * (888889 / 1000000) * TCM * SW_NFX ** (15 / 10) * (2 * dtaper_ratio_NFX_dwingspan)
      in  (* L775 *)
  let denom := AR_NFX ** (5 / 10) * (SLM_NFX + 1) ^ 2 in  (* L787 *)
  let ddenom_dtaper_ratio := 5 / 10 * dAR_NFX_dtaper_ratio / AR_NFX ** (5 / 10) * (SLM_NFX + 1) ^ 2 + 2 * AR_NFX ** (5
      / 10) * dtaper_ratio_NFX_dtaper_ratio * (SLM_NFX + 1) in  (* L788 *)
  let ddenom_dcenter_chord_wing := 5 / 10 * dAR_NFX_dcenter_chord_wing / AR_NFX ** (5 / 10) * (SLM_NFX + 1) ^ 2 + 2 *
      AR_NFX ** (5 / 10) * dtaper_ratio_NFX_dcenter_chord_wing * (SLM_NFX + 1) in  (* L791 *)
  let ddenom_dSWF := 5 / 10 * dAR_NFX_dSWF / AR_NFX ** (5 / 10) * (SLM_NFX + 1) ^ 2 + 2 * AR_NFX ** (5 / 10) *
      dtaper_ratio_NFX_dSWF * (SLM_NFX + 1) in  (* L794 *)
  let ddenom_dloc_main_gear := 5 / 10 * dAR_NFX_dloc_main_gear / AR_NFX ** (5 / 10) * (SLM_NFX + 1) ^ 2 + 2 * AR_NFX
      ** (5 / 10) * dtaper_ratio_NFX_dloc_main_gear * (SLM_NFX + 1) in  (* L797 *)
  let ddenom_dwingspan := 5 / 10 * dAR_NFX_dwingspan / AR_NFX ** (5 / 10) * (SLM_NFX + 1) ^ 2 + 2 * AR_NFX ** (5 / 10)
      * dtaper_ratio_NFX_dwingspan * (SLM_NFX + 1) in  (* L800 *)
  let ddenom_dfuel_vol_frac := 0 in  (* L803 *)
  let ddenom_dtc_ratio_root := 0 in  (* L804 *)
  let ddenom_dtc_ratio_tip := 0 in  (* L805 *)
  let dFVOLW_GEOM_dfuel_vol_frac := (dnumer_dfuel_vol_frac * denom - numer * ddenom_dfuel_vol_frac) / denom ^ 2 in  (* L808 *)
  let dFVOLW_GEOM_dtc_ratio_root := (dnumer_dtc_ratio_root * denom - numer * ddenom_dtc_ratio_root) / denom ^ 2 in  (* L811 *)
  let dFVOLW_GEOM_dtc_ratio_tip := (dnumer_dtc_ratio_tip * denom - numer * ddenom_dtc_ratio_tip) / denom ^ 2 in  (* L814 *)
  let dFVOLW_GEOM_dloc_main_gear := (dnumer_dloc_main_gear * denom - numer * ddenom_dloc_main_gear) / denom ^ 2 in  (* L817 *)
  let dFVOLW_GEOM_dtaper_ratio := (dnumer_dtaper_ratio * denom - numer * ddenom_dtaper_ratio) / denom ^ 2 in  (* L820 *)
  let dFVOLW_GEOM_dcenter_chord_wing := (dnumer_dcenter_chord_wing * denom - numer * ddenom_dcenter_chord_wing) /
      denom ^ 2 in  (* L823 *)
  let dFVOLW_GEOM_dSWF := (dnumer_dSWF * denom - numer * ddenom_dSWF) / denom ^ 2 in  (* L826 *)
  let dFVOLW_GEOM_dwingspan := (dnumer_dwingspan * denom - numer * ddenom_dwingspan) / denom ^ 2 in  (* L827 *)
  let d_Fuel_WING_VOLUME_GEOMETRIC_MAX__Fuel_WING_FUEL_FRACTION := dFVOLW_GEOM_dfuel_vol_frac in  (* L845 *)
  let d_Fuel_WING_VOLUME_GEOMETRIC_MAX__LandingGear_MAIN_GEAR_LOCATION := dFVOLW_GEOM_dloc_main_gear in  (* L848 *)
  let d_Fuel_WING_VOLUME_GEOMETRIC_MAX__Wing_TAPER_RATIO := dFVOLW_GEOM_dtaper_ratio in  (* L851 *)
  let d_Fuel_WING_VOLUME_GEOMETRIC_MAX__Wing_CENTER_CHORD := dFVOLW_GEOM_dcenter_chord_wing in  (* L854 *)
  let d_Fuel_WING_VOLUME_GEOMETRIC_MAX__Wing_THICKNESS_TO_CHORD_ROOT := dFVOLW_GEOM_dtc_ratio_root in  (* L857 *)
  let d_Fuel_WING_VOLUME_GEOMETRIC_MAX__Wing_THICKNESS_TO_CHORD_TIP := dFVOLW_GEOM_dtc_ratio_tip in  (* L860 *)
  let d_Fuel_WING_VOLUME_GEOMETRIC_MAX__Fuselage_AVG_DIAMETER := dFVOLW_GEOM_dSWF in  (* L863 *)
  let d_Fuel_WING_VOLUME_GEOMETRIC_MAX__Wing_SPAN := dFVOLW_GEOM_dwingspan in  (* L866 *)
  [(Aircraft_Fuel_WING_VOLUME_GEOMETRIC_MAX, Aircraft_Fuel_WING_FUEL_FRACTION,
      d_Fuel_WING_VOLUME_GEOMETRIC_MAX__Fuel_WING_FUEL_FRACTION);
   (Aircraft_Fuel_WING_VOLUME_GEOMETRIC_MAX, Aircraft_LandingGear_MAIN_GEAR_LOCATION,
       d_Fuel_WING_VOLUME_GEOMETRIC_MAX__LandingGear_MAIN_GEAR_LOCATION);
   (Aircraft_Fuel_WING_VOLUME_GEOMETRIC_MAX, Aircraft_Wing_TAPER_RATIO,
       d_Fuel_WING_VOLUME_GEOMETRIC_MAX__Wing_TAPER_RATIO);
   (Aircraft_Fuel_WING_VOLUME_GEOMETRIC_MAX, Aircraft_Wing_CENTER_CHORD,
       d_Fuel_WING_VOLUME_GEOMETRIC_MAX__Wing_CENTER_CHORD);
   (Aircraft_Fuel_WING_VOLUME_GEOMETRIC_MAX, Aircraft_Wing_THICKNESS_TO_CHORD_ROOT,
       d_Fuel_WING_VOLUME_GEOMETRIC_MAX__Wing_THICKNESS_TO_CHORD_ROOT);
   (Aircraft_Fuel_WING_VOLUME_GEOMETRIC_MAX, Aircraft_Wing_THICKNESS_TO_CHORD_TIP,
       d_Fuel_WING_VOLUME_GEOMETRIC_MAX__Wing_THICKNESS_TO_CHORD_TIP);
   (Aircraft_Fuel_WING_VOLUME_GEOMETRIC_MAX, Aircraft_Fuselage_AVG_DIAMETER,
       d_Fuel_WING_VOLUME_GEOMETRIC_MAX__Fuselage_AVG_DIAMETER);
   (Aircraft_Fuel_WING_VOLUME_GEOMETRIC_MAX, Aircraft_Wing_SPAN, d_Fuel_WING_VOLUME_GEOMETRIC_MAX__Wing_SPAN)].

(** Inputs, outputs and declared partials: /repo/aviary/subsystems/geometry/gasp_based/wing.py L496-544 *)
Definition BWBWingVolumeNoFold (op : options) : comp := {|
  c_ins := [Aircraft_LandingGear_MAIN_GEAR_LOCATION;
            Aircraft_Wing_THICKNESS_TO_CHORD_ROOT;
            Aircraft_Wing_THICKNESS_TO_CHORD_TIP;
            Aircraft_Fuselage_AVG_DIAMETER;
            Aircraft_Wing_SPAN;
            Aircraft_Wing_CENTER_CHORD;
            Aircraft_Wing_TAPER_RATIO;
            Aircraft_Fuel_WING_FUEL_FRACTION];
  c_outs := [Aircraft_Fuel_WING_VOLUME_GEOMETRIC_MAX];
  c_decl := [(Aircraft_Fuel_WING_VOLUME_GEOMETRIC_MAX, Aircraft_LandingGear_MAIN_GEAR_LOCATION, 0);
             (Aircraft_Fuel_WING_VOLUME_GEOMETRIC_MAX, Aircraft_Wing_THICKNESS_TO_CHORD_ROOT, 0);
             (Aircraft_Fuel_WING_VOLUME_GEOMETRIC_MAX, Aircraft_Wing_THICKNESS_TO_CHORD_TIP, 0);
             (Aircraft_Fuel_WING_VOLUME_GEOMETRIC_MAX, Aircraft_Wing_SPAN, 0);
             (Aircraft_Fuel_WING_VOLUME_GEOMETRIC_MAX, Aircraft_Fuselage_AVG_DIAMETER, 0);
             (Aircraft_Fuel_WING_VOLUME_GEOMETRIC_MAX, Aircraft_Wing_CENTER_CHORD, 0);
             (Aircraft_Fuel_WING_VOLUME_GEOMETRIC_MAX, Aircraft_Wing_TAPER_RATIO, 0);
             (Aircraft_Fuel_WING_VOLUME_GEOMETRIC_MAX, Aircraft_Fuel_WING_FUEL_FRACTION, 0)];
  c_run := BWBWingVolumeNoFold_compute op; c_jac := BWBWingVolumeNoFold_partials op |}.

(** WingFoldArea.compute, /repo/aviary/subsystems/geometry/gasp_based/wing.py L902-924 (one engine type or one node) *)
Definition WingFoldAreaStrut_compute (op : options) (e : env) : list (string * R) :=
  let wing_area := e Aircraft_Wing_AREA in  (* L903 *)
  let wingspan := e Aircraft_Wing_SPAN in  (* L904 *)
  let taper_ratio := e Aircraft_Wing_TAPER_RATIO in  (* L905 *)
  let strut_y := e v_strut_y in  (* L908 *)
  let location := strut_y in  (* L909 *)
  let root_chord_wing := 2 * wing_area / (wingspan * (1 + taper_ratio)) in  (* L914 *)
  let tip_chord := taper_ratio * root_chord_wing in  (* L915 *)
  let fold_chord := root_chord_wing + location * (tip_chord - root_chord_wing) / (wingspan / 2) in  (* L916 *)
  let folding_area := (wingspan / 2 - location) * (fold_chord + tip_chord) in  (* L917 *)
  let o_Wing_FOLDING_AREA := folding_area in  (* L924 *)
  [(Aircraft_Wing_FOLDING_AREA, o_Wing_FOLDING_AREA)].

(** WingFoldArea.compute_partials, /repo/aviary/subsystems/geometry/gasp_based/wing.py L926-986 *)
Definition WingFoldAreaStrut_partials (op : options) (e : env) : list (string * string * R) :=
  let wing_area := e Aircraft_Wing_AREA in  (* L927 *)
  let wingspan := e Aircraft_Wing_SPAN in  (* L928 *)
  let taper_ratio := e Aircraft_Wing_TAPER_RATIO in  (* L929 *)
  let strut_y := e v_strut_y in  (* L932 *)
  let location := strut_y in  (* L933 *)
  let dLoc_dWingspan := 0 in  (* L934 *)
  let dLoc_dy := 1 in  (* L935 *)
  let root_chord_wing := 2 * wing_area / (wingspan * (1 + taper_ratio)) in  (* L946 *)
  let tip_chord := taper_ratio * root_chord_wing in  (* L947 *)
  let fold_chord := root_chord_wing + location * (tip_chord - root_chord_wing) / (wingspan / 2) in  (* L948 *)
  let dRootChordWing_dWingArea := 2 / (wingspan * (1 + taper_ratio)) in  (* L950 *)
  let dRootChordWing_dWingspan := - 2 * wing_area / (wingspan ^ 2 * (1 + taper_ratio)) in  (* L951 *)
  let dRootChordWing_dTaperRatio := - 2 * wing_area / (wingspan * (1 + taper_ratio) ^ 2) in  (* L952 *)
  let dTipChord_dTaperRatio := taper_ratio * dRootChordWing_dTaperRatio + root_chord_wing in  (* L954 *)
  let dTipChord_dWingArea := taper_ratio * dRootChordWing_dWingArea in  (* L955 *)
  let dTipChord_dWingspan := taper_ratio * dRootChordWing_dWingspan in  (* L956 *)
  let dFoldChord_dWingArea := dRootChordWing_dWingArea + location * (dTipChord_dWingArea - dRootChordWing_dWingArea) /
      (wingspan / 2) in  (* L958 *)
  let dFoldChord_dWingspan := dRootChordWing_dWingspan + location * (wingspan / 2 * (dTipChord_dWingspan -
      dRootChordWing_dWingspan) - (tip_chord - root_chord_wing) * (1 / 2)) / (wingspan / 2) ^ 2 + dLoc_dWingspan *
      (tip_chord - root_chord_wing) / (wingspan / 2) in  (* L961 *)
  let dFoldChord_dTaperRatio := dRootChordWing_dTaperRatio + location * (dTipChord_dTaperRatio -
      dRootChordWing_dTaperRatio) / (wingspan / 2) in  (* L971 *)
  let d_Wing_FOLDING_AREA__Wing_AREA := (wingspan / 2 - location) * (dFoldChord_dWingArea + dTipChord_dWingArea) in  (* L975 *)
  let d_Wing_FOLDING_AREA__Wing_SPAN := (wingspan / 2 - location) * (dFoldChord_dWingspan + dTipChord_dWingspan) +
      (fold_chord + tip_chord) * (5 / 10 - dLoc_dWingspan) in  (* L978 *)
  let d_Wing_FOLDING_AREA__Wing_TAPER_RATIO := (wingspan / 2 - location) * (dFoldChord_dTaperRatio +
      dTipChord_dTaperRatio) in  (* L981 *)
  let d_Wing_FOLDING_AREA__strut_y := - dLoc_dy * (fold_chord + tip_chord) + (wingspan / 2 - location) * dLoc_dy *
      (tip_chord - root_chord_wing) / (wingspan / 2) in  (* L984 *)
  [(Aircraft_Wing_FOLDING_AREA, Aircraft_Wing_AREA, d_Wing_FOLDING_AREA__Wing_AREA);
   (Aircraft_Wing_FOLDING_AREA, Aircraft_Wing_SPAN, d_Wing_FOLDING_AREA__Wing_SPAN);
   (Aircraft_Wing_FOLDING_AREA, Aircraft_Wing_TAPER_RATIO, d_Wing_FOLDING_AREA__Wing_TAPER_RATIO);
   (Aircraft_Wing_FOLDING_AREA, v_strut_y, d_Wing_FOLDING_AREA__strut_y)].

(** Inputs, outputs and declared partials: /repo/aviary/subsystems/geometry/gasp_based/wing.py L877-900 *)
Definition WingFoldAreaStrut (op : options) : comp := {|
  c_ins := [v_strut_y;
            Aircraft_Wing_AREA;
            Aircraft_Wing_SPAN;
            Aircraft_Wing_TAPER_RATIO];
  c_outs := [Aircraft_Wing_FOLDING_AREA];
  c_decl := [(Aircraft_Wing_FOLDING_AREA, v_strut_y, 0);
             (Aircraft_Wing_FOLDING_AREA, Aircraft_Wing_SPAN, 0);
             (Aircraft_Wing_FOLDING_AREA, Aircraft_Wing_AREA, 0);
             (Aircraft_Wing_FOLDING_AREA, Aircraft_Wing_TAPER_RATIO, 0)];
  c_run := WingFoldAreaStrut_compute op; c_jac := WingFoldAreaStrut_partials op |}.

(** WingFoldArea.compute, /repo/aviary/subsystems/geometry/gasp_based/wing.py L902-924 (one engine type or one node) *)
Definition WingFoldAreaChosen_compute (op : options) (e : env) : list (string * R) :=
  let wing_area := e Aircraft_Wing_AREA in  (* L903 *)
  let wingspan := e Aircraft_Wing_SPAN in  (* L904 *)
  let taper_ratio := e Aircraft_Wing_TAPER_RATIO in  (* L905 *)
  let fold_y := e Aircraft_Wing_FOLDED_SPAN in  (* L911 *)
  let location := fold_y / 2 in  (* L912 *)
  let root_chord_wing := 2 * wing_area / (wingspan * (1 + taper_ratio)) in  (* L914 *)
  let tip_chord := taper_ratio * root_chord_wing in  (* L915 *)
  let fold_chord := root_chord_wing + location * (tip_chord - root_chord_wing) / (wingspan / 2) in  (* L916 *)
  let folding_area := (wingspan / 2 - location) * (fold_chord + tip_chord) in  (* L917 *)
  let o_Wing_FOLDING_AREA := folding_area in  (* L924 *)
  [(Aircraft_Wing_FOLDING_AREA, o_Wing_FOLDING_AREA)].

(** WingFoldArea.compute_partials, /repo/aviary/subsystems/geometry/gasp_based/wing.py L926-986 *)
Definition WingFoldAreaChosen_partials (op : options) (e : env) : list (string * string * R) :=
  let wing_area := e Aircraft_Wing_AREA in  (* L927 *)
  let wingspan := e Aircraft_Wing_SPAN in  (* L928 *)
  let taper_ratio := e Aircraft_Wing_TAPER_RATIO in  (* L929 *)
  let fold_y := e Aircraft_Wing_FOLDED_SPAN in  (* L939 *)
  let location := fold_y / 2 in  (* L942 *)
  let dLoc_dWingspan := 0 in  (* L943 *)
  let dLoc_dy := 1 / 2 in  (* L944 *)
  let root_chord_wing := 2 * wing_area / (wingspan * (1 + taper_ratio)) in  (* L946 *)
  let tip_chord := taper_ratio * root_chord_wing in  (* L947 *)
  let fold_chord := root_chord_wing + location * (tip_chord - root_chord_wing) / (wingspan / 2) in  (* L948 *)
  let dRootChordWing_dWingArea := 2 / (wingspan * (1 + taper_ratio)) in  (* L950 *)
  let dRootChordWing_dWingspan := - 2 * wing_area / (wingspan ^ 2 * (1 + taper_ratio)) in  (* L951 *)
  let dRootChordWing_dTaperRatio := - 2 * wing_area / (wingspan * (1 + taper_ratio) ^ 2) in  (* L952 *)
  let dTipChord_dTaperRatio := taper_ratio * dRootChordWing_dTaperRatio + root_chord_wing in  (* L954 *)
  let dTipChord_dWingArea := taper_ratio * dRootChordWing_dWingArea in  (* L955 *)
  let dTipChord_dWingspan := taper_ratio * dRootChordWing_dWingspan in  (* L956 *)
  let dFoldChord_dWingArea := dRootChordWing_dWingArea + location * (dTipChord_dWingArea - dRootChordWing_dWingArea) /
      (wingspan / 2) in  (* L958 *)
  let dFoldChord_dWingspan := dRootChordWing_dWingspan + location * (wingspan / 2 * (dTipChord_dWingspan -
      dRootChordWing_dWingspan) - (tip_chord - root_chord_wing) * (1 / 2)) / (wingspan / 2) ^ 2 + dLoc_dWingspan *
      (tip_chord - root_chord_wing) / (wingspan / 2) in  (* L961 *)
  let dFoldChord_dTaperRatio := dRootChordWing_dTaperRatio + location * (dTipChord_dTaperRatio -
      dRootChordWing_dTaperRatio) / (wingspan / 2) in  (* L971 *)
  let d_Wing_FOLDING_AREA__Wing_AREA := (wingspan / 2 - location) * (dFoldChord_dWingArea + dTipChord_dWingArea) in  (* L975 *)
  let d_Wing_FOLDING_AREA__Wing_SPAN := (wingspan / 2 - location) * (dFoldChord_dWingspan + dTipChord_dWingspan) +
      (fold_chord + tip_chord) * (5 / 10 - dLoc_dWingspan) in  (* L978 *)
  let d_Wing_FOLDING_AREA__Wing_TAPER_RATIO := (wingspan / 2 - location) * (dFoldChord_dTaperRatio +
      dTipChord_dTaperRatio) in  (* L981 *)
  let d_Wing_FOLDING_AREA__Wing_FOLDED_SPAN := - dLoc_dy * (fold_chord + tip_chord) + (wingspan / 2 - location) *
      dLoc_dy * (tip_chord - root_chord_wing) / (wingspan / 2) in  (* L984 *)
  [(Aircraft_Wing_FOLDING_AREA, Aircraft_Wing_AREA, d_Wing_FOLDING_AREA__Wing_AREA);
   (Aircraft_Wing_FOLDING_AREA, Aircraft_Wing_SPAN, d_Wing_FOLDING_AREA__Wing_SPAN);
   (Aircraft_Wing_FOLDING_AREA, Aircraft_Wing_TAPER_RATIO, d_Wing_FOLDING_AREA__Wing_TAPER_RATIO);
   (Aircraft_Wing_FOLDING_AREA, Aircraft_Wing_FOLDED_SPAN, d_Wing_FOLDING_AREA__Wing_FOLDED_SPAN)].

(** Inputs, outputs and declared partials: /repo/aviary/subsystems/geometry/gasp_based/wing.py L877-900 *)
Definition WingFoldAreaChosen (op : options) : comp := {|
  c_ins := [Aircraft_Wing_FOLDED_SPAN;
            Aircraft_Wing_AREA;
            Aircraft_Wing_SPAN;
            Aircraft_Wing_TAPER_RATIO];
  c_outs := [Aircraft_Wing_FOLDING_AREA];
  c_decl := [(Aircraft_Wing_FOLDING_AREA, Aircraft_Wing_FOLDED_SPAN, 0);
             (Aircraft_Wing_FOLDING_AREA, Aircraft_Wing_SPAN, 0);
             (Aircraft_Wing_FOLDING_AREA, Aircraft_Wing_AREA, 0);
             (Aircraft_Wing_FOLDING_AREA, Aircraft_Wing_TAPER_RATIO, 0)];
  c_run := WingFoldAreaChosen_compute op; c_jac := WingFoldAreaChosen_partials op |}.

(** WingFoldVolume.compute, /repo/aviary/subsystems/geometry/gasp_based/wing.py L1103-1141 (one engine type or one node) *)
Definition WingFoldVolumeStrut_compute (op : options) (e : env) : list (string * R) :=
  let wing_area := e Aircraft_Wing_AREA in  (* L1104 *)
  let wingspan := e Aircraft_Wing_SPAN in  (* L1105 *)
  let taper_ratio := e Aircraft_Wing_TAPER_RATIO in  (* L1106 *)
  let tc_ratio_root := e Aircraft_Wing_THICKNESS_TO_CHORD_ROOT in  (* L1107 *)
  let tc_ratio_tip := e Aircraft_Wing_THICKNESS_TO_CHORD_TIP in  (* L1108 *)
  let fuel_vol_frac := e Aircraft_Fuel_WING_FUEL_FRACTION in  (* L1109 *)
  let folding_area := e Aircraft_Wing_FOLDING_AREA in  (* L1110 *)
  let strut_y := e v_strut_y in  (* L1113 *)
  let location := strut_y in  (* L1114 *)
  let root_chord_wing := 2 * wing_area / (wingspan * (1 + taper_ratio)) in  (* L1120 *)
  let tip_chord := taper_ratio * root_chord_wing in  (* L1121 *)
  let fold_chord := root_chord_wing + location * (tip_chord - root_chord_wing) / (wingspan / 2) in  (* L1122 *)
  let nonfolded_taper_ratio := fold_chord / root_chord_wing in  (* L1123 *)
  let nonfolded_wing_area := wing_area - folding_area in  (* L1124 *)
  let tc_ratio_fold := tc_ratio_root + location * (tc_ratio_tip - tc_ratio_root) / (wingspan / 2) in  (* L1126 *)
  let tc_ratio_mean_folded := 5 / 10 * (tc_ratio_root + tc_ratio_fold) in  (* L1127 *)
  let nonfolded_AR := 4 * location ^ 2 / nonfolded_wing_area in  (* L1128 *)
  let geometric_fuel_vol := fuel_vol_frac * (888889 / 1000000) * tc_ratio_mean_folded * nonfolded_wing_area ** (15 /
      10) * (2 * nonfolded_taper_ratio + 1) / (nonfolded_AR ** (5 / 10) * (nonfolded_taper_ratio + 1) ^ 2) in  (* L1129 *)
  let o_nonfolded_taper_ratio := nonfolded_taper_ratio in  (* L1137 *)
  let o_nonfolded_wing_area := nonfolded_wing_area in  (* L1138 *)
  let o_tc_ratio_mean_folded := tc_ratio_mean_folded in  (* L1139 *)
  let o_nonfolded_AR := nonfolded_AR in  (* L1140 *)
  let o_Fuel_WING_VOLUME_GEOMETRIC_MAX := geometric_fuel_vol in  (* L1141 *)
  [(v_nonfolded_taper_ratio, o_nonfolded_taper_ratio);
   (v_nonfolded_wing_area, o_nonfolded_wing_area);
   (v_tc_ratio_mean_folded, o_tc_ratio_mean_folded);
   (v_nonfolded_AR, o_nonfolded_AR);
   (Aircraft_Fuel_WING_VOLUME_GEOMETRIC_MAX, o_Fuel_WING_VOLUME_GEOMETRIC_MAX)].

(** WingFoldVolume.compute_partials, /repo/aviary/subsystems/geometry/gasp_based/wing.py L1143-1362 *)
Definition WingFoldVolumeStrut_partials (op : options) (e : env) : list (string * string * R) :=
  let wing_area := e Aircraft_Wing_AREA in  (* L1144 *)
  let wingspan := e Aircraft_Wing_SPAN in  (* L1145 *)
  let taper_ratio := e Aircraft_Wing_TAPER_RATIO in  (* L1146 *)
  let tc_ratio_root := e Aircraft_Wing_THICKNESS_TO_CHORD_ROOT in  (* L1147 *)
  let tc_ratio_tip := e Aircraft_Wing_THICKNESS_TO_CHORD_TIP in  (* L1148 *)
  let fuel_vol_frac := e Aircraft_Fuel_WING_FUEL_FRACTION in  (* L1149 *)
  let folding_area := e Aircraft_Wing_FOLDING_AREA in  (* L1150 *)
  let strut_y := e v_strut_y in  (* L1153 *)
  let location := strut_y in  (* L1154 *)
  let dLoc_dWingspan := 0 in  (* L1155 *)
  let dLoc_dy := 1 in  (* L1156 *)
  let root_chord_wing := 2 * wing_area / (wingspan * (1 + taper_ratio)) in  (* L1167 *)
  let dRootChordWing_dWingArea := 2 / (wingspan * (1 + taper_ratio)) in  (* L1168 *)
  let dRootChordWing_dWingspan := - 2 * wing_area / (wingspan ^ 2 * (1 + taper_ratio)) in  (* L1169 *)
  let dRootChordWing_dTaperRatio := - 2 * wing_area / (wingspan * (1 + taper_ratio) ^ 2) in  (* L1170 *)
  let tip_chord := taper_ratio * root_chord_wing in  (* L1172 *)
  let dTipChord_dTaperRatio := taper_ratio * dRootChordWing_dTaperRatio + root_chord_wing in  (* L1173 *)
  let dTipChord_dWingArea := taper_ratio * dRootChordWing_dWingArea in  (* L1174 *)
  let dTipChord_dWingspan := taper_ratio * dRootChordWing_dWingspan in  (* L1175 *)
  let fold_chord := root_chord_wing + location * (tip_chord - root_chord_wing) / (wingspan / 2) in  (* L1177 *)
  let dFoldChord_dWingArea := dRootChordWing_dWingArea + location * (dTipChord_dWingArea - dRootChordWing_dWingArea) /
      (wingspan / 2) in  (* L1178 *)
  let dFoldChord_dWingspan := dRootChordWing_dWingspan + location * (wingspan / 2 * (dTipChord_dWingspan -
      dRootChordWing_dWingspan) - (tip_chord - root_chord_wing) * (1 / 2)) / (wingspan / 2) ^ 2 + dLoc_dWingspan *
      (tip_chord - root_chord_wing) / (wingspan / 2) in  (* L1181 *)
  let dFoldChord_dTaperRatio := dRootChordWing_dTaperRatio + location * (dTipChord_dTaperRatio -
      dRootChordWing_dTaperRatio) / (wingspan / 2) in  (* L1191 *)
  let dFoldChord_dy := dLoc_dy * (tip_chord - root_chord_wing) / (wingspan / 2) in  (* L1194 *)
  let nonfolded_taper_ratio := fold_chord / root_chord_wing in  (* L1196 *)
  let dNFTR_dWingArea := (root_chord_wing * dFoldChord_dWingArea - fold_chord * dRootChordWing_dWingArea) /
      root_chord_wing ^ 2 in  (* L1197 *)
  let dNFTR_dWingspan := (root_chord_wing * dFoldChord_dWingspan - fold_chord * dRootChordWing_dWingspan) /
      root_chord_wing ^ 2 in  (* L1200 *)
  let dNFTR_dTaperRatio := (root_chord_wing * dFoldChord_dTaperRatio - fold_chord * dRootChordWing_dTaperRatio) /
      root_chord_wing ^ 2 in  (* L1203 *)
  let dNFTR_dy := dFoldChord_dy / root_chord_wing in  (* L1206 *)
  let d_nonfolded_taper_ratio__Wing_AREA := dNFTR_dWingArea in  (* L1208 *)
  let d_nonfolded_taper_ratio__Wing_SPAN := dNFTR_dWingspan in  (* L1209 *)
  let d_nonfolded_taper_ratio__Wing_TAPER_RATIO := dNFTR_dTaperRatio in  (* L1210 *)
  let d_nonfolded_taper_ratio__strut_y := dNFTR_dy in  (* L1211 *)
  let nonfolded_wing_area := wing_area - folding_area in  (* L1213 *)
  let dNFWA_dWingArea := 1 in  (* L1214 *)
  let dNFWA_dWingFoldArea := - 1 in  (* L1215 *)
  let d_nonfolded_wing_area__Wing_AREA := dNFWA_dWingArea in  (* L1216 *)
  let d_nonfolded_wing_area__Wing_FOLDING_AREA := dNFWA_dWingFoldArea in  (* L1217 *)
  let tc_ratio_fold := tc_ratio_root + location * (tc_ratio_tip - tc_ratio_root) / (wingspan / 2) in  (* L1219 *)
  let dtc_ratio_rootatioFold_dtc_ratio_root := 1 + location * - 1 / (wingspan / 2) in  (* L1220 *)
  let dtc_ratio_rootatioFold_dtc_ratio_tip := location / (wingspan / 2) in  (* L1221 *)
  let dtc_ratio_rootatioFold_dWingspan := (tc_ratio_tip - tc_ratio_root) * (wingspan / 2 * dLoc_dWingspan - location *
      (5 / 10)) / (wingspan / 2) ^ 2 in  (* L1222 *)
  let dtc_ratio_rootatioFold_dy := dLoc_dy * (tc_ratio_tip - tc_ratio_root) / (wingspan / 2) in  (* L1227 *)
  let tc_ratio_mean_folded := 5 / 10 * (tc_ratio_root + tc_ratio_fold) in  (* L1229 *)
  let dtc_ratio_rootMeanFolded_dtc_ratio_root := 5 / 10 * (1 + dtc_ratio_rootatioFold_dtc_ratio_root) in  (* L1230 *)
  let dtc_ratio_rootMeanFolded_dtc_ratio_tip := 5 / 10 * dtc_ratio_rootatioFold_dtc_ratio_tip in  (* L1231 *)
  let dtc_ratio_rootMeanFolded_dWingspan := 5 / 10 * dtc_ratio_rootatioFold_dWingspan in  (* L1232 *)
  let dtc_ratio_rootMeanFolded_dy := 5 / 10 * dtc_ratio_rootatioFold_dy in  (* L1233 *)
  let d_tc_ratio_mean_folded__Wing_THICKNESS_TO_CHORD_ROOT := dtc_ratio_rootMeanFolded_dtc_ratio_root in  (* L1235 *)
  let d_tc_ratio_mean_folded__Wing_THICKNESS_TO_CHORD_TIP := dtc_ratio_rootMeanFolded_dtc_ratio_tip in  (* L1238 *)
  let d_tc_ratio_mean_folded__Wing_SPAN := dtc_ratio_rootMeanFolded_dWingspan in  (* L1241 *)
  let d_tc_ratio_mean_folded__strut_y := dtc_ratio_rootMeanFolded_dy in  (* L1242 *)
  let nonfolded_AR := 4 * location ^ 2 / nonfolded_wing_area in  (* L1244 *)
  let dNFAR_dWingArea := - 4 * location ^ 2 / nonfolded_wing_area ^ 2 in  (* L1245 *)
  let dNFAR_dWingFoldArea := 4 * location ^ 2 / nonfolded_wing_area ^ 2 in  (* L1246 *)
  let dNFAR_dWingspan := 4 * (2 * location * dLoc_dWingspan) / nonfolded_wing_area in  (* L1247 *)
  let dNFAR_dTaperRatio := 0 in  (* L1248 *)
  let dNFAR_dy := 4 * (2 * location * dLoc_dy) / nonfolded_wing_area in  (* L1249 *)
  let d_nonfolded_AR__Wing_AREA := dNFAR_dWingArea in  (* L1251 *)
  let d_nonfolded_AR__Wing_FOLDING_AREA := dNFAR_dWingFoldArea in  (* L1252 *)
  let d_nonfolded_AR__Wing_SPAN := dNFAR_dWingspan in  (* L1253 *)
  let d_nonfolded_AR__strut_y := dNFAR_dy in  (* L1254 *)
  let a := nonfolded_wing_area ** (15 / 10) * (2 * nonfolded_taper_ratio + 1) in  (* L1256 *)
  let dA_dWingspan := nonfolded_wing_area ** (15 / 10) * 2 * dNFTR_dWingspan in  (* L1257 *)
  let dA_dy := nonfolded_wing_area ** (15 / 10) * 2 * dNFTR_dy in  (* L1258 *)
  let num := fuel_vol_frac * (888889 / 1000000) * tc_ratio_mean_folded * a in  (* L1260 *)
  let dNum_dWingspan := fuel_vol_frac * (888889 / 1000000) * dtc_ratio_rootMeanFolded_dWingspan * a + fuel_vol_frac *
      (888889 / 1000000) * tc_ratio_mean_folded * dA_dWingspan in  (* L1261 *)
  let dNum_dy := fuel_vol_frac * (888889 / 1000000) * dtc_ratio_rootMeanFolded_dy * a + fuel_vol_frac * (888889 /
      1000000) * tc_ratio_mean_folded * dA_dy in  (* L1265 *)
  let dNum_dWingArea := fuel_vol_frac * (888889 / 1000000) * tc_ratio_mean_folded * (15 / 10) * nonfolded_wing_area **
      (5 / 10) * dNFWA_dWingArea * (2 * nonfolded_taper_ratio + 1) + fuel_vol_frac * (888889 / 1000000) *
      tc_ratio_mean_folded * nonfolded_wing_area ** (15 / 10) * 2 * dNFTR_dWingArea in  (* L1269 *)
  let dNum_dWingFoldArea := fuel_vol_frac * (888889 / 1000000) * tc_ratio_mean_folded * (15 / 10) *
      nonfolded_wing_area ** (5 / 10) * dNFWA_dWingFoldArea * (2 * nonfolded_taper_ratio + 1) in  (* L1280 *)
  let dNum_dTaperRatio := fuel_vol_frac * (888889 / 1000000) * tc_ratio_mean_folded * nonfolded_wing_area ** (15 / 10)
      * 2 * dNFTR_dTaperRatio in  (* L1290 *)
  let den := nonfolded_AR ** (5 / 10) * (nonfolded_taper_ratio + 1) ^ 2 in  (* L1294 *)
  let dDen_dWingspan := 5 / 10 * nonfolded_AR ** (- 5 / 10) * dNFAR_dWingspan * (nonfolded_taper_ratio + 1) ^ 2 +
      nonfolded_AR ** (5 / 10) * 2 * (nonfolded_taper_ratio + 1) * dNFTR_dWingspan in  (* L1296 *)
  let dDen_dy := 5 / 10 * nonfolded_AR ** (- 5 / 10) * dNFAR_dy * (nonfolded_taper_ratio + 1) ^ 2 + nonfolded_AR ** (5
      / 10) * 2 * (nonfolded_taper_ratio + 1) * dNFTR_dy in  (* L1303 *)
  let dDen_dWingArea := 5 / 10 * nonfolded_AR ** (- 5 / 10) * dNFAR_dWingArea * (nonfolded_taper_ratio + 1) ^ 2 +
      nonfolded_AR ** (5 / 10) * 2 * (nonfolded_taper_ratio + 1) * dNFTR_dWingArea in  (* L1307 *)
  let dDen_dWingFoldArea := 5 / 10 * nonfolded_AR ** (- 5 / 10) * dNFAR_dWingFoldArea * (nonfolded_taper_ratio + 1) ^
      2 in  (* L1314 *)
  let dDen_dTaperRatio := 5 / 10 * nonfolded_AR ** (- 5 / 10) * dNFAR_dTaperRatio * (nonfolded_taper_ratio + 1) ^ 2 +
      nonfolded_AR ** (5 / 10) * 2 * (nonfolded_taper_ratio + 1) * dNFTR_dTaperRatio in  (* L1320 *)
  let d_Fuel_WING_VOLUME_GEOMETRIC_MAX__Fuel_WING_FUEL_FRACTION := 888889 / 1000000 * tc_ratio_mean_folded *
      nonfolded_wing_area ** (15 / 10) * (2 * nonfolded_taper_ratio + 1) / (nonfolded_AR ** (5 / 10) *
      (nonfolded_taper_ratio + 1) ^ 2) in  (* L1328 *)
  let d_Fuel_WING_VOLUME_GEOMETRIC_MAX__Wing_THICKNESS_TO_CHORD_ROOT := fuel_vol_frac * (888889 / 1000000) *
      dtc_ratio_rootMeanFolded_dtc_ratio_root * nonfolded_wing_area ** (15 / 10) * (2 * nonfolded_taper_ratio + 1) /
      (nonfolded_AR ** (5 / 10) * (nonfolded_taper_ratio + 1) ^ 2) in  (* L1334 *)
  let d_Fuel_WING_VOLUME_GEOMETRIC_MAX__Wing_THICKNESS_TO_CHORD_TIP := fuel_vol_frac * (888889 / 1000000) *
      dtc_ratio_rootMeanFolded_dtc_ratio_tip * nonfolded_wing_area ** (15 / 10) * (2 * nonfolded_taper_ratio + 1) /
      (nonfolded_AR ** (5 / 10) * (nonfolded_taper_ratio + 1) ^ 2) in  (* L1341 *)
  let d_Fuel_WING_VOLUME_GEOMETRIC_MAX__Wing_SPAN := (den * dNum_dWingspan - num * dDen_dWingspan) / den ^ 2 in  (* L1348 *)
  let d_Fuel_WING_VOLUME_GEOMETRIC_MAX__Wing_AREA := (den * dNum_dWingArea - num * dDen_dWingArea) / den ^ 2 in  (* L1351 *)
  let d_Fuel_WING_VOLUME_GEOMETRIC_MAX__Wing_FOLDING_AREA := (den * dNum_dWingFoldArea - num * dDen_dWingFoldArea) /
      den ^ 2 in  (* L1355 *)
  let d_Fuel_WING_VOLUME_GEOMETRIC_MAX__Wing_TAPER_RATIO := (den * dNum_dTaperRatio - num * dDen_dTaperRatio) / den ^
      2 in  (* L1359 *)
  let d_Fuel_WING_VOLUME_GEOMETRIC_MAX__strut_y := (den * dNum_dy - num * dDen_dy) / den ^ 2 in  (* L1362 *)
  [(v_nonfolded_taper_ratio, Aircraft_Wing_AREA, d_nonfolded_taper_ratio__Wing_AREA);
   (v_nonfolded_taper_ratio, Aircraft_Wing_SPAN, d_nonfolded_taper_ratio__Wing_SPAN);
   (v_nonfolded_taper_ratio, Aircraft_Wing_TAPER_RATIO, d_nonfolded_taper_ratio__Wing_TAPER_RATIO);
   (v_nonfolded_taper_ratio, v_strut_y, d_nonfolded_taper_ratio__strut_y);
   (v_nonfolded_wing_area, Aircraft_Wing_AREA, d_nonfolded_wing_area__Wing_AREA);
   (v_nonfolded_wing_area, Aircraft_Wing_FOLDING_AREA, d_nonfolded_wing_area__Wing_FOLDING_AREA);
   (v_tc_ratio_mean_folded, Aircraft_Wing_THICKNESS_TO_CHORD_ROOT,
       d_tc_ratio_mean_folded__Wing_THICKNESS_TO_CHORD_ROOT);
   (v_tc_ratio_mean_folded, Aircraft_Wing_THICKNESS_TO_CHORD_TIP,
       d_tc_ratio_mean_folded__Wing_THICKNESS_TO_CHORD_TIP);
   (v_tc_ratio_mean_folded, Aircraft_Wing_SPAN, d_tc_ratio_mean_folded__Wing_SPAN);
   (v_tc_ratio_mean_folded, v_strut_y, d_tc_ratio_mean_folded__strut_y);
   (v_nonfolded_AR, Aircraft_Wing_AREA, d_nonfolded_AR__Wing_AREA);
   (v_nonfolded_AR, Aircraft_Wing_FOLDING_AREA, d_nonfolded_AR__Wing_FOLDING_AREA);
   (v_nonfolded_AR, Aircraft_Wing_SPAN, d_nonfolded_AR__Wing_SPAN);
   (v_nonfolded_AR, v_strut_y, d_nonfolded_AR__strut_y);
   (Aircraft_Fuel_WING_VOLUME_GEOMETRIC_MAX, Aircraft_Fuel_WING_FUEL_FRACTION,
       d_Fuel_WING_VOLUME_GEOMETRIC_MAX__Fuel_WING_FUEL_FRACTION);
   (Aircraft_Fuel_WING_VOLUME_GEOMETRIC_MAX, Aircraft_Wing_THICKNESS_TO_CHORD_ROOT,
       d_Fuel_WING_VOLUME_GEOMETRIC_MAX__Wing_THICKNESS_TO_CHORD_ROOT);
   (Aircraft_Fuel_WING_VOLUME_GEOMETRIC_MAX, Aircraft_Wing_THICKNESS_TO_CHORD_TIP,
       d_Fuel_WING_VOLUME_GEOMETRIC_MAX__Wing_THICKNESS_TO_CHORD_TIP);
   (Aircraft_Fuel_WING_VOLUME_GEOMETRIC_MAX, Aircraft_Wing_SPAN, d_Fuel_WING_VOLUME_GEOMETRIC_MAX__Wing_SPAN);
   (Aircraft_Fuel_WING_VOLUME_GEOMETRIC_MAX, Aircraft_Wing_AREA, d_Fuel_WING_VOLUME_GEOMETRIC_MAX__Wing_AREA);
   (Aircraft_Fuel_WING_VOLUME_GEOMETRIC_MAX, Aircraft_Wing_FOLDING_AREA,
       d_Fuel_WING_VOLUME_GEOMETRIC_MAX__Wing_FOLDING_AREA);
   (Aircraft_Fuel_WING_VOLUME_GEOMETRIC_MAX, Aircraft_Wing_TAPER_RATIO,
       d_Fuel_WING_VOLUME_GEOMETRIC_MAX__Wing_TAPER_RATIO);
   (Aircraft_Fuel_WING_VOLUME_GEOMETRIC_MAX, v_strut_y, d_Fuel_WING_VOLUME_GEOMETRIC_MAX__strut_y)].

(** Inputs, outputs and declared partials: /repo/aviary/subsystems/geometry/gasp_based/wing.py L999-1101 *)
Definition WingFoldVolumeStrut (op : options) : comp := {|
  c_ins := [v_strut_y;
            Aircraft_Wing_AREA;
            Aircraft_Wing_SPAN;
            Aircraft_Wing_TAPER_RATIO;
            Aircraft_Wing_THICKNESS_TO_CHORD_ROOT;
            Aircraft_Wing_THICKNESS_TO_CHORD_TIP;
            Aircraft_Fuel_WING_FUEL_FRACTION;
            Aircraft_Wing_FOLDING_AREA];
  c_outs := [v_nonfolded_taper_ratio;
             v_nonfolded_wing_area;
             v_tc_ratio_mean_folded;
             v_nonfolded_AR;
             Aircraft_Fuel_WING_VOLUME_GEOMETRIC_MAX];
  c_decl := [(v_nonfolded_taper_ratio, v_strut_y, 0);
             (v_nonfolded_wing_area, v_strut_y, 0);
             (v_tc_ratio_mean_folded, v_strut_y, 0);
             (v_nonfolded_AR, v_strut_y, 0);
             (Aircraft_Fuel_WING_VOLUME_GEOMETRIC_MAX, v_strut_y, 0);
             (v_nonfolded_taper_ratio, Aircraft_Wing_AREA, 0);
             (v_nonfolded_taper_ratio, Aircraft_Wing_SPAN, 0);
             (v_nonfolded_taper_ratio, Aircraft_Wing_TAPER_RATIO, 0);
             (v_nonfolded_wing_area, Aircraft_Wing_AREA, 0);
             (v_nonfolded_wing_area, Aircraft_Wing_FOLDING_AREA, 0);
             (v_tc_ratio_mean_folded, Aircraft_Wing_THICKNESS_TO_CHORD_ROOT, 0);
             (v_tc_ratio_mean_folded, Aircraft_Wing_THICKNESS_TO_CHORD_TIP, 0);
             (v_tc_ratio_mean_folded, Aircraft_Wing_SPAN, 0);
             (v_nonfolded_AR, Aircraft_Wing_AREA, 0);
             (v_nonfolded_AR, Aircraft_Wing_SPAN, 0);
             (v_nonfolded_AR, Aircraft_Wing_FOLDING_AREA, 0);
             (Aircraft_Fuel_WING_VOLUME_GEOMETRIC_MAX, Aircraft_Fuel_WING_FUEL_FRACTION, 0);
             (Aircraft_Fuel_WING_VOLUME_GEOMETRIC_MAX, Aircraft_Wing_THICKNESS_TO_CHORD_ROOT, 0);
             (Aircraft_Fuel_WING_VOLUME_GEOMETRIC_MAX, Aircraft_Wing_THICKNESS_TO_CHORD_TIP, 0);
             (Aircraft_Fuel_WING_VOLUME_GEOMETRIC_MAX, Aircraft_Wing_SPAN, 0);
             (Aircraft_Fuel_WING_VOLUME_GEOMETRIC_MAX, Aircraft_Wing_AREA, 0);
             (Aircraft_Fuel_WING_VOLUME_GEOMETRIC_MAX, Aircraft_Wing_TAPER_RATIO, 0);
             (Aircraft_Fuel_WING_VOLUME_GEOMETRIC_MAX, Aircraft_Wing_FOLDING_AREA, 0)];
  c_run := WingFoldVolumeStrut_compute op; c_jac := WingFoldVolumeStrut_partials op |}.

(** WingFoldVolume.compute, /repo/aviary/subsystems/geometry/gasp_based/wing.py L1103-1141 (one engine type or one node) *)
Definition WingFoldVolumeChosen_compute (op : options) (e : env) : list (string * R) :=
  let wing_area := e Aircraft_Wing_AREA in  (* L1104 *)
  let wingspan := e Aircraft_Wing_SPAN in  (* L1105 *)
  let taper_ratio := e Aircraft_Wing_TAPER_RATIO in  (* L1106 *)
  let tc_ratio_root := e Aircraft_Wing_THICKNESS_TO_CHORD_ROOT in  (* L1107 *)
  let tc_ratio_tip := e Aircraft_Wing_THICKNESS_TO_CHORD_TIP in  (* L1108 *)
  let fuel_vol_frac := e Aircraft_Fuel_WING_FUEL_FRACTION in  (* L1109 *)
  let folding_area := e Aircraft_Wing_FOLDING_AREA in  (* L1110 *)
  let fold_y := e Aircraft_Wing_FOLDED_SPAN in  (* L1117 *)
  let location := fold_y / 2 in  (* L1118 *)
  let root_chord_wing := 2 * wing_area / (wingspan * (1 + taper_ratio)) in  (* L1120 *)
  let tip_chord := taper_ratio * root_chord_wing in  (* L1121 *)
  let fold_chord := root_chord_wing + location * (tip_chord - root_chord_wing) / (wingspan / 2) in  (* L1122 *)
  let nonfolded_taper_ratio := fold_chord / root_chord_wing in  (* L1123 *)
  let nonfolded_wing_area := wing_area - folding_area in  (* L1124 *)
  let tc_ratio_fold := tc_ratio_root + location * (tc_ratio_tip - tc_ratio_root) / (wingspan / 2) in  (* L1126 *)
  let tc_ratio_mean_folded := 5 / 10 * (tc_ratio_root + tc_ratio_fold) in  (* L1127 *)
  let nonfolded_AR := 4 * location ^ 2 / nonfolded_wing_area in  (* L1128 *)
  let geometric_fuel_vol := fuel_vol_frac * (888889 / 1000000) * tc_ratio_mean_folded * nonfolded_wing_area ** (15 /
      10) * (2 * nonfolded_taper_ratio + 1) / (nonfolded_AR ** (5 / 10) * (nonfolded_taper_ratio + 1) ^ 2) in  (* L1129 *)
  let o_nonfolded_taper_ratio := nonfolded_taper_ratio in  (* L1137 *)
  let o_nonfolded_wing_area := nonfolded_wing_area in  (* L1138 *)
  let o_tc_ratio_mean_folded := tc_ratio_mean_folded in  (* L1139 *)
  let o_nonfolded_AR := nonfolded_AR in  (* L1140 *)
  let o_Fuel_WING_VOLUME_GEOMETRIC_MAX := geometric_fuel_vol in  (* L1141 *)
  [(v_nonfolded_taper_ratio, o_nonfolded_taper_ratio);
   (v_nonfolded_wing_area, o_nonfolded_wing_area);
   (v_tc_ratio_mean_folded, o_tc_ratio_mean_folded);
   (v_nonfolded_AR, o_nonfolded_AR);
   (Aircraft_Fuel_WING_VOLUME_GEOMETRIC_MAX, o_Fuel_WING_VOLUME_GEOMETRIC_MAX)].

(** WingFoldVolume.compute_partials, /repo/aviary/subsystems/geometry/gasp_based/wing.py L1143-1362 *)
Definition WingFoldVolumeChosen_partials (op : options) (e : env) : list (string * string * R) :=
  let wing_area := e Aircraft_Wing_AREA in  (* L1144 *)
  let wingspan := e Aircraft_Wing_SPAN in  (* L1145 *)
  let taper_ratio := e Aircraft_Wing_TAPER_RATIO in  (* L1146 *)
  let tc_ratio_root := e Aircraft_Wing_THICKNESS_TO_CHORD_ROOT in  (* L1147 *)
  let tc_ratio_tip := e Aircraft_Wing_THICKNESS_TO_CHORD_TIP in  (* L1148 *)
  let fuel_vol_frac := e Aircraft_Fuel_WING_FUEL_FRACTION in  (* L1149 *)
  let folding_area := e Aircraft_Wing_FOLDING_AREA in  (* L1150 *)
  let fold_y := e Aircraft_Wing_FOLDED_SPAN in  (* L1160 *)
  let location := fold_y / 2 in  (* L1163 *)
  let dLoc_dWingspan := 0 in  (* L1164 *)
  let dLoc_dy := 1 / 2 in  (* L1165 *)
  let root_chord_wing := 2 * wing_area / (wingspan * (1 + taper_ratio)) in  (* L1167 *)
  let dRootChordWing_dWingArea := 2 / (wingspan * (1 + taper_ratio)) in  (* L1168 *)
  let dRootChordWing_dWingspan := - 2 * wing_area / (wingspan ^ 2 * (1 + taper_ratio)) in  (* L1169 *)
  let dRootChordWing_dTaperRatio := - 2 * wing_area / (wingspan * (1 + taper_ratio) ^ 2) in  (* L1170 *)
  let tip_chord := taper_ratio * root_chord_wing in  (* L1172 *)
  let dTipChord_dTaperRatio := taper_ratio * dRootChordWing_dTaperRatio + root_chord_wing in  (* L1173 *)
  let dTipChord_dWingArea := taper_ratio * dRootChordWing_dWingArea in  (* L1174 *)
  let dTipChord_dWingspan := taper_ratio * dRootChordWing_dWingspan in  (* L1175 *)
  let fold_chord := root_chord_wing + location * (tip_chord - root_chord_wing) / (wingspan / 2) in  (* L1177 *)
  let dFoldChord_dWingArea := dRootChordWing_dWingArea + location * (dTipChord_dWingArea - dRootChordWing_dWingArea) /
      (wingspan / 2) in  (* L1178 *)
  let dFoldChord_dWingspan := dRootChordWing_dWingspan + location * (wingspan / 2 * (dTipChord_dWingspan -
      dRootChordWing_dWingspan) - (tip_chord - root_chord_wing) * (1 / 2)) / (wingspan / 2) ^ 2 + dLoc_dWingspan *
      (tip_chord - root_chord_wing) / (wingspan / 2) in  (* L1181 *)
  let dFoldChord_dTaperRatio := dRootChordWing_dTaperRatio + location * (dTipChord_dTaperRatio -
      dRootChordWing_dTaperRatio) / (wingspan / 2) in  (* L1191 *)
  let dFoldChord_dy := dLoc_dy * (tip_chord - root_chord_wing) / (wingspan / 2) in  (* L1194 *)
  let nonfolded_taper_ratio := fold_chord / root_chord_wing in  (* L1196 *)
  let dNFTR_dWingArea := (root_chord_wing * dFoldChord_dWingArea - fold_chord * dRootChordWing_dWingArea) /
      root_chord_wing ^ 2 in  (* L1197 *)
  let dNFTR_dWingspan := (root_chord_wing * dFoldChord_dWingspan - fold_chord * dRootChordWing_dWingspan) /
      root_chord_wing ^ 2 in  (* L1200 *)
  let dNFTR_dTaperRatio := (root_chord_wing * dFoldChord_dTaperRatio - fold_chord * dRootChordWing_dTaperRatio) /
      root_chord_wing ^ 2 in  (* L1203 *)
  let dNFTR_dy := dFoldChord_dy / root_chord_wing in  (* L1206 *)
  let d_nonfolded_taper_ratio__Wing_AREA := dNFTR_dWingArea in  (* L1208 *)
  let d_nonfolded_taper_ratio__Wing_SPAN := dNFTR_dWingspan in  (* L1209 *)
  let d_nonfolded_taper_ratio__Wing_TAPER_RATIO := dNFTR_dTaperRatio in  (* L1210 *)
  let d_nonfolded_taper_ratio__Wing_FOLDED_SPAN := dNFTR_dy in  (* L1211 *)
  let nonfolded_wing_area := wing_area - folding_area in  (* L1213 *)
  let dNFWA_dWingArea := 1 in  (* L1214 *)
  let dNFWA_dWingFoldArea := - 1 in  (* L1215 *)
  let d_nonfolded_wing_area__Wing_AREA := dNFWA_dWingArea in  (* L1216 *)
  let d_nonfolded_wing_area__Wing_FOLDING_AREA := dNFWA_dWingFoldArea in  (* L1217 *)
  let tc_ratio_fold := tc_ratio_root + location * (tc_ratio_tip - tc_ratio_root) / (wingspan / 2) in  (* L1219 *)
  let dtc_ratio_rootatioFold_dtc_ratio_root := 1 + location * - 1 / (wingspan / 2) in  (* L1220 *)
  let dtc_ratio_rootatioFold_dtc_ratio_tip := location / (wingspan / 2) in  (* L1221 *)
  let dtc_ratio_rootatioFold_dWingspan := (tc_ratio_tip - tc_ratio_root) * (wingspan / 2 * dLoc_dWingspan - location *
      (5 / 10)) / (wingspan / 2) ^ 2 in  (* L1222 *)
  let dtc_ratio_rootatioFold_dy := dLoc_dy * (tc_ratio_tip - tc_ratio_root) / (wingspan / 2) in  (* L1227 *)
  let tc_ratio_mean_folded := 5 / 10 * (tc_ratio_root + tc_ratio_fold) in  (* L1229 *)
  let dtc_ratio_rootMeanFolded_dtc_ratio_root := 5 / 10 * (1 + dtc_ratio_rootatioFold_dtc_ratio_root) in  (* L1230 *)
  let dtc_ratio_rootMeanFolded_dtc_ratio_tip := 5 / 10 * dtc_ratio_rootatioFold_dtc_ratio_tip in  (* L1231 *)
  let dtc_ratio_rootMeanFolded_dWingspan := 5 / 10 * dtc_ratio_rootatioFold_dWingspan in  (* L1232 *)
  let dtc_ratio_rootMeanFolded_dy := 5 / 10 * dtc_ratio_rootatioFold_dy in  (* L1233 *)
  let d_tc_ratio_mean_folded__Wing_THICKNESS_TO_CHORD_ROOT := dtc_ratio_rootMeanFolded_dtc_ratio_root in  (* L1235 *)
  let d_tc_ratio_mean_folded__Wing_THICKNESS_TO_CHORD_TIP := dtc_ratio_rootMeanFolded_dtc_ratio_tip in  (* L1238 *)
  let d_tc_ratio_mean_folded__Wing_SPAN := dtc_ratio_rootMeanFolded_dWingspan in  (* L1241 *)
  let d_tc_ratio_mean_folded__Wing_FOLDED_SPAN := dtc_ratio_rootMeanFolded_dy in  (* L1242 *)
  let nonfolded_AR := 4 * location ^ 2 / nonfolded_wing_area in  (* L1244 *)
  let dNFAR_dWingArea := - 4 * location ^ 2 / nonfolded_wing_area ^ 2 in  (* L1245 *)
  let dNFAR_dWingFoldArea := 4 * location ^ 2 / nonfolded_wing_area ^ 2 in  (* L1246 *)
  let dNFAR_dWingspan := 4 * (2 * location * dLoc_dWingspan) / nonfolded_wing_area in  (* L1247 *)
  let dNFAR_dTaperRatio := 0 in  (* L1248 *)
  let dNFAR_dy := 4 * (2 * location * dLoc_dy) / nonfolded_wing_area in  (* L1249 *)
  let d_nonfolded_AR__Wing_AREA := dNFAR_dWingArea in  (* L1251 *)
  let d_nonfolded_AR__Wing_FOLDING_AREA := dNFAR_dWingFoldArea in  (* L1252 *)
  let d_nonfolded_AR__Wing_SPAN := dNFAR_dWingspan in  (* L1253 *)
  let d_nonfolded_AR__Wing_FOLDED_SPAN := dNFAR_dy in  (* L1254 *)
  let a := nonfolded_wing_area ** (15 / 10) * (2 * nonfolded_taper_ratio + 1) in  (* L1256 *)
  let dA_dWingspan := nonfolded_wing_area ** (15 / 10) * 2 * dNFTR_dWingspan in  (* L1257 *)
  let dA_dy := nonfolded_wing_area ** (15 / 10) * 2 * dNFTR_dy in  (* L1258 *)
  let num := fuel_vol_frac * (888889 / 1000000) * tc_ratio_mean_folded * a in  (* L1260 *)
  let dNum_dWingspan := fuel_vol_frac * (888889 / 1000000) * dtc_ratio_rootMeanFolded_dWingspan * a + fuel_vol_frac *
      (888889 / 1000000) * tc_ratio_mean_folded * dA_dWingspan in  (* L1261 *)
  let dNum_dy := fuel_vol_frac * (888889 / 1000000) * dtc_ratio_rootMeanFolded_dy * a + fuel_vol_frac * (888889 /
      1000000) * tc_ratio_mean_folded * dA_dy in  (* L1265 *)
  let dNum_dWingArea := fuel_vol_frac * (888889 / 1000000) * tc_ratio_mean_folded * (15 / 10) * nonfolded_wing_area **
      (5 / 10) * dNFWA_dWingArea * (2 * nonfolded_taper_ratio + 1) + fuel_vol_frac * (888889 / 1000000) *
      tc_ratio_mean_folded * nonfolded_wing_area ** (15 / 10) * 2 * dNFTR_dWingArea in  (* L1269 *)
  let dNum_dWingFoldArea := fuel_vol_frac * (888889 / 1000000) * tc_ratio_mean_folded * (15 / 10) *
      nonfolded_wing_area ** (5 / 10) * dNFWA_dWingFoldArea * (2 * nonfolded_taper_ratio + 1) in  (* L1280 *)
  let dNum_dTaperRatio := fuel_vol_frac * (888889 / 1000000) * tc_ratio_mean_folded * nonfolded_wing_area ** (15 / 10)
      * 2 * dNFTR_dTaperRatio in  (* L1290 *)
  let den := nonfolded_AR ** (5 / 10) * (nonfolded_taper_ratio + 1) ^ 2 in  (* L1294 *)
  let dDen_dWingspan := 5 / 10 * nonfolded_AR ** (- 5 / 10) * dNFAR_dWingspan * (nonfolded_taper_ratio + 1) ^ 2 +
      nonfolded_AR ** (5 / 10) * 2 * (nonfolded_taper_ratio + 1) * dNFTR_dWingspan in  (* L1296 *)
  let dDen_dy := 5 / 10 * nonfolded_AR ** (- 5 / 10) * dNFAR_dy * (nonfolded_taper_ratio + 1) ^ 2 + nonfolded_AR ** (5
      / 10) * 2 * (nonfolded_taper_ratio + 1) * dNFTR_dy in  (* L1303 *)
  let dDen_dWingArea := 5 / 10 * nonfolded_AR ** (- 5 / 10) * dNFAR_dWingArea * (nonfolded_taper_ratio + 1) ^ 2 +
      nonfolded_AR ** (5 / 10) * 2 * (nonfolded_taper_ratio + 1) * dNFTR_dWingArea in  (* L1307 *)
  let dDen_dWingFoldArea := 5 / 10 * nonfolded_AR ** (- 5 / 10) * dNFAR_dWingFoldArea * (nonfolded_taper_ratio + 1) ^
      2 in  (* L1314 *)
  let dDen_dTaperRatio := 5 / 10 * nonfolded_AR ** (- 5 / 10) * dNFAR_dTaperRatio * (nonfolded_taper_ratio + 1) ^ 2 +
      nonfolded_AR ** (5 / 10) * 2 * (nonfolded_taper_ratio + 1) * dNFTR_dTaperRatio in  (* L1320 *)
  let d_Fuel_WING_VOLUME_GEOMETRIC_MAX__Fuel_WING_FUEL_FRACTION := 888889 / 1000000 * tc_ratio_mean_folded *
      nonfolded_wing_area ** (15 / 10) * (2 * nonfolded_taper_ratio + 1) / (nonfolded_AR ** (5 / 10) *
      (nonfolded_taper_ratio + 1) ^ 2) in  (* L1328 *)
  let d_Fuel_WING_VOLUME_GEOMETRIC_MAX__Wing_THICKNESS_TO_CHORD_ROOT := fuel_vol_frac * (888889 / 1000000) *
      dtc_ratio_rootMeanFolded_dtc_ratio_root * nonfolded_wing_area ** (15 / 10) * (2 * nonfolded_taper_ratio + 1) /
      (nonfolded_AR ** (5 / 10) * (nonfolded_taper_ratio + 1) ^ 2) in  (* L1334 *)
  let d_Fuel_WING_VOLUME_GEOMETRIC_MAX__Wing_THICKNESS_TO_CHORD_TIP := fuel_vol_frac * (888889 / 1000000) *
      dtc_ratio_rootMeanFolded_dtc_ratio_tip * nonfolded_wing_area ** (15 / 10) * (2 * nonfolded_taper_ratio + 1) /
      (nonfolded_AR ** (5 / 10) * (nonfolded_taper_ratio + 1) ^ 2) in  (* L1341 *)
  let d_Fuel_WING_VOLUME_GEOMETRIC_MAX__Wing_SPAN := (den * dNum_dWingspan - num * dDen_dWingspan) / den ^ 2 in  (* L1348 *)
  let d_Fuel_WING_VOLUME_GEOMETRIC_MAX__Wing_AREA := (den * dNum_dWingArea - num * dDen_dWingArea) / den ^ 2 in  (* L1351 *)
  let d_Fuel_WING_VOLUME_GEOMETRIC_MAX__Wing_FOLDING_AREA := (den * dNum_dWingFoldArea - num * dDen_dWingFoldArea) /
      den ^ 2 in  (* L1355 *)
  let d_Fuel_WING_VOLUME_GEOMETRIC_MAX__Wing_TAPER_RATIO := (den * dNum_dTaperRatio - num * dDen_dTaperRatio) / den ^
      2 in  (* L1359 *)
  let d_Fuel_WING_VOLUME_GEOMETRIC_MAX__Wing_FOLDED_SPAN := (den * dNum_dy - num * dDen_dy) / den ^ 2 in  (* L1362 *)
  [(v_nonfolded_taper_ratio, Aircraft_Wing_AREA, d_nonfolded_taper_ratio__Wing_AREA);
   (v_nonfolded_taper_ratio, Aircraft_Wing_SPAN, d_nonfolded_taper_ratio__Wing_SPAN);
   (v_nonfolded_taper_ratio, Aircraft_Wing_TAPER_RATIO, d_nonfolded_taper_ratio__Wing_TAPER_RATIO);
   (v_nonfolded_taper_ratio, Aircraft_Wing_FOLDED_SPAN, d_nonfolded_taper_ratio__Wing_FOLDED_SPAN);
   (v_nonfolded_wing_area, Aircraft_Wing_AREA, d_nonfolded_wing_area__Wing_AREA);
   (v_nonfolded_wing_area, Aircraft_Wing_FOLDING_AREA, d_nonfolded_wing_area__Wing_FOLDING_AREA);
   (v_tc_ratio_mean_folded, Aircraft_Wing_THICKNESS_TO_CHORD_ROOT,
       d_tc_ratio_mean_folded__Wing_THICKNESS_TO_CHORD_ROOT);
   (v_tc_ratio_mean_folded, Aircraft_Wing_THICKNESS_TO_CHORD_TIP,
       d_tc_ratio_mean_folded__Wing_THICKNESS_TO_CHORD_TIP);
   (v_tc_ratio_mean_folded, Aircraft_Wing_SPAN, d_tc_ratio_mean_folded__Wing_SPAN);
   (v_tc_ratio_mean_folded, Aircraft_Wing_FOLDED_SPAN, d_tc_ratio_mean_folded__Wing_FOLDED_SPAN);
   (v_nonfolded_AR, Aircraft_Wing_AREA, d_nonfolded_AR__Wing_AREA);
   (v_nonfolded_AR, Aircraft_Wing_FOLDING_AREA, d_nonfolded_AR__Wing_FOLDING_AREA);
   (v_nonfolded_AR, Aircraft_Wing_SPAN, d_nonfolded_AR__Wing_SPAN);
   (v_nonfolded_AR, Aircraft_Wing_FOLDED_SPAN, d_nonfolded_AR__Wing_FOLDED_SPAN);
   (Aircraft_Fuel_WING_VOLUME_GEOMETRIC_MAX, Aircraft_Fuel_WING_FUEL_FRACTION,
       d_Fuel_WING_VOLUME_GEOMETRIC_MAX__Fuel_WING_FUEL_FRACTION);
   (Aircraft_Fuel_WING_VOLUME_GEOMETRIC_MAX, Aircraft_Wing_THICKNESS_TO_CHORD_ROOT,
       d_Fuel_WING_VOLUME_GEOMETRIC_MAX__Wing_THICKNESS_TO_CHORD_ROOT);
   (Aircraft_Fuel_WING_VOLUME_GEOMETRIC_MAX, Aircraft_Wing_THICKNESS_TO_CHORD_TIP,
       d_Fuel_WING_VOLUME_GEOMETRIC_MAX__Wing_THICKNESS_TO_CHORD_TIP);
   (Aircraft_Fuel_WING_VOLUME_GEOMETRIC_MAX, Aircraft_Wing_SPAN, d_Fuel_WING_VOLUME_GEOMETRIC_MAX__Wing_SPAN);
   (Aircraft_Fuel_WING_VOLUME_GEOMETRIC_MAX, Aircraft_Wing_AREA, d_Fuel_WING_VOLUME_GEOMETRIC_MAX__Wing_AREA);
   (Aircraft_Fuel_WING_VOLUME_GEOMETRIC_MAX, Aircraft_Wing_FOLDING_AREA,
       d_Fuel_WING_VOLUME_GEOMETRIC_MAX__Wing_FOLDING_AREA);
   (Aircraft_Fuel_WING_VOLUME_GEOMETRIC_MAX, Aircraft_Wing_TAPER_RATIO,
       d_Fuel_WING_VOLUME_GEOMETRIC_MAX__Wing_TAPER_RATIO);
   (Aircraft_Fuel_WING_VOLUME_GEOMETRIC_MAX, Aircraft_Wing_FOLDED_SPAN,
       d_Fuel_WING_VOLUME_GEOMETRIC_MAX__Wing_FOLDED_SPAN)].

(** Inputs, outputs and declared partials: /repo/aviary/subsystems/geometry/gasp_based/wing.py L999-1101 *)
Definition WingFoldVolumeChosen (op : options) : comp := {|
  c_ins := [Aircraft_Wing_FOLDED_SPAN;
            Aircraft_Wing_AREA;
            Aircraft_Wing_SPAN;
            Aircraft_Wing_TAPER_RATIO;
            Aircraft_Wing_THICKNESS_TO_CHORD_ROOT;
            Aircraft_Wing_THICKNESS_TO_CHORD_TIP;
            Aircraft_Fuel_WING_FUEL_FRACTION;
            Aircraft_Wing_FOLDING_AREA];
  c_outs := [v_nonfolded_taper_ratio;
             v_nonfolded_wing_area;
             v_tc_ratio_mean_folded;
             v_nonfolded_AR;
             Aircraft_Fuel_WING_VOLUME_GEOMETRIC_MAX];
  c_decl := [(v_nonfolded_taper_ratio, Aircraft_Wing_FOLDED_SPAN, 0);
             (v_nonfolded_wing_area, Aircraft_Wing_FOLDED_SPAN, 0);
             (v_tc_ratio_mean_folded, Aircraft_Wing_FOLDED_SPAN, 0);
             (v_nonfolded_AR, Aircraft_Wing_FOLDED_SPAN, 0);
             (Aircraft_Fuel_WING_VOLUME_GEOMETRIC_MAX, Aircraft_Wing_FOLDED_SPAN, 0);
             (v_nonfolded_taper_ratio, Aircraft_Wing_AREA, 0);
             (v_nonfolded_taper_ratio, Aircraft_Wing_SPAN, 0);
             (v_nonfolded_taper_ratio, Aircraft_Wing_TAPER_RATIO, 0);
             (v_nonfolded_wing_area, Aircraft_Wing_AREA, 0);
             (v_nonfolded_wing_area, Aircraft_Wing_FOLDING_AREA, 0);
             (v_tc_ratio_mean_folded, Aircraft_Wing_THICKNESS_TO_CHORD_ROOT, 0);
             (v_tc_ratio_mean_folded, Aircraft_Wing_THICKNESS_TO_CHORD_TIP, 0);
             (v_tc_ratio_mean_folded, Aircraft_Wing_SPAN, 0);
             (v_nonfolded_AR, Aircraft_Wing_AREA, 0);
             (v_nonfolded_AR, Aircraft_Wing_SPAN, 0);
             (v_nonfolded_AR, Aircraft_Wing_FOLDING_AREA, 0);
             (Aircraft_Fuel_WING_VOLUME_GEOMETRIC_MAX, Aircraft_Fuel_WING_FUEL_FRACTION, 0);
             (Aircraft_Fuel_WING_VOLUME_GEOMETRIC_MAX, Aircraft_Wing_THICKNESS_TO_CHORD_ROOT, 0);
             (Aircraft_Fuel_WING_VOLUME_GEOMETRIC_MAX, Aircraft_Wing_THICKNESS_TO_CHORD_TIP, 0);
             (Aircraft_Fuel_WING_VOLUME_GEOMETRIC_MAX, Aircraft_Wing_SPAN, 0);
             (Aircraft_Fuel_WING_VOLUME_GEOMETRIC_MAX, Aircraft_Wing_AREA, 0);
             (Aircraft_Fuel_WING_VOLUME_GEOMETRIC_MAX, Aircraft_Wing_TAPER_RATIO, 0);
             (Aircraft_Fuel_WING_VOLUME_GEOMETRIC_MAX, Aircraft_Wing_FOLDING_AREA, 0)];
  c_run := WingFoldVolumeChosen_compute op; c_jac := WingFoldVolumeChosen_partials op |}.

(** BWBWingFoldVolume.compute, /repo/aviary/subsystems/geometry/gasp_based/wing.py L1408-1430 (one engine type or one node) *)
Definition BWBWingFoldVolumeStrut_compute (op : options) (e : env) : list (string * R) :=
  let wingspan := e Aircraft_Wing_SPAN in  (* L1409 *)
  let tc_ratio_root := e Aircraft_Wing_THICKNESS_TO_CHORD_ROOT in  (* L1410 *)
  let tc_ratio_tip := e Aircraft_Wing_THICKNESS_TO_CHORD_TIP in  (* L1411 *)
  let fuselage_width := e Aircraft_Fuselage_AVG_DIAMETER in  (* L1412 *)
  let wing_volume_no_fold := e v_wing_volume_no_fold in  (* L1413 *)
  let strut_span := e v_strut_y in  (* L1416 *)
  let fold_span := strut_span * 2 in  (* L1417 *)
  let location := fold_span / 2 in  (* L1420 *)
  let tc_ratio_fold := tc_ratio_root + 2 * location * (tc_ratio_tip - tc_ratio_root) / wingspan in  (* L1422 *)
  let tc_fac := (1 + tc_ratio_fold / tc_ratio_root) / (1 + tc_ratio_tip / tc_ratio_root) in  (* L1423 *)
  let geometric_fuel_vol := tc_fac * (fold_span - fuselage_width) / (wingspan - fuselage_width) * wing_volume_no_fold
      in  (* L1424 *)
  let o_Fuel_WING_VOLUME_GEOMETRIC_MAX := geometric_fuel_vol in  (* L1430 *)
  [(Aircraft_Fuel_WING_VOLUME_GEOMETRIC_MAX, o_Fuel_WING_VOLUME_GEOMETRIC_MAX)].

(** BWBWingFoldVolume.compute_partials, /repo/aviary/subsystems/geometry/gasp_based/wing.py L1432-1527 *)
Definition BWBWingFoldVolumeStrut_partials (op : options) (e : env) : list (string * string * R) :=
  let wingspan := e Aircraft_Wing_SPAN in  (* L1433 *)
  let tc_ratio_root := e Aircraft_Wing_THICKNESS_TO_CHORD_ROOT in  (* L1434 *)
  let tc_ratio_tip := e Aircraft_Wing_THICKNESS_TO_CHORD_TIP in  (* L1435 *)
  let fuselage_width := e Aircraft_Fuselage_AVG_DIAMETER in  (* L1436 *)
  let wing_volume_no_fold := e v_wing_volume_no_fold in  (* L1437 *)
  let strut_span := e v_strut_y in  (* L1440 *)
  let fold_span := strut_span * 2 in  (* L1441 *)
  let dLoc_dspan := 1 in  (* L1443 *)
  let location := fold_span / 2 in  (* L1448 *)
  let dlocation_wrt := dLoc_dspan in  (* L1449 *)
  let tc_ratio_fold := tc_ratio_root + 2 * location * (tc_ratio_tip - tc_ratio_root) / wingspan in  (* L1451 *)
  let dtc_ratio_fold_wrt := 2 * dlocation_wrt * (tc_ratio_tip - tc_ratio_root) / wingspan in  (* L1452 *)
  let dtc_ratio_fold_dwingspan := - 2 * location * (tc_ratio_tip - tc_ratio_root) / wingspan ^ 2 in  (* L1453 *)
  let dtc_ratio_fold_dtc_ratio_root := 1 - 2 * location / wingspan in  (* L1454 *)
  let dtc_ratio_fold_dtc_ratio_tip := 2 * location / wingspan in  (* L1455 *)
  let u := 1 + tc_ratio_fold / tc_ratio_root in  (* L1457 *)
  let v := 1 + tc_ratio_tip / tc_ratio_root in  (* L1458 *)
  let tc_fac := (1 + tc_ratio_fold / tc_ratio_root) / (1 + tc_ratio_tip / tc_ratio_root) in  (* L1459 *)
  let dtc_fac_wrt := dtc_ratio_fold_wrt / tc_ratio_root / (1 + tc_ratio_tip / tc_ratio_root) in  (* L1460 *)
  let dtc_fac_dwingspan := dtc_ratio_fold_dwingspan / tc_ratio_root / (1 + tc_ratio_tip / tc_ratio_root) in  (* L1461 *)
  let du_tip := dtc_ratio_fold_dtc_ratio_tip / tc_ratio_root in  (* L1465 *)
  let dv_tip := 1 / tc_ratio_root in  (* L1466 *)
  let dtc_fac_dtc_ratio_tip := (du_tip * v - u * dv_tip) / v ^ 2 in  (* L1467 *)
  let du_root := (dtc_ratio_fold_dtc_ratio_root * tc_ratio_root - tc_ratio_fold) / tc_ratio_root ^ 2 in  (* L1468 *)
  let dv_root := - tc_ratio_tip / tc_ratio_root ^ 2 in  (* L1469 *)
  let dtc_fac_dtc_ratio_root := (du_root * v - u * dv_root) / v ^ 2 in  (* L1470 *)
  let dgeometric_fuel_vol_dtc_ratio_root := dtc_fac_dtc_ratio_root * (fold_span - fuselage_width) / (wingspan -
      fuselage_width) * wing_volume_no_fold in  (* L1472 *)
  let dgeometric_fuel_vol_dtc_ratio_tip := dtc_fac_dtc_ratio_tip * (fold_span - fuselage_width) / (wingspan -
      fuselage_width) * wing_volume_no_fold in  (* L1478 *)
  let dgeometric_fuel_vol_dwingspan := dtc_fac_dwingspan * (fold_span - fuselage_width) / (wingspan - fuselage_width)
      * wing_volume_no_fold - tc_fac * (fold_span - fuselage_width) / (wingspan - fuselage_width) ^ 2 *
      wing_volume_no_fold in  (* L1484 *)
  let dgeometric_fuel_vol_wrt := dtc_fac_wrt * (fold_span - fuselage_width) / (wingspan - fuselage_width) *
      wing_volume_no_fold + tc_fac * 2 * dlocation_wrt / (wingspan - fuselage_width) * wing_volume_no_fold in  (* L1494 *)
  let dgeometric_fuel_vol_dwing_volume_no_fold := tc_fac * (fold_span - fuselage_width) / (wingspan - fuselage_width)
      in  (* L1501 *)
  let dgeometric_fuel_vol_dfuselage_width := - tc_fac * (wingspan - fold_span) / (wingspan - fuselage_width) ^ 2 *
      wing_volume_no_fold in  (* L1504 *)
  let d_Fuel_WING_VOLUME_GEOMETRIC_MAX__wing_volume_no_fold := dgeometric_fuel_vol_dwing_volume_no_fold in  (* L1511 *)
  let d_Fuel_WING_VOLUME_GEOMETRIC_MAX__Fuselage_AVG_DIAMETER := dgeometric_fuel_vol_dfuselage_width in  (* L1514 *)
  let d_Fuel_WING_VOLUME_GEOMETRIC_MAX__strut_y := dgeometric_fuel_vol_wrt in  (* L1517 *)
  let d_Fuel_WING_VOLUME_GEOMETRIC_MAX__Wing_SPAN := dgeometric_fuel_vol_dwingspan in  (* L1518 *)
  let d_Fuel_WING_VOLUME_GEOMETRIC_MAX__Wing_THICKNESS_TO_CHORD_ROOT := dgeometric_fuel_vol_dtc_ratio_root in  (* L1522 *)
  let d_Fuel_WING_VOLUME_GEOMETRIC_MAX__Wing_THICKNESS_TO_CHORD_TIP := dgeometric_fuel_vol_dtc_ratio_tip in  (* L1525 *)
  [(Aircraft_Fuel_WING_VOLUME_GEOMETRIC_MAX, v_wing_volume_no_fold,
      d_Fuel_WING_VOLUME_GEOMETRIC_MAX__wing_volume_no_fold);
   (Aircraft_Fuel_WING_VOLUME_GEOMETRIC_MAX, Aircraft_Fuselage_AVG_DIAMETER,
       d_Fuel_WING_VOLUME_GEOMETRIC_MAX__Fuselage_AVG_DIAMETER);
   (Aircraft_Fuel_WING_VOLUME_GEOMETRIC_MAX, v_strut_y, d_Fuel_WING_VOLUME_GEOMETRIC_MAX__strut_y);
   (Aircraft_Fuel_WING_VOLUME_GEOMETRIC_MAX, Aircraft_Wing_SPAN, d_Fuel_WING_VOLUME_GEOMETRIC_MAX__Wing_SPAN);
   (Aircraft_Fuel_WING_VOLUME_GEOMETRIC_MAX, Aircraft_Wing_THICKNESS_TO_CHORD_ROOT,
       d_Fuel_WING_VOLUME_GEOMETRIC_MAX__Wing_THICKNESS_TO_CHORD_ROOT);
   (Aircraft_Fuel_WING_VOLUME_GEOMETRIC_MAX, Aircraft_Wing_THICKNESS_TO_CHORD_TIP,
       d_Fuel_WING_VOLUME_GEOMETRIC_MAX__Wing_THICKNESS_TO_CHORD_TIP)].

(** Inputs, outputs and declared partials: /repo/aviary/subsystems/geometry/gasp_based/wing.py L1373-1406 *)
Definition BWBWingFoldVolumeStrut (op : options) : comp := {|
  c_ins := [v_strut_y;
            v_wing_volume_no_fold;
            Aircraft_Fuselage_AVG_DIAMETER;
            Aircraft_Wing_THICKNESS_TO_CHORD_ROOT;
            Aircraft_Wing_THICKNESS_TO_CHORD_TIP;
            Aircraft_Wing_SPAN];
  c_outs := [Aircraft_Fuel_WING_VOLUME_GEOMETRIC_MAX];
  c_decl := [(Aircraft_Fuel_WING_VOLUME_GEOMETRIC_MAX, v_strut_y, 0);
             (Aircraft_Fuel_WING_VOLUME_GEOMETRIC_MAX, v_wing_volume_no_fold, 0);
             (Aircraft_Fuel_WING_VOLUME_GEOMETRIC_MAX, Aircraft_Fuselage_AVG_DIAMETER, 0);
             (Aircraft_Fuel_WING_VOLUME_GEOMETRIC_MAX, Aircraft_Wing_THICKNESS_TO_CHORD_ROOT, 0);
             (Aircraft_Fuel_WING_VOLUME_GEOMETRIC_MAX, Aircraft_Wing_THICKNESS_TO_CHORD_TIP, 0);
             (Aircraft_Fuel_WING_VOLUME_GEOMETRIC_MAX, Aircraft_Wing_SPAN, 0)];
  c_run := BWBWingFoldVolumeStrut_compute op; c_jac := BWBWingFoldVolumeStrut_partials op |}.

(** BWBWingFoldVolume.compute, /repo/aviary/subsystems/geometry/gasp_based/wing.py L1408-1430 (one engine type or one node) *)
Definition BWBWingFoldVolumeChosen_compute (op : options) (e : env) : list (string * R) :=
  let wingspan := e Aircraft_Wing_SPAN in  (* L1409 *)
  let tc_ratio_root := e Aircraft_Wing_THICKNESS_TO_CHORD_ROOT in  (* L1410 *)
  let tc_ratio_tip := e Aircraft_Wing_THICKNESS_TO_CHORD_TIP in  (* L1411 *)
  let fuselage_width := e Aircraft_Fuselage_AVG_DIAMETER in  (* L1412 *)
  let wing_volume_no_fold := e v_wing_volume_no_fold in  (* L1413 *)
  let fold_span := e Aircraft_Wing_FOLDED_SPAN in  (* L1419 *)
  let location := fold_span / 2 in  (* L1420 *)
  let tc_ratio_fold := tc_ratio_root + 2 * location * (tc_ratio_tip - tc_ratio_root) / wingspan in  (* L1422 *)
  let tc_fac := (1 + tc_ratio_fold / tc_ratio_root) / (1 + tc_ratio_tip / tc_ratio_root) in  (* L1423 *)
  let geometric_fuel_vol := tc_fac * (fold_span - fuselage_width) / (wingspan - fuselage_width) * wing_volume_no_fold
      in  (* L1424 *)
  let o_Fuel_WING_VOLUME_GEOMETRIC_MAX := geometric_fuel_vol in  (* L1430 *)
  [(Aircraft_Fuel_WING_VOLUME_GEOMETRIC_MAX, o_Fuel_WING_VOLUME_GEOMETRIC_MAX)].

(** BWBWingFoldVolume.compute_partials, /repo/aviary/subsystems/geometry/gasp_based/wing.py L1432-1527 *)
Definition BWBWingFoldVolumeChosen_partials (op : options) (e : env) : list (string * string * R) :=
  let wingspan := e Aircraft_Wing_SPAN in  (* L1433 *)
  let tc_ratio_root := e Aircraft_Wing_THICKNESS_TO_CHORD_ROOT in  (* L1434 *)
  let tc_ratio_tip := e Aircraft_Wing_THICKNESS_TO_CHORD_TIP in  (* L1435 *)
  let fuselage_width := e Aircraft_Fuselage_AVG_DIAMETER in  (* L1436 *)
  let wing_volume_no_fold := e v_wing_volume_no_fold in  (* L1437 *)
  let fold_span := e Aircraft_Wing_FOLDED_SPAN in  (* L1445 *)
  let dLoc_dspan := 1 / 2 in  (* L1447 *)
  let location := fold_span / 2 in  (* L1448 *)
  let dlocation_wrt := dLoc_dspan in  (* L1449 *)
  let tc_ratio_fold := tc_ratio_root + 2 * location * (tc_ratio_tip - tc_ratio_root) / wingspan in  (* L1451 *)
  let dtc_ratio_fold_wrt := 2 * dlocation_wrt * (tc_ratio_tip - tc_ratio_root) / wingspan in  (* L1452 *)
  let dtc_ratio_fold_dwingspan := - 2 * location * (tc_ratio_tip - tc_ratio_root) / wingspan ^ 2 in  (* L1453 *)
  let dtc_ratio_fold_dtc_ratio_root := 1 - 2 * location / wingspan in  (* L1454 *)
  let dtc_ratio_fold_dtc_ratio_tip := 2 * location / wingspan in  (* L1455 *)
  let u := 1 + tc_ratio_fold / tc_ratio_root in  (* L1457 *)
  let v := 1 + tc_ratio_tip / tc_ratio_root in  (* L1458 *)
  let tc_fac := (1 + tc_ratio_fold / tc_ratio_root) / (1 + tc_ratio_tip / tc_ratio_root) in  (* L1459 *)
  let dtc_fac_wrt := dtc_ratio_fold_wrt / tc_ratio_root / (1 + tc_ratio_tip / tc_ratio_root) in  (* L1460 *)
  let dtc_fac_dwingspan := dtc_ratio_fold_dwingspan / tc_ratio_root / (1 + tc_ratio_tip / tc_ratio_root) in  (* L1461 *)
  let du_tip := dtc_ratio_fold_dtc_ratio_tip / tc_ratio_root in  (* L1465 *)
  let dv_tip := 1 / tc_ratio_root in  (* L1466 *)
  let dtc_fac_dtc_ratio_tip := (du_tip * v - u * dv_tip) / v ^ 2 in  (* L1467 *)
  let du_root := (dtc_ratio_fold_dtc_ratio_root * tc_ratio_root - tc_ratio_fold) / tc_ratio_root ^ 2 in  (* L1468 *)
  let dv_root := - tc_ratio_tip / tc_ratio_root ^ 2 in  (* L1469 *)
  let dtc_fac_dtc_ratio_root := (du_root * v - u * dv_root) / v ^ 2 in  (* L1470 *)
  let dgeometric_fuel_vol_dtc_ratio_root := dtc_fac_dtc_ratio_root * (fold_span - fuselage_width) / (wingspan -
      fuselage_width) * wing_volume_no_fold in  (* L1472 *)
  let dgeometric_fuel_vol_dtc_ratio_tip := dtc_fac_dtc_ratio_tip * (fold_span - fuselage_width) / (wingspan -
      fuselage_width) * wing_volume_no_fold in  (* L1478 *)
  let dgeometric_fuel_vol_dwingspan := dtc_fac_dwingspan * (fold_span - fuselage_width) / (wingspan - fuselage_width)
      * wing_volume_no_fold - tc_fac * (fold_span - fuselage_width) / (wingspan - fuselage_width) ^ 2 *
      wing_volume_no_fold in  (* L1484 *)
  let dgeometric_fuel_vol_wrt := dtc_fac_wrt * (fold_span - fuselage_width) / (wingspan - fuselage_width) *
      wing_volume_no_fold + tc_fac * 2 * dlocation_wrt / (wingspan - fuselage_width) * wing_volume_no_fold in  (* L1494 *)
  let dgeometric_fuel_vol_dwing_volume_no_fold := tc_fac * (fold_span - fuselage_width) / (wingspan - fuselage_width)
      in  (* L1501 *)
  let dgeometric_fuel_vol_dfuselage_width := - tc_fac * (wingspan - fold_span) / (wingspan - fuselage_width) ^ 2 *
      wing_volume_no_fold in  (* L1504 *)
  let d_Fuel_WING_VOLUME_GEOMETRIC_MAX__wing_volume_no_fold := dgeometric_fuel_vol_dwing_volume_no_fold in  (* L1511 *)
  let d_Fuel_WING_VOLUME_GEOMETRIC_MAX__Fuselage_AVG_DIAMETER := dgeometric_fuel_vol_dfuselage_width in  (* L1514 *)
  let d_Fuel_WING_VOLUME_GEOMETRIC_MAX__Wing_FOLDED_SPAN := dgeometric_fuel_vol_wrt in  (* L1517 *)
  let d_Fuel_WING_VOLUME_GEOMETRIC_MAX__Wing_SPAN := dgeometric_fuel_vol_dwingspan in  (* L1518 *)
  let d_Fuel_WING_VOLUME_GEOMETRIC_MAX__Wing_THICKNESS_TO_CHORD_ROOT := dgeometric_fuel_vol_dtc_ratio_root in  (* L1522 *)
  let d_Fuel_WING_VOLUME_GEOMETRIC_MAX__Wing_THICKNESS_TO_CHORD_TIP := dgeometric_fuel_vol_dtc_ratio_tip in  (* L1525 *)
  [(Aircraft_Fuel_WING_VOLUME_GEOMETRIC_MAX, v_wing_volume_no_fold,
      d_Fuel_WING_VOLUME_GEOMETRIC_MAX__wing_volume_no_fold);
   (Aircraft_Fuel_WING_VOLUME_GEOMETRIC_MAX, Aircraft_Fuselage_AVG_DIAMETER,
       d_Fuel_WING_VOLUME_GEOMETRIC_MAX__Fuselage_AVG_DIAMETER);
   (Aircraft_Fuel_WING_VOLUME_GEOMETRIC_MAX, Aircraft_Wing_FOLDED_SPAN,
       d_Fuel_WING_VOLUME_GEOMETRIC_MAX__Wing_FOLDED_SPAN);
   (Aircraft_Fuel_WING_VOLUME_GEOMETRIC_MAX, Aircraft_Wing_SPAN, d_Fuel_WING_VOLUME_GEOMETRIC_MAX__Wing_SPAN);
   (Aircraft_Fuel_WING_VOLUME_GEOMETRIC_MAX, Aircraft_Wing_THICKNESS_TO_CHORD_ROOT,
       d_Fuel_WING_VOLUME_GEOMETRIC_MAX__Wing_THICKNESS_TO_CHORD_ROOT);
   (Aircraft_Fuel_WING_VOLUME_GEOMETRIC_MAX, Aircraft_Wing_THICKNESS_TO_CHORD_TIP,
       d_Fuel_WING_VOLUME_GEOMETRIC_MAX__Wing_THICKNESS_TO_CHORD_TIP)].

(** Inputs, outputs and declared partials: /repo/aviary/subsystems/geometry/gasp_based/wing.py L1373-1406 *)
Definition BWBWingFoldVolumeChosen (op : options) : comp := {|
  c_ins := [Aircraft_Wing_FOLDED_SPAN;
            v_wing_volume_no_fold;
            Aircraft_Fuselage_AVG_DIAMETER;
            Aircraft_Wing_THICKNESS_TO_CHORD_ROOT;
            Aircraft_Wing_THICKNESS_TO_CHORD_TIP;
            Aircraft_Wing_SPAN];
  c_outs := [Aircraft_Fuel_WING_VOLUME_GEOMETRIC_MAX];
  c_decl := [(Aircraft_Fuel_WING_VOLUME_GEOMETRIC_MAX, Aircraft_Wing_FOLDED_SPAN, 0);
             (Aircraft_Fuel_WING_VOLUME_GEOMETRIC_MAX, v_wing_volume_no_fold, 0);
             (Aircraft_Fuel_WING_VOLUME_GEOMETRIC_MAX, Aircraft_Fuselage_AVG_DIAMETER, 0);
             (Aircraft_Fuel_WING_VOLUME_GEOMETRIC_MAX, Aircraft_Wing_THICKNESS_TO_CHORD_ROOT, 0);
             (Aircraft_Fuel_WING_VOLUME_GEOMETRIC_MAX, Aircraft_Wing_THICKNESS_TO_CHORD_TIP, 0);
             (Aircraft_Fuel_WING_VOLUME_GEOMETRIC_MAX, Aircraft_Wing_SPAN, 0)];
  c_run := BWBWingFoldVolumeChosen_compute op; c_jac := BWBWingFoldVolumeChosen_partials op |}.

(** ExposedWing.compute, /repo/aviary/subsystems/geometry/gasp_based/wing.py L1812-1849 (one engine type or one node) *)
Definition ExposedWingBWB_compute (op : options) (e : env) : list (string * R) :=
  let design_type := oe op Aircraft_Design_TYPE in  (* L1813 *)
  let h_wing := e Aircraft_Wing_VERTICAL_MOUNT_LOCATION in  (* L1816 *)
  let body_width := e Aircraft_Fuselage_AVG_DIAMETER in  (* L1817 *)
  let sqt :=  (* L1819 *)
    if ((leb (5 / 100) h_wing) && (leb h_wing (1 - 5 / 100)))%bool then
      let sqt := sqrt (25 / 100 - (5 / 10 - h_wing) ^ 2) in  (* L1820 *)
      sqt
    else
      let sqt :=  (* L1821 *)
        if ((leb 0 h_wing) && (ltb h_wing (5 / 100)))%bool then
          let sqt := mount_g1 h_wing in  (* L1822 *)
          sqt
        else
          let sqt :=  (* L1823 *)
            if ((leb h_wing 1) && (ltb (1 - 5 / 100) h_wing))%bool then
              let sqt := mount_g2 h_wing in  (* L1824 *)
              sqt
            else
              0 in
          sqt in
      sqt in
  let cabin_height := body_width * e Aircraft_Fuselage_HEIGHT_TO_WIDTH_RATIO in  (* L1829 *)
  let b_fus := 5 / 10 * (body_width - cabin_height) + cabin_height * sqt in  (* L1830 *)
  let wingspan := e Aircraft_Wing_SPAN in  (* L1834 *)
  let wing_area := e Aircraft_Wing_AREA in  (* L1835 *)
  let taper_ratio := e Aircraft_Wing_TAPER_RATIO in  (* L1836 *)
  let root_chord_wing := 2 * wing_area / (wingspan * (1 + taper_ratio)) in  (* L1844 *)
  let tip_chord := taper_ratio * root_chord_wing in  (* L1845 *)
  let c_fus := root_chord_wing + 2 * b_fus * (tip_chord - root_chord_wing) / wingspan in  (* L1846 *)
  let exp_wing_area := (wingspan / 2 - b_fus) * (c_fus + tip_chord) in  (* L1848 *)
  let o_Wing_EXPOSED_AREA := exp_wing_area in  (* L1849 *)
  [(Aircraft_Wing_EXPOSED_AREA, o_Wing_EXPOSED_AREA)].

(** ExposedWing.compute_partials, /repo/aviary/subsystems/geometry/gasp_based/wing.py L1851-1980 *)
Definition ExposedWingBWB_partials (op : options) (e : env) : list (string * string * R) :=
  let design_type := oe op Aircraft_Design_TYPE in  (* L1852 *)
  let h_wing := e Aircraft_Wing_VERTICAL_MOUNT_LOCATION in  (* L1854 *)
  let body_width := e Aircraft_Fuselage_AVG_DIAMETER in  (* L1855 *)
  let height_to_width := e Aircraft_Fuselage_HEIGHT_TO_WIDTH_RATIO in  (* L1856 *)
  let '(sqt, d_sqt) :=  (* L1858 *)
    if ((leb (5 / 100) h_wing) && (leb h_wing (1 - 5 / 100)))%bool then
      let sqt := sqrt (25 / 100 - (5 / 10 - h_wing) ^ 2) in  (* L1859 *)
      let d_sqt := mount_df h_wing in  (* L1860 *)
      (sqt, d_sqt)
    else
      let '(sqt, d_sqt) :=  (* L1861 *)
        if ((leb 0 h_wing) && (ltb h_wing (5 / 100)))%bool then
          let sqt := mount_g1 h_wing in  (* L1862 *)
          let d_sqt := mount_dg1 h_wing in  (* L1863 *)
          (sqt, d_sqt)
        else
          let '(sqt, d_sqt) :=  (* L1864 *)
            if ((leb h_wing 1) && (ltb (1 - 5 / 100) h_wing))%bool then
              let sqt := mount_g2 h_wing in  (* L1865 *)
              let d_sqt := mount_dg2 h_wing in  (* L1866 *)
              (sqt, d_sqt)
            else
              (0, 0) in
          (sqt, d_sqt) in
      (sqt, d_sqt) in
  let cabin_height := body_width * height_to_width in  (* L1871 *)
  let b_fus := 5 / 10 * (body_width - cabin_height) + cabin_height * sqt in  (* L1872 *)
  let wingspan := e Aircraft_Wing_SPAN in  (* L1876 *)
  let wing_area := e Aircraft_Wing_AREA in  (* L1877 *)
  let taper_ratio := e Aircraft_Wing_TAPER_RATIO in  (* L1878 *)
  let root_chord_wing := 2 * wing_area / (wingspan * (1 + taper_ratio)) in  (* L1880 *)
  let tip_chord := taper_ratio * root_chord_wing in  (* L1881 *)
  let c_fus := root_chord_wing + 2 * b_fus * (tip_chord - root_chord_wing) / wingspan in  (* L1882 *)
  let d_b_fus_d_hwing := body_width * height_to_width * d_sqt in  (* L1885 *)
  let d_b_fus_d_body_width := 5 / 10 * (1 - height_to_width) + height_to_width * sqt in  (* L1886 *)
  let d_b_fus_d_height_to_width := - 5 / 10 * body_width + body_width * sqt in  (* L1887 *)
  let d_c_fus_d_height_to_width := 4 * d_b_fus_d_height_to_width * (taper_ratio - 1) / (taper_ratio + 1) * wing_area /
      wingspan ^ 2 in  (* L1888 *)
  let d_exp_area_d_height_to_width := - d_b_fus_d_height_to_width * c_fus + (wingspan * (5 / 10) - b_fus) *
      d_c_fus_d_height_to_width - d_b_fus_d_height_to_width * 2 * wing_area * taper_ratio / wingspan / (1 +
      taper_ratio) in  (* L1897 *)
  let d_Wing_EXPOSED_AREA__Fuselage_HEIGHT_TO_WIDTH_RATIO := d_exp_area_d_height_to_width in  (* L1907 *)
  let d_c_fus_d_hwing := 4 * d_b_fus_d_hwing * (taper_ratio - 1) / (taper_ratio + 1) * wing_area / wingspan ^ 2 in  (* L1915 *)
  let d_c_fus_d_body_width := 4 * d_b_fus_d_body_width * (taper_ratio - 1) / (taper_ratio + 1) * wing_area / wingspan
      ^ 2 in  (* L1923 *)
  let d_c_fus_d_wing_area := 2 / (1 + taper_ratio) * (1 / wingspan + b_fus * 2 * (taper_ratio - 1) / wingspan ^ 2) in  (* L1931 *)
  let d_c_fus_d_wingspan := - 2 * wing_area / (1 + taper_ratio) * (1 / wingspan ^ 2 + b_fus * 4 * (taper_ratio - 1) /
      wingspan ^ 3) in  (* L1936 *)
  let d_c_fus_d_taper_ratio := - 2 * wing_area / (1 + taper_ratio) ^ 2 / wingspan + b_fus * 8 * wing_area / wingspan ^
      2 / (taper_ratio + 1) ^ 2 in  (* L1942 *)
  let d_exp_area_d_hwing := - d_b_fus_d_hwing * c_fus + (wingspan * (5 / 10) - b_fus) * d_c_fus_d_hwing -
      d_b_fus_d_hwing * 2 * wing_area * taper_ratio / wingspan / (1 + taper_ratio) in  (* L1947 *)
  let d_Wing_EXPOSED_AREA__Wing_VERTICAL_MOUNT_LOCATION := d_exp_area_d_hwing in  (* L1952 *)
  let d_exp_area_d_body_width := - d_b_fus_d_body_width * c_fus + (wingspan * (5 / 10) - b_fus) * d_c_fus_d_body_width
      - d_b_fus_d_body_width * 2 * wing_area * taper_ratio / wingspan / (1 + taper_ratio) in  (* L1954 *)
  let d_Wing_EXPOSED_AREA__Fuselage_AVG_DIAMETER := d_exp_area_d_body_width in  (* L1959 *)
  let d_exp_area_d_wingspan := 5 / 10 * c_fus + (5 / 10 * wingspan - b_fus) * d_c_fus_d_wingspan + b_fus * 2 *
      wing_area * taper_ratio / wingspan ^ 2 / (1 + taper_ratio) in  (* L1961 *)
  let d_Wing_EXPOSED_AREA__Wing_SPAN := d_exp_area_d_wingspan in  (* L1966 *)
  let d_exp_area_d_taper_ratio := (5 / 10 * wingspan - b_fus) * d_c_fus_d_taper_ratio + wing_area / (1 + taper_ratio)
      ^ 2 - b_fus * 2 * wing_area / wingspan / (1 + taper_ratio) ^ 2 in  (* L1968 *)
  let d_Wing_EXPOSED_AREA__Wing_TAPER_RATIO := d_exp_area_d_taper_ratio in  (* L1973 *)
  let d_exp_area_d_wing_area := (5 / 10 * wingspan - b_fus) * d_c_fus_d_wing_area + taper_ratio / (1 + taper_ratio) -
      b_fus * 2 * taper_ratio / wingspan / (1 + taper_ratio) in  (* L1975 *)
  let d_Wing_EXPOSED_AREA__Wing_AREA := d_exp_area_d_wing_area in  (* L1980 *)
  [(Aircraft_Wing_EXPOSED_AREA, Aircraft_Fuselage_HEIGHT_TO_WIDTH_RATIO,
      d_Wing_EXPOSED_AREA__Fuselage_HEIGHT_TO_WIDTH_RATIO);
   (Aircraft_Wing_EXPOSED_AREA, Aircraft_Wing_VERTICAL_MOUNT_LOCATION,
       d_Wing_EXPOSED_AREA__Wing_VERTICAL_MOUNT_LOCATION);
   (Aircraft_Wing_EXPOSED_AREA, Aircraft_Fuselage_AVG_DIAMETER, d_Wing_EXPOSED_AREA__Fuselage_AVG_DIAMETER);
   (Aircraft_Wing_EXPOSED_AREA, Aircraft_Wing_SPAN, d_Wing_EXPOSED_AREA__Wing_SPAN);
   (Aircraft_Wing_EXPOSED_AREA, Aircraft_Wing_TAPER_RATIO, d_Wing_EXPOSED_AREA__Wing_TAPER_RATIO);
   (Aircraft_Wing_EXPOSED_AREA, Aircraft_Wing_AREA, d_Wing_EXPOSED_AREA__Wing_AREA)].

(** Inputs, outputs and declared partials: /repo/aviary/subsystems/geometry/gasp_based/wing.py L1776-1810 *)
Definition ExposedWingBWB (op : options) : comp := {|
  c_ins := [Aircraft_Wing_VERTICAL_MOUNT_LOCATION;
            Aircraft_Fuselage_AVG_DIAMETER;
            Aircraft_Fuselage_HEIGHT_TO_WIDTH_RATIO;
            Aircraft_Wing_SPAN;
            Aircraft_Wing_TAPER_RATIO;
            Aircraft_Wing_AREA];
  c_outs := [Aircraft_Wing_EXPOSED_AREA];
  c_decl := [(Aircraft_Wing_EXPOSED_AREA, Aircraft_Wing_VERTICAL_MOUNT_LOCATION, 0);
             (Aircraft_Wing_EXPOSED_AREA, Aircraft_Fuselage_AVG_DIAMETER, 0);
             (Aircraft_Wing_EXPOSED_AREA, Aircraft_Wing_SPAN, 0);
             (Aircraft_Wing_EXPOSED_AREA, Aircraft_Wing_TAPER_RATIO, 0);
             (Aircraft_Wing_EXPOSED_AREA, Aircraft_Wing_AREA, 0);
             (Aircraft_Wing_EXPOSED_AREA, Aircraft_Fuselage_HEIGHT_TO_WIDTH_RATIO, 0)];
  c_run := ExposedWingBWB_compute op; c_jac := ExposedWingBWB_partials op |}.

(** ExposedWing.compute, /repo/aviary/subsystems/geometry/gasp_based/wing.py L1812-1849 (one engine type or one node) *)
Definition ExposedWingTW_compute (op : options) (e : env) : list (string * R) :=
  let design_type := oe op Aircraft_Design_TYPE in  (* L1813 *)
  let h_wing := e Aircraft_Wing_VERTICAL_MOUNT_LOCATION in  (* L1816 *)
  let body_width := e Aircraft_Fuselage_AVG_DIAMETER in  (* L1817 *)
  let sqt :=  (* L1819 *)
    if ((leb (5 / 100) h_wing) && (leb h_wing (1 - 5 / 100)))%bool then
      let sqt := sqrt (25 / 100 - (5 / 10 - h_wing) ^ 2) in  (* L1820 *)
      sqt
    else
      let sqt :=  (* L1821 *)
        if ((leb 0 h_wing) && (ltb h_wing (5 / 100)))%bool then
          let sqt := mount_g1 h_wing in  (* L1822 *)
          sqt
        else
          let sqt :=  (* L1823 *)
            if ((leb h_wing 1) && (ltb (1 - 5 / 100) h_wing))%bool then
              let sqt := mount_g2 h_wing in  (* L1824 *)
              sqt
            else
              0 in
          sqt in
      sqt in
  let b_fus := body_width * sqt in  (* L1832 *)
  let wingspan := e Aircraft_Wing_SPAN in  (* L1834 *)
  let wing_area := e Aircraft_Wing_AREA in  (* L1835 *)
  let taper_ratio := e Aircraft_Wing_TAPER_RATIO in  (* L1836 *)
  let root_chord_wing := 2 * wing_area / (wingspan * (1 + taper_ratio)) in  (* L1844 *)
  let tip_chord := taper_ratio * root_chord_wing in  (* L1845 *)
  let c_fus := root_chord_wing + 2 * b_fus * (tip_chord - root_chord_wing) / wingspan in  (* L1846 *)
  let exp_wing_area := (wingspan / 2 - b_fus) * (c_fus + tip_chord) in  (* L1848 *)
  let o_Wing_EXPOSED_AREA := exp_wing_area in  (* L1849 *)
  [(Aircraft_Wing_EXPOSED_AREA, o_Wing_EXPOSED_AREA)].

(** ExposedWing.compute_partials, /repo/aviary/subsystems/geometry/gasp_based/wing.py L1851-1980 *)
Definition ExposedWingTW_partials (op : options) (e : env) : list (string * string * R) :=
  let design_type := oe op Aircraft_Design_TYPE in  (* L1852 *)
  let h_wing := e Aircraft_Wing_VERTICAL_MOUNT_LOCATION in  (* L1854 *)
  let body_width := e Aircraft_Fuselage_AVG_DIAMETER in  (* L1855 *)
  let height_to_width := e Aircraft_Fuselage_HEIGHT_TO_WIDTH_RATIO in  (* L1856 *)
  let '(sqt, d_sqt) :=  (* L1858 *)
    if ((leb (5 / 100) h_wing) && (leb h_wing (1 - 5 / 100)))%bool then
      let sqt := sqrt (25 / 100 - (5 / 10 - h_wing) ^ 2) in  (* L1859 *)
      let d_sqt := mount_df h_wing in  (* L1860 *)
      (sqt, d_sqt)
    else
      let '(sqt, d_sqt) :=  (* L1861 *)
        if ((leb 0 h_wing) && (ltb h_wing (5 / 100)))%bool then
          let sqt := mount_g1 h_wing in  (* L1862 *)
          let d_sqt := mount_dg1 h_wing in  (* L1863 *)
          (sqt, d_sqt)
        else
          let '(sqt, d_sqt) :=  (* L1864 *)
            if ((leb h_wing 1) && (ltb (1 - 5 / 100) h_wing))%bool then
              let sqt := mount_g2 h_wing in  (* L1865 *)
              let d_sqt := mount_dg2 h_wing in  (* L1866 *)
              (sqt, d_sqt)
            else
              (0, 0) in
          (sqt, d_sqt) in
      (sqt, d_sqt) in
  let b_fus := body_width * sqt in  (* L1874 *)
  let wingspan := e Aircraft_Wing_SPAN in  (* L1876 *)
  let wing_area := e Aircraft_Wing_AREA in  (* L1877 *)
  let taper_ratio := e Aircraft_Wing_TAPER_RATIO in  (* L1878 *)
  let root_chord_wing := 2 * wing_area / (wingspan * (1 + taper_ratio)) in  (* L1880 *)
  let tip_chord := taper_ratio * root_chord_wing in  (* L1881 *)
  let c_fus := root_chord_wing + 2 * b_fus * (tip_chord - root_chord_wing) / wingspan in  (* L1882 *)
  let d_b_fus_d_hwing := body_width * d_sqt in  (* L1912 *)
  let d_b_fus_d_body_width := sqt in  (* L1913 *)
  let d_c_fus_d_hwing := 4 * d_b_fus_d_hwing * (taper_ratio - 1) / (taper_ratio + 1) * wing_area / wingspan ^ 2 in  (* L1915 *)
  let d_c_fus_d_body_width := 4 * d_b_fus_d_body_width * (taper_ratio - 1) / (taper_ratio + 1) * wing_area / wingspan
      ^ 2 in  (* L1923 *)
  let d_c_fus_d_wing_area := 2 / (1 + taper_ratio) * (1 / wingspan + b_fus * 2 * (taper_ratio - 1) / wingspan ^ 2) in  (* L1931 *)
  let d_c_fus_d_wingspan := - 2 * wing_area / (1 + taper_ratio) * (1 / wingspan ^ 2 + b_fus * 4 * (taper_ratio - 1) /
      wingspan ^ 3) in  (* L1936 *)
  let d_c_fus_d_taper_ratio := - 2 * wing_area / (1 + taper_ratio) ^ 2 / wingspan + b_fus * 8 * wing_area / wingspan ^
      2 / (taper_ratio + 1) ^ 2 in  (* L1942 *)
  let d_exp_area_d_hwing := - d_b_fus_d_hwing * c_fus + (wingspan * (5 / 10) - b_fus) * d_c_fus_d_hwing -
      d_b_fus_d_hwing * 2 * wing_area * taper_ratio / wingspan / (1 + taper_ratio) in  (* L1947 *)
  let d_Wing_EXPOSED_AREA__Wing_VERTICAL_MOUNT_LOCATION := d_exp_area_d_hwing in  (* L1952 *)
  let d_exp_area_d_body_width := - d_b_fus_d_body_width * c_fus + (wingspan * (5 / 10) - b_fus) * d_c_fus_d_body_width
      - d_b_fus_d_body_width * 2 * wing_area * taper_ratio / wingspan / (1 + taper_ratio) in  (* L1954 *)
  let d_Wing_EXPOSED_AREA__Fuselage_AVG_DIAMETER := d_exp_area_d_body_width in  (* L1959 *)
  let d_exp_area_d_wingspan := 5 / 10 * c_fus + (5 / 10 * wingspan - b_fus) * d_c_fus_d_wingspan + b_fus * 2 *
      wing_area * taper_ratio / wingspan ^ 2 / (1 + taper_ratio) in  (* L1961 *)
  let d_Wing_EXPOSED_AREA__Wing_SPAN := d_exp_area_d_wingspan in  (* L1966 *)
  let d_exp_area_d_taper_ratio := (5 / 10 * wingspan - b_fus) * d_c_fus_d_taper_ratio + wing_area / (1 + taper_ratio)
      ^ 2 - b_fus * 2 * wing_area / wingspan / (1 + taper_ratio) ^ 2 in  (* L1968 *)
  let d_Wing_EXPOSED_AREA__Wing_TAPER_RATIO := d_exp_area_d_taper_ratio in  (* L1973 *)
  let d_exp_area_d_wing_area := (5 / 10 * wingspan - b_fus) * d_c_fus_d_wing_area + taper_ratio / (1 + taper_ratio) -
      b_fus * 2 * taper_ratio / wingspan / (1 + taper_ratio) in  (* L1975 *)
  let d_Wing_EXPOSED_AREA__Wing_AREA := d_exp_area_d_wing_area in  (* L1980 *)
  [(Aircraft_Wing_EXPOSED_AREA, Aircraft_Wing_VERTICAL_MOUNT_LOCATION,
      d_Wing_EXPOSED_AREA__Wing_VERTICAL_MOUNT_LOCATION);
   (Aircraft_Wing_EXPOSED_AREA, Aircraft_Fuselage_AVG_DIAMETER, d_Wing_EXPOSED_AREA__Fuselage_AVG_DIAMETER);
   (Aircraft_Wing_EXPOSED_AREA, Aircraft_Wing_SPAN, d_Wing_EXPOSED_AREA__Wing_SPAN);
   (Aircraft_Wing_EXPOSED_AREA, Aircraft_Wing_TAPER_RATIO, d_Wing_EXPOSED_AREA__Wing_TAPER_RATIO);
   (Aircraft_Wing_EXPOSED_AREA, Aircraft_Wing_AREA, d_Wing_EXPOSED_AREA__Wing_AREA)].

(** Inputs, outputs and declared partials: /repo/aviary/subsystems/geometry/gasp_based/wing.py L1776-1810 *)
Definition ExposedWingTW (op : options) : comp := {|
  c_ins := [Aircraft_Wing_VERTICAL_MOUNT_LOCATION;
            Aircraft_Fuselage_AVG_DIAMETER;
            Aircraft_Fuselage_HEIGHT_TO_WIDTH_RATIO;
            Aircraft_Wing_SPAN;
            Aircraft_Wing_TAPER_RATIO;
            Aircraft_Wing_AREA];
  c_outs := [Aircraft_Wing_EXPOSED_AREA];
  c_decl := [(Aircraft_Wing_EXPOSED_AREA, Aircraft_Wing_VERTICAL_MOUNT_LOCATION, 0);
             (Aircraft_Wing_EXPOSED_AREA, Aircraft_Fuselage_AVG_DIAMETER, 0);
             (Aircraft_Wing_EXPOSED_AREA, Aircraft_Wing_SPAN, 0);
             (Aircraft_Wing_EXPOSED_AREA, Aircraft_Wing_TAPER_RATIO, 0);
             (Aircraft_Wing_EXPOSED_AREA, Aircraft_Wing_AREA, 0)];
  c_run := ExposedWingTW_compute op; c_jac := ExposedWingTW_partials op |}.
