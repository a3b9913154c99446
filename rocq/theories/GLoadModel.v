(** GASP design loads and fuel masses: /repo/aviary/subsystems/mass/gasp_based/design_load.py and fuel.py.

    A local variable that is bound on one branch of an if only has the value 0 on the other branch, where Python
        raises
    UnboundLocalError when it is read; theorems exclude these runs.  Warnings that are only printed are left out.

    Generated by tools/py2coq.py from the source text; see the header of that file for the rules.  Decimal
    literals are exact and numbers are real numbers. *)
From Coq Require Import Reals.
From Verif Require Import Base Comp MathModel CompMore CompFun.
Open Scope list_scope.
Open Scope string_scope.
Local Open Scope R_scope.

(** ** Variable names, /repo/aviary/variable_info/variables.py *)
Definition Aircraft_Design_CRUISE_ALTITUDE := "aircraft:design:cruise_altitude".
Definition Aircraft_Design_GROSS_MASS := "aircraft:design:gross_mass".
Definition Aircraft_Design_LIFT_CURVE_SLOPE := "aircraft:design:lift_curve_slope".
Definition Aircraft_Design_MACH := "aircraft:design:mach".
Definition Aircraft_Design_MAX_STRUCTURAL_SPEED := "aircraft:design:max_structural_speed".
Definition Aircraft_Design_PART25_STRUCTURAL_CATEGORY := "aircraft:design:part25_structural_category".
Definition Aircraft_Design_SMOOTH_MASS_DISCONTINUITIES := "aircraft:design:smooth_mass_discontinuities".
Definition Aircraft_Design_ULF_CALCULATED_FROM_MANEUVER := "aircraft:design:ulf_calculated_from_maneuver".
Definition Aircraft_Design_WING_LOADING := "aircraft:design:wing_loading".
Definition Aircraft_Fuel_AUXILIARY_FUEL_MASS_CAPACITY := "aircraft:fuel:auxiliary_fuel_mass_capacity".
Definition Aircraft_Fuel_DENSITY := "aircraft:fuel:density".
Definition Aircraft_Fuel_FUEL_SYSTEM_MASS := "aircraft:fuel:fuel_system_mass".
Definition Aircraft_Fuel_FUEL_SYSTEM_MASS_COEFFICIENT := "aircraft:fuel:fuel_system_mass_coefficient".
Definition Aircraft_Fuel_FUEL_SYSTEM_MASS_SCALER := "aircraft:fuel:fuel_system_mass_scaler".
Definition Aircraft_Fuel_MAX_CAPACITY_MASS := "aircraft:fuel:max_capacity_mass".
Definition Aircraft_Fuel_UNUSABLE_FUEL_MASS := "aircraft:fuel:unusable_fuel_mass".
Definition Aircraft_Fuel_VOLUME_MARGIN := "aircraft:fuel:volume_margin".
Definition Aircraft_Fuel_WING_VOLUME_DESIGN := "aircraft:fuel:wing_volume_design".
Definition Aircraft_Fuel_WING_VOLUME_GEOMETRIC_MAX := "aircraft:fuel:wing_volume_geometric_max".
Definition Aircraft_Fuel_WING_VOLUME_STRUCTURAL_MAX := "aircraft:fuel:wing_volume_structural_max".
Definition Aircraft_Fuselage_AFTBODY_MASS_PER_UNIT_AREA := "aircraft:fuselage:aftbody_mass_per_unit_area".
Definition Aircraft_Fuselage_AVG_DIAMETER := "aircraft:fuselage:avg_diameter".
Definition Aircraft_Fuselage_CABIN_AREA := "aircraft:fuselage:cabin_area".
Definition Aircraft_Fuselage_MASS := "aircraft:fuselage:mass".
Definition Aircraft_Fuselage_MASS_COEFFICIENT := "aircraft:fuselage:mass_coefficient".
Definition Aircraft_Fuselage_MASS_SCALER := "aircraft:fuselage:mass_scaler".
Definition Aircraft_Fuselage_PRESSURE_DIFFERENTIAL := "aircraft:fuselage:pressure_differential".
Definition Aircraft_Fuselage_WETTED_AREA := "aircraft:fuselage:wetted_area".
Definition Aircraft_Fuselage_WETTED_AREA_RATIO_AFTBODY_TO_TOTAL :=
    "aircraft:fuselage:wetted_area_ratio_aftbody_to_total".
Definition Aircraft_TailBoom_LENGTH := "aircraft:tail_boom:length".
Definition Aircraft_Wing_ASPECT_RATIO := "aircraft:wing:aspect_ratio".
Definition Aircraft_Wing_AVERAGE_CHORD := "aircraft:wing:average_chord".
Definition Aircraft_Wing_EXPOSED_AREA := "aircraft:wing:exposed_area".
Definition Aircraft_Wing_LOADING_ABOVE_20 := "aircraft:wing:loading_above_20".
Definition Aircraft_Wing_MASS := "aircraft:wing:mass".
Definition Aircraft_Wing_SWEEP := "aircraft:wing:sweep".
Definition Aircraft_Wing_ULTIMATE_LOAD_FACTOR := "aircraft:wing:ultimate_load_factor".
Definition Mission_OPERATING_MASS := "mission:operating_mass".
Definition Mission_SEA_LEVEL_DENSITY := "mission:sea_level_density".
Definition Settings_VERBOSITY := "settings:verbosity".
Definition v_MAT := "MAT".
Definition v_OEM_fuel_vol := "OEM_fuel_vol".
Definition v_OEM_wingfuel_mass := "OEM_wingfuel_mass".
Definition v_V9 := "V9".
Definition v_density_ratio := "density_ratio".
Definition v_extra_fuel_volume := "extra_fuel_volume".
Definition v_fuel_mass := "fuel_mass".
Definition v_fuel_mass_min := "fuel_mass_min".
Definition v_fuel_mass_required := "fuel_mass_required".
Definition v_fus_mass_full := "fus_mass_full".
Definition v_max_airspeed := "max_airspeed".
Definition v_max_extra_fuel_mass := "max_extra_fuel_mass".
Definition v_max_mach := "max_mach".
Definition v_max_maneuver_factor := "max_maneuver_factor".
Definition v_max_wingfuel_mass := "max_wingfuel_mass".
Definition v_min_dive_vel := "min_dive_vel".
Definition v_mu := "mu".
Definition v_payload_mass_des := "payload_mass_des".
Definition v_payload_mass_max := "payload_mass_max".
Definition v_payload_mass_max_fuel := "payload_mass_max_fuel".
Definition v_pylon_len := "pylon_len".
Definition v_vel_c := "vel_c".
Definition v_volume_wingfuel_mass := "volume_wingfuel_mass".
Definition v_wing_mounted_mass := "wing_mounted_mass".
Definition v_wingfuel_mass_min := "wingfuel_mass_min".


(** LoadSpeeds.compute, /repo/aviary/subsystems/mass/gasp_based/design_load.py L52-132 (one engine type or one node) *)
Definition LoadSpeedsLightSharp_compute (op : options) (e : env) : list (string * R) :=
  let max_struct_speed_mph := e Aircraft_Design_MAX_STRUCTURAL_SPEED in  (* L53 *)
  let CATD := on op Aircraft_Design_PART25_STRUCTURAL_CATEGORY in  (* L55 *)
  let smooth := ob op Aircraft_Design_SMOOTH_MASS_DISCONTINUITIES in  (* L56 *)
  let WGS_greater_than_20_flag := ob op Aircraft_Wing_LOADING_ABOVE_20 in  (* L57 *)
  let max_struct_speed_kts := max_struct_speed_mph / (115 / 100) in  (* L59 *)
  let wing_loading := e Aircraft_Design_WING_LOADING in  (* L62 *)
  let VCMAX := 9 / 10 * max_struct_speed_kts in  (* L64 *)
  let VCCOF := 33 in  (* L65 *)
  let VCCOF :=  (* L66 *)
    if WGS_greater_than_20_flag then
      let VCCOF := 33 - 55 / 1000 * (wing_loading - 20) in  (* L67 *)
      VCCOF
    else
      VCCOF in
  let VCCOF :=  (* L69 *)
    if eqb CATD 2 then
      let VCCOF := 36 in  (* L70 *)
      let VCCOF :=  (* L71 *)
        if WGS_greater_than_20_flag then
          let VCCOF := 36 - 925 / 10000 * (wing_loading - 20) in  (* L72 *)
          VCCOF
        else
          VCCOF in
      VCCOF
    else
      VCCOF in
  let VCMIN := VCCOF * wing_loading ** (5 / 10) in  (* L74 *)
  let VCMIN :=  (* L81 *)
    if ltb VCMAX VCMIN then
      let VCMIN := VCMAX in  (* L82 *)
      VCMIN
    else
      VCMIN in
  let VDCOF := 14 / 10 in  (* L84 *)
  let VDCOF :=  (* L85 *)
    if WGS_greater_than_20_flag then
      let VDCOF := 14 / 10 - 625 / 1000000 * (wing_loading - 20) in  (* L86 *)
      VDCOF
    else
      VDCOF in
  let VDCOF :=  (* L88 *)
    if negb (eqb CATD 0) then
      let VDCOF := 15 / 10 in  (* L89 *)
      let VDCOF :=  (* L90 *)
        if WGS_greater_than_20_flag then
          let VDCOF := 15 / 10 - 1875 / 1000000 * (wing_loading - 20) in  (* L91 *)
          VDCOF
        else
          VDCOF in
      let VDCOF :=  (* L93 *)
        if negb (eqb CATD 1) then
          let VDCOF := 155 / 100 in  (* L94 *)
          let VDCOF :=  (* L95 *)
            if WGS_greater_than_20_flag then
              let VDCOF := 155 / 100 - 25 / 10000 * (wing_loading - 20) in  (* L96 *)
              VDCOF
            else
              VDCOF in
          VDCOF
        else
          VDCOF in
      VDCOF
    else
      VDCOF in
  let min_dive_vel := VDCOF * VCMIN in  (* L98 *)
  let min_dive_vel :=  (* L105 *)
    if ltb min_dive_vel max_struct_speed_kts then
      let min_dive_vel := max_struct_speed_kts in  (* L106 *)
      min_dive_vel
    else
      min_dive_vel in
  let max_airspeed := 85 / 100 * min_dive_vel in  (* L108 *)
  let vel_c := VCMIN in  (* L109 *)
  let max_maneuver_factor :=  (* L110 *)
    if eqb CATD 0 then
      let max_maneuver_factor := 38 / 10 in  (* L111 *)
      max_maneuver_factor
    else
      0 in
  let max_maneuver_factor :=  (* L112 *)
    if eqb CATD 1 then
      let max_maneuver_factor := 44 / 10 in  (* L113 *)
      max_maneuver_factor
    else
      let max_maneuver_factor :=  (* L114 *)
        if eqb CATD 2 then
          let max_maneuver_factor := 6 in  (* L115 *)
          max_maneuver_factor
        else
          max_maneuver_factor in
      max_maneuver_factor in
  let o_max_airspeed := max_airspeed in  (* L129 *)
  let o_vel_c := vel_c in  (* L130 *)
  let o_max_maneuver_factor := max_maneuver_factor in  (* L131 *)
  let o_min_dive_vel := min_dive_vel in  (* L132 *)
  [(v_max_airspeed, o_max_airspeed);
   (v_vel_c, o_vel_c);
   (v_max_maneuver_factor, o_max_maneuver_factor);
   (v_min_dive_vel, o_min_dive_vel)].

(** LoadSpeeds.compute_partials, /repo/aviary/subsystems/mass/gasp_based/design_load.py L134-330 *)
Definition LoadSpeedsLightSharp_partials (op : options) (e : env) : list (string * string * R) :=
  let max_struct_speed_mph := e Aircraft_Design_MAX_STRUCTURAL_SPEED in  (* L135 *)
  let CATD := on op Aircraft_Design_PART25_STRUCTURAL_CATEGORY in  (* L137 *)
  let smooth := ob op Aircraft_Design_SMOOTH_MASS_DISCONTINUITIES in  (* L138 *)
  let WGS_greater_than_20_flag := ob op Aircraft_Wing_LOADING_ABOVE_20 in  (* L139 *)
  let max_struct_speed_kts := max_struct_speed_mph / (115 / 100) in  (* L141 *)
  let dmax_struct_speed_kts_dmax_struct_speed_mph := 1 / (115 / 100) in  (* L142 *)
  let dmax_struct_speed_kts_dwing_loading := 0 in  (* L143 *)
  let wing_loading := e Aircraft_Design_WING_LOADING in  (* L146 *)
  let VCMAX := 9 / 10 * max_struct_speed_kts in  (* L147 *)
  let VCCOF := 33 in  (* L148 *)
  let dVCCOF_dwing_loading := 0 in  (* L149 *)
  let dVCMAX_dmax_struct_speed_mph := 9 / 10 / (115 / 100) in  (* L150 *)
  let '(VCCOF, dVCCOF_dwing_loading) :=  (* L152 *)
    if WGS_greater_than_20_flag then
      let VCCOF := 33 - 55 / 1000 * (wing_loading - 20) in  (* L153 *)
      let dVCCOF_dwing_loading := - 55 / 1000 in  (* L154 *)
      (VCCOF, dVCCOF_dwing_loading)
    else
      (VCCOF, dVCCOF_dwing_loading) in
  let '(VCCOF, dVCCOF_dwing_loading) :=  (* L156 *)
    if eqb CATD 2 then
      let VCCOF := 36 in  (* L157 *)
      let dVCCOF_dwing_loading := 0 in  (* L158 *)
      let '(VCCOF, dVCCOF_dwing_loading) :=  (* L159 *)
        if WGS_greater_than_20_flag then
          let VCCOF := 36 - 925 / 10000 * (wing_loading - 20) in  (* L160 *)
          let dVCCOF_dwing_loading := - 925 / 10000 in  (* L161 *)
          (VCCOF, dVCCOF_dwing_loading)
        else
          (VCCOF, dVCCOF_dwing_loading) in
      (VCCOF, dVCCOF_dwing_loading)
    else
      (VCCOF, dVCCOF_dwing_loading) in
  let VCMIN := VCCOF * wing_loading ** (5 / 10) in  (* L163 *)
  let dVCMIN_dwing_loading := dVCCOF_dwing_loading * wing_loading ** (5 / 10) + VCCOF * (5 / 10) * wing_loading ** (-
      5 / 10) in  (* L164 *)
  let dVCMIN_dmax_struct_speed_mph := 0 in  (* L167 *)
  let '(VCMIN, dVCMIN_dmax_struct_speed_mph, dVCMIN_dwing_loading) :=  (* L201 *)
    if ltb VCMAX VCMIN then
      let VCMIN := VCMAX in  (* L202 *)
      let dVCMIN_dmax_struct_speed_mph := dVCMAX_dmax_struct_speed_mph in  (* L203 *)
      let dVCMIN_dwing_loading := 0 in  (* L204 *)
      (VCMIN, dVCMIN_dmax_struct_speed_mph, dVCMIN_dwing_loading)
    else
      (VCMIN, dVCMIN_dmax_struct_speed_mph, dVCMIN_dwing_loading) in
  let '(dVCMIN_dwing_loading, dVCMIN_dmax_struct_speed_mph) :=  (* L207 *)
    if eqb CATD 1 then
      let dVCMIN_dwing_loading := 0 in  (* L208 *)
      let dVCMIN_dmax_struct_speed_mph := 9 / 10 / (115 / 100) in  (* L209 *)
      (dVCMIN_dwing_loading, dVCMIN_dmax_struct_speed_mph)
    else
      (dVCMIN_dwing_loading, dVCMIN_dmax_struct_speed_mph) in
  let VDCOF := 14 / 10 in  (* L211 *)
  let dVDCOF_dwing_loading := 0 in  (* L212 *)
  let '(VDCOF, dVDCOF_dwing_loading) :=  (* L214 *)
    if WGS_greater_than_20_flag then
      let VDCOF := 14 / 10 - 625 / 1000000 * (wing_loading - 20) in  (* L215 *)
      let dVDCOF_dwing_loading := - 625 / 1000000 in  (* L216 *)
      (VDCOF, dVDCOF_dwing_loading)
    else
      (VDCOF, dVDCOF_dwing_loading) in
  let '(VDCOF, dVDCOF_dwing_loading) :=  (* L218 *)
    if negb (eqb CATD 0) then
      let VDCOF := 15 / 10 in  (* L219 *)
      let dVDCOF_dwing_loading := 0 in  (* L220 *)
      let '(VDCOF, dVDCOF_dwing_loading) :=  (* L221 *)
        if WGS_greater_than_20_flag then
          let VDCOF := 15 / 10 - 1875 / 1000000 * (wing_loading - 20) in  (* L222 *)
          let dVDCOF_dwing_loading := - 1875 / 1000000 in  (* L223 *)
          (VDCOF, dVDCOF_dwing_loading)
        else
          (VDCOF, dVDCOF_dwing_loading) in
      let '(VDCOF, dVDCOF_dwing_loading) :=  (* L225 *)
        if negb (eqb CATD 1) then
          let VDCOF := 155 / 100 in  (* L226 *)
          let dVDCOF_dwing_loading := 0 in  (* L227 *)
          let '(VDCOF, dVDCOF_dwing_loading) :=  (* L228 *)
            if WGS_greater_than_20_flag then
              let VDCOF := 155 / 100 - 25 / 10000 * (wing_loading - 20) in  (* L229 *)
              let dVDCOF_dwing_loading := - 25 / 10000 in  (* L230 *)
              (VDCOF, dVDCOF_dwing_loading)
            else
              (VDCOF, dVDCOF_dwing_loading) in
          (VDCOF, dVDCOF_dwing_loading)
        else
          (VDCOF, dVDCOF_dwing_loading) in
      (VDCOF, dVDCOF_dwing_loading)
    else
      (VDCOF, dVDCOF_dwing_loading) in
  let min_dive_vel := VDCOF * VCMIN in  (* L232 *)
  let dmin_dive_vel_dwing_loading := dVDCOF_dwing_loading * VCMIN + VDCOF * dVCMIN_dwing_loading in  (* L233 *)
  let dmin_dive_vel_dmax_struct_speed_mph := VDCOF * dVCMIN_dmax_struct_speed_mph in  (* L236 *)
  let '(min_dive_vel, dmin_dive_vel_dwing_loading, dmin_dive_vel_dmax_struct_speed_mph) :=  (* L288 *)
    if ltb min_dive_vel max_struct_speed_kts then
      let min_dive_vel := max_struct_speed_kts in  (* L289 *)
      let dmin_dive_vel_dwing_loading := 0 in  (* L290 *)
      let dmin_dive_vel_dmax_struct_speed_mph := dmax_struct_speed_kts_dmax_struct_speed_mph in  (* L291 *)
      (min_dive_vel, dmin_dive_vel_dwing_loading, dmin_dive_vel_dmax_struct_speed_mph)
    else
      (min_dive_vel, dmin_dive_vel_dwing_loading, dmin_dive_vel_dmax_struct_speed_mph) in
  let d_min_dive_vel__Design_WING_LOADING := dmin_dive_vel_dwing_loading in  (* L295 *)
  let d_min_dive_vel__Design_MAX_STRUCTURAL_SPEED := dmin_dive_vel_dmax_struct_speed_mph in  (* L296 *)
  let d_max_airspeed__Design_WING_LOADING := 85 / 100 * dmin_dive_vel_dwing_loading in  (* L300 *)
  let d_max_airspeed__Design_MAX_STRUCTURAL_SPEED := 85 / 100 * dmin_dive_vel_dmax_struct_speed_mph in  (* L303 *)
  let d_vel_c__Design_WING_LOADING := dVCMIN_dwing_loading in  (* L307 *)
  let d_vel_c__Design_MAX_STRUCTURAL_SPEED := dVCMIN_dmax_struct_speed_mph in  (* L308 *)
  [(v_min_dive_vel, Aircraft_Design_WING_LOADING, d_min_dive_vel__Design_WING_LOADING);
   (v_min_dive_vel, Aircraft_Design_MAX_STRUCTURAL_SPEED, d_min_dive_vel__Design_MAX_STRUCTURAL_SPEED);
   (v_max_airspeed, Aircraft_Design_WING_LOADING, d_max_airspeed__Design_WING_LOADING);
   (v_max_airspeed, Aircraft_Design_MAX_STRUCTURAL_SPEED, d_max_airspeed__Design_MAX_STRUCTURAL_SPEED);
   (v_vel_c, Aircraft_Design_WING_LOADING, d_vel_c__Design_WING_LOADING);
   (v_vel_c, Aircraft_Design_MAX_STRUCTURAL_SPEED, d_vel_c__Design_MAX_STRUCTURAL_SPEED)].

(** Inputs, outputs and declared partials: /repo/aviary/subsystems/mass/gasp_based/design_load.py L27-50 *)
Definition LoadSpeedsLightSharp (op : options) : comp := {|
  c_ins := [Aircraft_Design_MAX_STRUCTURAL_SPEED;
            Aircraft_Design_WING_LOADING];
  c_outs := [v_max_airspeed;
             v_vel_c;
             v_max_maneuver_factor;
             v_min_dive_vel];
  c_decl := [(v_max_airspeed, Aircraft_Design_MAX_STRUCTURAL_SPEED, 0);
             (v_max_airspeed, Aircraft_Design_WING_LOADING, 0);
             (v_vel_c, Aircraft_Design_MAX_STRUCTURAL_SPEED, 0);
             (v_vel_c, Aircraft_Design_WING_LOADING, 0);
             (v_max_maneuver_factor, Aircraft_Design_MAX_STRUCTURAL_SPEED, 0);
             (v_max_maneuver_factor, Aircraft_Design_WING_LOADING, 0);
             (v_min_dive_vel, Aircraft_Design_MAX_STRUCTURAL_SPEED, 0);
             (v_min_dive_vel, Aircraft_Design_WING_LOADING, 0)];
  c_run := LoadSpeedsLightSharp_compute op; c_jac := LoadSpeedsLightSharp_partials op |}.

(** LoadSpeeds.compute, /repo/aviary/subsystems/mass/gasp_based/design_load.py L52-132 (one engine type or one node) *)
Definition LoadSpeedsLightSmooth_compute (op : options) (e : env) : list (string * R) :=
  let max_struct_speed_mph := e Aircraft_Design_MAX_STRUCTURAL_SPEED in  (* L53 *)
  let CATD := on op Aircraft_Design_PART25_STRUCTURAL_CATEGORY in  (* L55 *)
  let smooth := ob op Aircraft_Design_SMOOTH_MASS_DISCONTINUITIES in  (* L56 *)
  let WGS_greater_than_20_flag := ob op Aircraft_Wing_LOADING_ABOVE_20 in  (* L57 *)
  let max_struct_speed_kts := max_struct_speed_mph / (115 / 100) in  (* L59 *)
  let wing_loading := e Aircraft_Design_WING_LOADING in  (* L62 *)
  let VCMAX := 9 / 10 * max_struct_speed_kts in  (* L64 *)
  let VCCOF := 33 in  (* L65 *)
  let VCCOF :=  (* L66 *)
    if WGS_greater_than_20_flag then
      let VCCOF := 33 - 55 / 1000 * (wing_loading - 20) in  (* L67 *)
      VCCOF
    else
      VCCOF in
  let VCCOF :=  (* L69 *)
    if eqb CATD 2 then
      let VCCOF := 36 in  (* L70 *)
      let VCCOF :=  (* L71 *)
        if WGS_greater_than_20_flag then
          let VCCOF := 36 - 925 / 10000 * (wing_loading - 20) in  (* L72 *)
          VCCOF
        else
          VCCOF in
      VCCOF
    else
      VCCOF in
  let VCMIN := VCCOF * wing_loading ** (5 / 10) in  (* L74 *)
  let VCMIN := VCMIN * sigmoidX1 (VCMIN / VCMAX) 1 (- 1 / 100) + VCMAX * sigmoidX1 (VCMIN / VCMAX) 1 (1 / 100) in  (* L77 *)
  let VDCOF := 14 / 10 in  (* L84 *)
  let VDCOF :=  (* L85 *)
    if WGS_greater_than_20_flag then
      let VDCOF := 14 / 10 - 625 / 1000000 * (wing_loading - 20) in  (* L86 *)
      VDCOF
    else
      VDCOF in
  let VDCOF :=  (* L88 *)
    if negb (eqb CATD 0) then
      let VDCOF := 15 / 10 in  (* L89 *)
      let VDCOF :=  (* L90 *)
        if WGS_greater_than_20_flag then
          let VDCOF := 15 / 10 - 1875 / 1000000 * (wing_loading - 20) in  (* L91 *)
          VDCOF
        else
          VDCOF in
      let VDCOF :=  (* L93 *)
        if negb (eqb CATD 1) then
          let VDCOF := 155 / 100 in  (* L94 *)
          let VDCOF :=  (* L95 *)
            if WGS_greater_than_20_flag then
              let VDCOF := 155 / 100 - 25 / 10000 * (wing_loading - 20) in  (* L96 *)
              VDCOF
            else
              VDCOF in
          VDCOF
        else
          VDCOF in
      VDCOF
    else
      VDCOF in
  let min_dive_vel := VDCOF * VCMIN in  (* L98 *)
  let min_dive_vel := max_struct_speed_kts * sigmoidX1 (min_dive_vel / max_struct_speed_kts) 1 (- 1 / 100) +
      min_dive_vel * sigmoidX1 (min_dive_vel / max_struct_speed_kts) 1 (1 / 100) in  (* L101 *)
  let max_airspeed := 85 / 100 * min_dive_vel in  (* L108 *)
  let vel_c := VCMIN in  (* L109 *)
  let max_maneuver_factor :=  (* L110 *)
    if eqb CATD 0 then
      let max_maneuver_factor := 38 / 10 in  (* L111 *)
      max_maneuver_factor
    else
      0 in
  let max_maneuver_factor :=  (* L112 *)
    if eqb CATD 1 then
      let max_maneuver_factor := 44 / 10 in  (* L113 *)
      max_maneuver_factor
    else
      let max_maneuver_factor :=  (* L114 *)
        if eqb CATD 2 then
          let max_maneuver_factor := 6 in  (* L115 *)
          max_maneuver_factor
        else
          max_maneuver_factor in
      max_maneuver_factor in
  let o_max_airspeed := max_airspeed in  (* L129 *)
  let o_vel_c := vel_c in  (* L130 *)
  let o_max_maneuver_factor := max_maneuver_factor in  (* L131 *)
  let o_min_dive_vel := min_dive_vel in  (* L132 *)
  [(v_max_airspeed, o_max_airspeed);
   (v_vel_c, o_vel_c);
   (v_max_maneuver_factor, o_max_maneuver_factor);
   (v_min_dive_vel, o_min_dive_vel)].

(** LoadSpeeds.compute_partials, /repo/aviary/subsystems/mass/gasp_based/design_load.py L134-330 *)
Definition LoadSpeedsLightSmooth_partials (op : options) (e : env) : list (string * string * R) :=
  let max_struct_speed_mph := e Aircraft_Design_MAX_STRUCTURAL_SPEED in  (* L135 *)
  let CATD := on op Aircraft_Design_PART25_STRUCTURAL_CATEGORY in  (* L137 *)
  let smooth := ob op Aircraft_Design_SMOOTH_MASS_DISCONTINUITIES in  (* L138 *)
  let WGS_greater_than_20_flag := ob op Aircraft_Wing_LOADING_ABOVE_20 in  (* L139 *)
  let max_struct_speed_kts := max_struct_speed_mph / (115 / 100) in  (* L141 *)
  let dmax_struct_speed_kts_dmax_struct_speed_mph := 1 / (115 / 100) in  (* L142 *)
  let dmax_struct_speed_kts_dwing_loading := 0 in  (* L143 *)
  let wing_loading := e Aircraft_Design_WING_LOADING in  (* L146 *)
  let VCMAX := 9 / 10 * max_struct_speed_kts in  (* L147 *)
  let VCCOF := 33 in  (* L148 *)
  let dVCCOF_dwing_loading := 0 in  (* L149 *)
  let dVCMAX_dmax_struct_speed_mph := 9 / 10 / (115 / 100) in  (* L150 *)
  let '(VCCOF, dVCCOF_dwing_loading) :=  (* L152 *)
    if WGS_greater_than_20_flag then
      let VCCOF := 33 - 55 / 1000 * (wing_loading - 20) in  (* L153 *)
      let dVCCOF_dwing_loading := - 55 / 1000 in  (* L154 *)
      (VCCOF, dVCCOF_dwing_loading)
    else
      (VCCOF, dVCCOF_dwing_loading) in
  let '(VCCOF, dVCCOF_dwing_loading) :=  (* L156 *)
    if eqb CATD 2 then
      let VCCOF := 36 in  (* L157 *)
      let dVCCOF_dwing_loading := 0 in  (* L158 *)
      let '(VCCOF, dVCCOF_dwing_loading) :=  (* L159 *)
        if WGS_greater_than_20_flag then
          let VCCOF := 36 - 925 / 10000 * (wing_loading - 20) in  (* L160 *)
          let dVCCOF_dwing_loading := - 925 / 10000 in  (* L161 *)
          (VCCOF, dVCCOF_dwing_loading)
        else
          (VCCOF, dVCCOF_dwing_loading) in
      (VCCOF, dVCCOF_dwing_loading)
    else
      (VCCOF, dVCCOF_dwing_loading) in
  let VCMIN := VCCOF * wing_loading ** (5 / 10) in  (* L163 *)
  let dVCMIN_dwing_loading := dVCCOF_dwing_loading * wing_loading ** (5 / 10) + VCCOF * (5 / 10) * wing_loading ** (-
      5 / 10) in  (* L164 *)
  let dVCMIN_dmax_struct_speed_mph := 0 in  (* L167 *)
  let SigA := sigmoidX1 (VCMIN / VCMAX) 1 (- 1 / 100) in  (* L170 *)
  let SigB := sigmoidX1 (VCMIN / VCMAX) 1 (1 / 100) in  (* L171 *)
  let DSigB := dSigmoidX1 (VCMIN / VCMAX) 1 (1 / 100) in  (* L172 *)
  let VCMIN_1 := VCMIN * SigA + VCMAX * SigB in  (* L173 *)
  let dVCMIN_dwing_loading := dVCMIN_dwing_loading * SigA + VCMIN * DSigB * - dVCMIN_dwing_loading / VCMAX + VCMAX *
      DSigB * dVCMIN_dwing_loading / VCMAX in  (* L174 *)
  let dVCMIN_dmax_struct_speed_mph := dVCMIN_dmax_struct_speed_mph * SigA + VCMIN * DSigB * ((* dquotient, L10-12 *)
      let u := VCMAX - VCMIN in let v := VCMAX in let du := dVCMAX_dmax_struct_speed_mph -
      dVCMIN_dmax_struct_speed_mph in let dv := dVCMAX_dmax_struct_speed_mph in (du * v - u * dv) / v ^ 2) +
      dVCMAX_dmax_struct_speed_mph * SigB + VCMAX * DSigB * ((* dquotient, L10-12 *) let u := VCMIN - VCMAX in let v
      := VCMAX in let du := dVCMIN_dmax_struct_speed_mph - dVCMAX_dmax_struct_speed_mph in let dv :=
      dVCMAX_dmax_struct_speed_mph in (du * v - u * dv) / v ^ 2) in  (* L179 *)
  let VCMIN := VCMIN_1 in  (* L199 *)
  let '(dVCMIN_dwing_loading, dVCMIN_dmax_struct_speed_mph) :=  (* L207 *)
    if eqb CATD 1 then
      let dVCMIN_dwing_loading := 0 in  (* L208 *)
      let dVCMIN_dmax_struct_speed_mph := 9 / 10 / (115 / 100) in  (* L209 *)
      (dVCMIN_dwing_loading, dVCMIN_dmax_struct_speed_mph)
    else
      (dVCMIN_dwing_loading, dVCMIN_dmax_struct_speed_mph) in
  let VDCOF := 14 / 10 in  (* L211 *)
  let dVDCOF_dwing_loading := 0 in  (* L212 *)
  let '(VDCOF, dVDCOF_dwing_loading) :=  (* L214 *)
    if WGS_greater_than_20_flag then
      let VDCOF := 14 / 10 - 625 / 1000000 * (wing_loading - 20) in  (* L215 *)
      let dVDCOF_dwing_loading := - 625 / 1000000 in  (* L216 *)
      (VDCOF, dVDCOF_dwing_loading)
    else
      (VDCOF, dVDCOF_dwing_loading) in
  let '(VDCOF, dVDCOF_dwing_loading) :=  (* L218 *)
    if negb (eqb CATD 0) then
      let VDCOF := 15 / 10 in  (* L219 *)
      let dVDCOF_dwing_loading := 0 in  (* L220 *)
      let '(VDCOF, dVDCOF_dwing_loading) :=  (* L221 *)
        if WGS_greater_than_20_flag then
          let VDCOF := 15 / 10 - 1875 / 1000000 * (wing_loading - 20) in  (* L222 *)
          let dVDCOF_dwing_loading := - 1875 / 1000000 in  (* L223 *)
          (VDCOF, dVDCOF_dwing_loading)
        else
          (VDCOF, dVDCOF_dwing_loading) in
      let '(VDCOF, dVDCOF_dwing_loading) :=  (* L225 *)
        if negb (eqb CATD 1) then
          let VDCOF := 155 / 100 in  (* L226 *)
          let dVDCOF_dwing_loading := 0 in  (* L227 *)
          let '(VDCOF, dVDCOF_dwing_loading) :=  (* L228 *)
            if WGS_greater_than_20_flag then
              let VDCOF := 155 / 100 - 25 / 10000 * (wing_loading - 20) in  (* L229 *)
              let dVDCOF_dwing_loading := - 25 / 10000 in  (* L230 *)
              (VDCOF, dVDCOF_dwing_loading)
            else
              (VDCOF, dVDCOF_dwing_loading) in
          (VDCOF, dVDCOF_dwing_loading)
        else
          (VDCOF, dVDCOF_dwing_loading) in
      (VDCOF, dVDCOF_dwing_loading)
    else
      (VDCOF, dVDCOF_dwing_loading) in
  let min_dive_vel := VDCOF * VCMIN in  (* L232 *)
  let dmin_dive_vel_dwing_loading := dVDCOF_dwing_loading * VCMIN + VDCOF * dVCMIN_dwing_loading in  (* L233 *)
  let dmin_dive_vel_dmax_struct_speed_mph := VDCOF * dVCMIN_dmax_struct_speed_mph in  (* L236 *)
  let SigC := sigmoidX1 (min_dive_vel / max_struct_speed_kts) 1 (- 1 / 100) in  (* L239 *)
  let SigD := sigmoidX1 (min_dive_vel / max_struct_speed_kts) 1 (1 / 100) in  (* L240 *)
  let DSigD := dSigmoidX1 (min_dive_vel / max_struct_speed_kts) 1 (1 / 100) in  (* L241 *)
  let min_dive_vel_1 := max_struct_speed_kts * SigC + min_dive_vel * SigD in  (* L242 *)
  let dmin_dive_vel_dmax_struct_speed_mph := dmax_struct_speed_kts_dmax_struct_speed_mph * SigC + max_struct_speed_kts
      * DSigD * ((* dquotient, L10-12 *) let u := max_struct_speed_kts - min_dive_vel in let v := max_struct_speed_kts
      in let du := dmax_struct_speed_kts_dmax_struct_speed_mph - dmin_dive_vel_dmax_struct_speed_mph in let dv :=
      dmax_struct_speed_kts_dmax_struct_speed_mph in (du * v - u * dv) / v ^ 2) + dmin_dive_vel_dmax_struct_speed_mph
      * SigD + min_dive_vel * DSigD * ((* dquotient, L10-12 *) let u := min_dive_vel - max_struct_speed_kts in let v
      := max_struct_speed_kts in let du := dmin_dive_vel_dmax_struct_speed_mph -
      dmax_struct_speed_kts_dmax_struct_speed_mph in let dv := dmax_struct_speed_kts_dmax_struct_speed_mph in (du * v
      - u * dv) / v ^ 2) in  (* L243 *)
  let dmin_dive_vel_dwing_loading := dmax_struct_speed_kts_dwing_loading * SigC + max_struct_speed_kts * DSigD * ((*
      dquotient, L10-12 *) let u := max_struct_speed_kts - min_dive_vel in let v := max_struct_speed_kts in let du :=
      dmax_struct_speed_kts_dwing_loading - dmin_dive_vel_dwing_loading in let dv :=
      dmax_struct_speed_kts_dwing_loading in (du * v - u * dv) / v ^ 2) + dmin_dive_vel_dwing_loading * SigD +
      min_dive_vel * DSigD * ((* dquotient, L10-12 *) let u := min_dive_vel - max_struct_speed_kts in let v :=
      max_struct_speed_kts in let du := dmin_dive_vel_dwing_loading - dmax_struct_speed_kts_dwing_loading in let dv :=
      dmax_struct_speed_kts_dwing_loading in (du * v - u * dv) / v ^ 2) in  (* L265 *)
  let min_dive_vel := min_dive_vel_1 in  (* L285 *)
  let d_min_dive_vel__Design_WING_LOADING := dmin_dive_vel_dwing_loading in  (* L295 *)
  let d_min_dive_vel__Design_MAX_STRUCTURAL_SPEED := dmin_dive_vel_dmax_struct_speed_mph in  (* L296 *)
  let d_max_airspeed__Design_WING_LOADING := 85 / 100 * dmin_dive_vel_dwing_loading in  (* L300 *)
  let d_max_airspeed__Design_MAX_STRUCTURAL_SPEED := 85 / 100 * dmin_dive_vel_dmax_struct_speed_mph in  (* L303 *)
  let d_vel_c__Design_WING_LOADING := dVCMIN_dwing_loading in  (* L307 *)
  let d_vel_c__Design_MAX_STRUCTURAL_SPEED := dVCMIN_dmax_struct_speed_mph in  (* L308 *)
  [(v_min_dive_vel, Aircraft_Design_WING_LOADING, d_min_dive_vel__Design_WING_LOADING);
   (v_min_dive_vel, Aircraft_Design_MAX_STRUCTURAL_SPEED, d_min_dive_vel__Design_MAX_STRUCTURAL_SPEED);
   (v_max_airspeed, Aircraft_Design_WING_LOADING, d_max_airspeed__Design_WING_LOADING);
   (v_max_airspeed, Aircraft_Design_MAX_STRUCTURAL_SPEED, d_max_airspeed__Design_MAX_STRUCTURAL_SPEED);
   (v_vel_c, Aircraft_Design_WING_LOADING, d_vel_c__Design_WING_LOADING);
   (v_vel_c, Aircraft_Design_MAX_STRUCTURAL_SPEED, d_vel_c__Design_MAX_STRUCTURAL_SPEED)].

(** Inputs, outputs and declared partials: /repo/aviary/subsystems/mass/gasp_based/design_load.py L27-50 *)
Definition LoadSpeedsLightSmooth (op : options) : comp := {|
  c_ins := [Aircraft_Design_MAX_STRUCTURAL_SPEED;
            Aircraft_Design_WING_LOADING];
  c_outs := [v_max_airspeed;
             v_vel_c;
             v_max_maneuver_factor;
             v_min_dive_vel];
  c_decl := [(v_max_airspeed, Aircraft_Design_MAX_STRUCTURAL_SPEED, 0);
             (v_max_airspeed, Aircraft_Design_WING_LOADING, 0);
             (v_vel_c, Aircraft_Design_MAX_STRUCTURAL_SPEED, 0);
             (v_vel_c, Aircraft_Design_WING_LOADING, 0);
             (v_max_maneuver_factor, Aircraft_Design_MAX_STRUCTURAL_SPEED, 0);
             (v_max_maneuver_factor, Aircraft_Design_WING_LOADING, 0);
             (v_min_dive_vel, Aircraft_Design_MAX_STRUCTURAL_SPEED, 0);
             (v_min_dive_vel, Aircraft_Design_WING_LOADING, 0)];
  c_run := LoadSpeedsLightSmooth_compute op; c_jac := LoadSpeedsLightSmooth_partials op |}.

(** LoadSpeeds.compute, /repo/aviary/subsystems/mass/gasp_based/design_load.py L52-132 (one engine type or one node) *)
Definition LoadSpeedsTransport_compute (op : options) (e : env) : list (string * R) :=
  let max_struct_speed_mph := e Aircraft_Design_MAX_STRUCTURAL_SPEED in  (* L53 *)
  let CATD := on op Aircraft_Design_PART25_STRUCTURAL_CATEGORY in  (* L55 *)
  let smooth := ob op Aircraft_Design_SMOOTH_MASS_DISCONTINUITIES in  (* L56 *)
  let WGS_greater_than_20_flag := ob op Aircraft_Wing_LOADING_ABOVE_20 in  (* L57 *)
  let max_struct_speed_kts := max_struct_speed_mph / (115 / 100) in  (* L59 *)
  let '(max_maneuver_factor, min_dive_vel, max_airspeed, vel_c) :=  (* L117 *)
    if eqb CATD 3 then
      let max_maneuver_factor := 25 / 10 in  (* L118 *)
      let min_dive_vel := 12 / 10 * max_struct_speed_kts in  (* L119 *)
      let max_airspeed := max_struct_speed_kts in  (* L120 *)
      let vel_c := max_airspeed in  (* L121 *)
      (max_maneuver_factor, min_dive_vel, max_airspeed, vel_c)
    else
      let '(max_maneuver_factor, min_dive_vel, max_airspeed, vel_c) :=  (* L123 *)
        if ltb (3001 / 1000) CATD then
          let max_maneuver_factor := CATD in  (* L124 *)
          let min_dive_vel := 12 / 10 * max_struct_speed_kts in  (* L125 *)
          let max_airspeed := max_struct_speed_kts in  (* L126 *)
          let vel_c := max_airspeed in  (* L127 *)
          (max_maneuver_factor, min_dive_vel, max_airspeed, vel_c)
        else
          (0, 0, 0, 0) in
      (max_maneuver_factor, min_dive_vel, max_airspeed, vel_c) in
  let o_max_airspeed := max_airspeed in  (* L129 *)
  let o_vel_c := vel_c in  (* L130 *)
  let o_max_maneuver_factor := max_maneuver_factor in  (* L131 *)
  let o_min_dive_vel := min_dive_vel in  (* L132 *)
  [(v_max_airspeed, o_max_airspeed);
   (v_vel_c, o_vel_c);
   (v_max_maneuver_factor, o_max_maneuver_factor);
   (v_min_dive_vel, o_min_dive_vel)].

(** LoadSpeeds.compute_partials, /repo/aviary/subsystems/mass/gasp_based/design_load.py L134-330 *)
Definition LoadSpeedsTransport_partials (op : options) (e : env) : list (string * string * R) :=
  let max_struct_speed_mph := e Aircraft_Design_MAX_STRUCTURAL_SPEED in  (* L135 *)
  let CATD := on op Aircraft_Design_PART25_STRUCTURAL_CATEGORY in  (* L137 *)
  let smooth := ob op Aircraft_Design_SMOOTH_MASS_DISCONTINUITIES in  (* L138 *)
  let WGS_greater_than_20_flag := ob op Aircraft_Wing_LOADING_ABOVE_20 in  (* L139 *)
  let max_struct_speed_kts := max_struct_speed_mph / (115 / 100) in  (* L141 *)
  let dmax_struct_speed_kts_dmax_struct_speed_mph := 1 / (115 / 100) in  (* L142 *)
  let dmax_struct_speed_kts_dwing_loading := 0 in  (* L143 *)
  let '(d_max_airspeed__Design_MAX_STRUCTURAL_SPEED, d_min_dive_vel__Design_MAX_STRUCTURAL_SPEED,
      d_vel_c__Design_MAX_STRUCTURAL_SPEED) :=  (* L310 *)
    if eqb CATD 3 then
      let d_max_airspeed__Design_MAX_STRUCTURAL_SPEED := dmax_struct_speed_kts_dmax_struct_speed_mph in  (* L311 *)
      let d_min_dive_vel__Design_MAX_STRUCTURAL_SPEED := 12 / 10 * dmax_struct_speed_kts_dmax_struct_speed_mph in  (* L314 *)
      let d_vel_c__Design_MAX_STRUCTURAL_SPEED := 1 * dmax_struct_speed_kts_dmax_struct_speed_mph in  (* L317 *)
      (d_max_airspeed__Design_MAX_STRUCTURAL_SPEED, d_min_dive_vel__Design_MAX_STRUCTURAL_SPEED,
          d_vel_c__Design_MAX_STRUCTURAL_SPEED)
    else
      let '(d_max_airspeed__Design_MAX_STRUCTURAL_SPEED, d_min_dive_vel__Design_MAX_STRUCTURAL_SPEED,
          d_vel_c__Design_MAX_STRUCTURAL_SPEED) :=  (* L321 *)
        if ltb (3001 / 1000) CATD then
          let d_max_airspeed__Design_MAX_STRUCTURAL_SPEED := 1 * dmax_struct_speed_kts_dmax_struct_speed_mph in  (* L322 *)
          let d_min_dive_vel__Design_MAX_STRUCTURAL_SPEED := 12 / 10 * dmax_struct_speed_kts_dmax_struct_speed_mph in  (* L325 *)
          let d_vel_c__Design_MAX_STRUCTURAL_SPEED := 1 * dmax_struct_speed_kts_dmax_struct_speed_mph in  (* L328 *)
          (d_max_airspeed__Design_MAX_STRUCTURAL_SPEED, d_min_dive_vel__Design_MAX_STRUCTURAL_SPEED,
              d_vel_c__Design_MAX_STRUCTURAL_SPEED)
        else
          (0, 0, 0) in
      (d_max_airspeed__Design_MAX_STRUCTURAL_SPEED, d_min_dive_vel__Design_MAX_STRUCTURAL_SPEED,
          d_vel_c__Design_MAX_STRUCTURAL_SPEED) in
  [(v_max_airspeed, Aircraft_Design_MAX_STRUCTURAL_SPEED, d_max_airspeed__Design_MAX_STRUCTURAL_SPEED);
   (v_min_dive_vel, Aircraft_Design_MAX_STRUCTURAL_SPEED, d_min_dive_vel__Design_MAX_STRUCTURAL_SPEED);
   (v_vel_c, Aircraft_Design_MAX_STRUCTURAL_SPEED, d_vel_c__Design_MAX_STRUCTURAL_SPEED)].

(** Inputs, outputs and declared partials: /repo/aviary/subsystems/mass/gasp_based/design_load.py L27-50 *)
Definition LoadSpeedsTransport (op : options) : comp := {|
  c_ins := [Aircraft_Design_MAX_STRUCTURAL_SPEED];
  c_outs := [v_max_airspeed;
             v_vel_c;
             v_max_maneuver_factor;
             v_min_dive_vel];
  c_decl := [(v_max_airspeed, Aircraft_Design_MAX_STRUCTURAL_SPEED, 0);
             (v_vel_c, Aircraft_Design_MAX_STRUCTURAL_SPEED, 0);
             (v_max_maneuver_factor, Aircraft_Design_MAX_STRUCTURAL_SPEED, 0);
             (v_min_dive_vel, Aircraft_Design_MAX_STRUCTURAL_SPEED, 0)];
  c_run := LoadSpeedsTransport_compute op; c_jac := LoadSpeedsTransport_partials op |}.

(** LoadParameters.compute, /repo/aviary/subsystems/mass/gasp_based/design_load.py L377-440 (one engine type or one node) *)
Definition LoadParametersSharp_compute (op : options) (e : env) : list (string * R) :=
  let vel_c := e v_vel_c in  (* L378 *)
  let max_airspeed := e v_max_airspeed in  (* L379 *)
  let cruise_alt := on op Aircraft_Design_CRUISE_ALTITUDE in  (* L381 *)
  let CATD := on op Aircraft_Design_PART25_STRUCTURAL_CATEGORY in  (* L382 *)
  let smooth := ob op Aircraft_Design_SMOOTH_MASS_DISCONTINUITIES in  (* L383 *)
  let max_mach :=  (* L385 *)
    if leb cruise_alt 22500 then
      let max_mach := max_airspeed / (48633 / 100) in  (* L386 *)
      max_mach
    else
      0 in
  let max_mach :=  (* L387 *)
    if ((ltb 22500 cruise_alt) && (leb cruise_alt 36000))%bool then
      let max_mach := max_airspeed / (42473 / 100) in  (* L388 *)
      max_mach
    else
      max_mach in
  let max_mach :=  (* L389 *)
    if ltb 36000 cruise_alt then
      let max_mach := max_airspeed / (37234 / 100) in  (* L390 *)
      max_mach
    else
      max_mach in
  let max_mach :=  (* L398 *)
    if ltb (9 / 10) max_mach then
      let max_mach := 9 / 10 in  (* L399 *)
      max_mach
    else
      max_mach in
  let density_ratio := (max_airspeed / (6617 / 10 * max_mach)) ** (161949 / 100000) in  (* L401 *)
  let '(V9, density_ratio) :=  (* L425 *)
    if leb (53281 / 100000) density_ratio then
      let V9 := vel_c in  (* L426 *)
      let '(V9, density_ratio) :=  (* L427 *)
        if ltb 1 density_ratio then
          let V9 := 6617 / 10 * max_mach in  (* L428 *)
          let density_ratio := 1 in  (* L429 *)
          (V9, density_ratio)
        else
          (V9, density_ratio) in
      (V9, density_ratio)
    else
      let density_ratio := 53281 / 100000 in  (* L432 *)
      let V9 := vel_c in  (* L433 *)
      (V9, density_ratio) in
  let density_ratio :=  (* L435 *)
    if ((ltb CATD 3) && (leb density_ratio (682 / 1000)))%bool then
      let density_ratio := 682 / 1000 in  (* L436 *)
      density_ratio
    else
      density_ratio in
  let o_max_mach := max_mach in  (* L438 *)
  let o_density_ratio := density_ratio in  (* L439 *)
  let o_V9 := V9 in  (* L440 *)
  [(v_max_mach, o_max_mach);
   (v_density_ratio, o_density_ratio);
   (v_V9, o_V9)].

(** LoadParameters.compute_partials, /repo/aviary/subsystems/mass/gasp_based/design_load.py L442-585 *)
Definition LoadParametersSharp_partials (op : options) (e : env) : list (string * string * R) :=
  let vel_c := e v_vel_c in  (* L443 *)
  let max_airspeed := e v_max_airspeed in  (* L444 *)
  let cruise_alt := on op Aircraft_Design_CRUISE_ALTITUDE in  (* L446 *)
  let CATD := on op Aircraft_Design_PART25_STRUCTURAL_CATEGORY in  (* L447 *)
  let smooth := ob op Aircraft_Design_SMOOTH_MASS_DISCONTINUITIES in  (* L448 *)
  let '(max_mach, dmax_mach_dmax_airspeed) :=  (* L450 *)
    if leb cruise_alt 22500 then
      let max_mach := max_airspeed / (48633 / 100) in  (* L451 *)
      let dmax_mach_dmax_airspeed := 1 / (48633 / 100) in  (* L452 *)
      (max_mach, dmax_mach_dmax_airspeed)
    else
      (0, 0) in
  let '(max_mach, dmax_mach_dmax_airspeed) :=  (* L453 *)
    if ((ltb 22500 cruise_alt) && (leb cruise_alt 36000))%bool then
      let max_mach := max_airspeed / (42473 / 100) in  (* L454 *)
      let dmax_mach_dmax_airspeed := 1 / (42473 / 100) in  (* L455 *)
      (max_mach, dmax_mach_dmax_airspeed)
    else
      (max_mach, dmax_mach_dmax_airspeed) in
  let '(max_mach, dmax_mach_dmax_airspeed) :=  (* L456 *)
    if ltb 36000 cruise_alt then
      let max_mach := max_airspeed / (37234 / 100) in  (* L457 *)
      let dmax_mach_dmax_airspeed := 1 / (37234 / 100) in  (* L458 *)
      (max_mach, dmax_mach_dmax_airspeed)
    else
      (max_mach, dmax_mach_dmax_airspeed) in
  let '(max_mach, dmax_mach_dmax_airspeed) :=  (* L475 *)
    if ltb (9 / 10) max_mach then
      let max_mach := 9 / 10 in  (* L476 *)
      let dmax_mach_dmax_airspeed := 0 in  (* L477 *)
      (max_mach, dmax_mach_dmax_airspeed)
    else
      (max_mach, dmax_mach_dmax_airspeed) in
  let density_ratio := (max_airspeed / (6617 / 10 * max_mach)) ** (161949 / 100000) in  (* L479 *)
  let ddensity_ratio_dmax_airspeed := 161949 / 100000 * (max_airspeed / (6617 / 10 * max_mach)) ** (61949 / 100000) *
      ((* dquotient, L10-12 *) let u := max_airspeed in let v := 6617 / 10 * max_mach in let du := 1 in let dv := 6617
      / 10 * dmax_mach_dmax_airspeed in (du * v - u * dv) / v ^ 2) in  (* L480 *)
  let '(dV9_dvel_c, dV9_dmax_airspeed, density_ratio, ddensity_ratio_dmax_airspeed) :=  (* L560 *)
    if leb (53281 / 100000) density_ratio then
      let dV9_dvel_c := 1 in  (* L561 *)
      let dV9_dmax_airspeed := 0 in  (* L562 *)
      let '(density_ratio, dV9_dvel_c, dV9_dmax_airspeed, ddensity_ratio_dmax_airspeed) :=  (* L564 *)
        if ltb 1 density_ratio then
          let density_ratio := 1 in  (* L565 *)
          let dV9_dvel_c := 0 in  (* L567 *)
          let dV9_dmax_airspeed := 6617 / 10 * dmax_mach_dmax_airspeed in  (* L568 *)
          let ddensity_ratio_dmax_airspeed := 0 in  (* L569 *)
          (density_ratio, dV9_dvel_c, dV9_dmax_airspeed, ddensity_ratio_dmax_airspeed)
        else
          (density_ratio, dV9_dvel_c, dV9_dmax_airspeed, ddensity_ratio_dmax_airspeed) in
      (dV9_dvel_c, dV9_dmax_airspeed, density_ratio, ddensity_ratio_dmax_airspeed)
    else
      let density_ratio := 53281 / 100000 in  (* L572 *)
      let dV9_dvel_c := 1 in  (* L574 *)
      let dV9_dmax_airspeed := 0 in  (* L575 *)
      let ddensity_ratio_dmax_airspeed := 0 in  (* L576 *)
      (dV9_dvel_c, dV9_dmax_airspeed, density_ratio, ddensity_ratio_dmax_airspeed) in
  let '(density_ratio, ddensity_ratio_dmax_airspeed) :=  (* L578 *)
    if ((ltb CATD 3) && (leb density_ratio (682 / 1000)))%bool then
      let density_ratio := 682 / 1000 in  (* L579 *)
      let ddensity_ratio_dmax_airspeed := 0 in  (* L580 *)
      (density_ratio, ddensity_ratio_dmax_airspeed)
    else
      (density_ratio, ddensity_ratio_dmax_airspeed) in
  let d_max_mach__max_airspeed := dmax_mach_dmax_airspeed in  (* L582 *)
  let d_density_ratio__max_airspeed := ddensity_ratio_dmax_airspeed in  (* L583 *)
  let d_V9__max_airspeed := dV9_dmax_airspeed in  (* L584 *)
  let d_V9__vel_c := dV9_dvel_c in  (* L585 *)
  [(v_max_mach, v_max_airspeed, d_max_mach__max_airspeed);
   (v_density_ratio, v_max_airspeed, d_density_ratio__max_airspeed);
   (v_V9, v_max_airspeed, d_V9__max_airspeed);
   (v_V9, v_vel_c, d_V9__vel_c)].

(** Inputs, outputs and declared partials: /repo/aviary/subsystems/mass/gasp_based/design_load.py L344-375 *)
Definition LoadParametersSharp (op : options) : comp := {|
  c_ins := [v_vel_c;
            v_max_airspeed];
  c_outs := [v_max_mach;
             v_density_ratio;
             v_V9];
  c_decl := [(v_max_mach, v_max_airspeed, 0);
             (v_density_ratio, v_max_airspeed, 0);
             (v_V9, v_vel_c, 0);
             (v_V9, v_max_airspeed, 0)];
  c_run := LoadParametersSharp_compute op; c_jac := LoadParametersSharp_partials op |}.

(** LoadParameters.compute, /repo/aviary/subsystems/mass/gasp_based/design_load.py L377-440 (one engine type or one node) *)
Definition LoadParametersSmooth_compute (op : options) (e : env) : list (string * R) :=
  let vel_c := e v_vel_c in  (* L378 *)
  let max_airspeed := e v_max_airspeed in  (* L379 *)
  let cruise_alt := on op Aircraft_Design_CRUISE_ALTITUDE in  (* L381 *)
  let CATD := on op Aircraft_Design_PART25_STRUCTURAL_CATEGORY in  (* L382 *)
  let smooth := ob op Aircraft_Design_SMOOTH_MASS_DISCONTINUITIES in  (* L383 *)
  let max_mach :=  (* L385 *)
    if leb cruise_alt 22500 then
      let max_mach := max_airspeed / (48633 / 100) in  (* L386 *)
      max_mach
    else
      0 in
  let max_mach :=  (* L387 *)
    if ((ltb 22500 cruise_alt) && (leb cruise_alt 36000))%bool then
      let max_mach := max_airspeed / (42473 / 100) in  (* L388 *)
      max_mach
    else
      max_mach in
  let max_mach :=  (* L389 *)
    if ltb 36000 cruise_alt then
      let max_mach := max_airspeed / (37234 / 100) in  (* L390 *)
      max_mach
    else
      max_mach in
  let max_mach := max_mach * sigmoidX1 (max_mach / (9 / 10)) 1 (- 1 / 100) + 9 / 10 * sigmoidX1 (max_mach / (9 / 10))
      1 (1 / 100) in  (* L393 *)
  let density_ratio := (max_airspeed / (6617 / 10 * max_mach)) ** (161949 / 100000) in  (* L401 *)
  let SigE := sigmoidX1 density_ratio 1 (- 1 / 100) in  (* L404 *)
  let SigF := sigmoidX1 density_ratio 1 (1 / 100) in  (* L405 *)
  let V9 := vel_c * SigE + 6617 / 10 * max_mach * SigF in  (* L406 *)
  let density_ratio :=  (* L408 *)
    if ltb CATD 3 then
      let density_ratio := 682 / 1000 * sigmoidX1 (density_ratio / (682 / 1000)) 1 (- 1 / 100) + density_ratio *
          sigmoidX1 (density_ratio / (682 / 1000)) 1 (1 / 100) * SigE + SigF in  (* L410 *)
      density_ratio
    else
      let density_ratio := 53281 / 100000 * sigmoidX1 (density_ratio / (53281 / 100000)) 1 (- 1 / 100) + density_ratio
          * sigmoidX1 (density_ratio / (53281 / 100000)) 1 (1 / 100) * SigE + SigF in  (* L418 *)
      density_ratio in
  let o_max_mach := max_mach in  (* L438 *)
  let o_density_ratio := density_ratio in  (* L439 *)
  let o_V9 := V9 in  (* L440 *)
  [(v_max_mach, o_max_mach);
   (v_density_ratio, o_density_ratio);
   (v_V9, o_V9)].

(** LoadParameters.compute_partials, /repo/aviary/subsystems/mass/gasp_based/design_load.py L442-585 *)
Definition LoadParametersSmooth_partials (op : options) (e : env) : list (string * string * R) :=
  let vel_c := e v_vel_c in  (* L443 *)
  let max_airspeed := e v_max_airspeed in  (* L444 *)
  let cruise_alt := on op Aircraft_Design_CRUISE_ALTITUDE in  (* L446 *)
  let CATD := on op Aircraft_Design_PART25_STRUCTURAL_CATEGORY in  (* L447 *)
  let smooth := ob op Aircraft_Design_SMOOTH_MASS_DISCONTINUITIES in  (* L448 *)
  let '(max_mach, dmax_mach_dmax_airspeed) :=  (* L450 *)
    if leb cruise_alt 22500 then
      let max_mach := max_airspeed / (48633 / 100) in  (* L451 *)
      let dmax_mach_dmax_airspeed := 1 / (48633 / 100) in  (* L452 *)
      (max_mach, dmax_mach_dmax_airspeed)
    else
      (0, 0) in
  let '(max_mach, dmax_mach_dmax_airspeed) :=  (* L453 *)
    if ((ltb 22500 cruise_alt) && (leb cruise_alt 36000))%bool then
      let max_mach := max_airspeed / (42473 / 100) in  (* L454 *)
      let dmax_mach_dmax_airspeed := 1 / (42473 / 100) in  (* L455 *)
      (max_mach, dmax_mach_dmax_airspeed)
    else
      (max_mach, dmax_mach_dmax_airspeed) in
  let '(max_mach, dmax_mach_dmax_airspeed) :=  (* L456 *)
    if ltb 36000 cruise_alt then
      let max_mach := max_airspeed / (37234 / 100) in  (* L457 *)
      let dmax_mach_dmax_airspeed := 1 / (37234 / 100) in  (* L458 *)
      (max_mach, dmax_mach_dmax_airspeed)
    else
      (max_mach, dmax_mach_dmax_airspeed) in
  let max_mach_1 := max_mach * sigmoidX1 (max_mach / (9 / 10)) 1 (- 1 / 100) + 9 / 10 * sigmoidX1 (max_mach / (9 /
      10)) 1 (1 / 100) in  (* L461 *)
  let dmax_mach_dmax_airspeed := dmax_mach_dmax_airspeed * sigmoidX1 (max_mach / (9 / 10)) 1 (- 1 / 100) + max_mach *
      dSigmoidX1 (max_mach / (9 / 10)) 1 (1 / 100) * ((* dquotient, L10-12 *) let u := 9 / 10 - max_mach in let v := 9
      / 10 in let du := - dmax_mach_dmax_airspeed in let dv := 0 in (du * v - u * dv) / v ^ 2) + 9 / 10 * dSigmoidX1
      (max_mach / (9 / 10)) 1 (1 / 100) * ((* dquotient, L10-12 *) let u := max_mach - 9 / 10 in let v := 9 / 10 in
      let du := dmax_mach_dmax_airspeed in let dv := 0 in (du * v - u * dv) / v ^ 2) in  (* L464 *)
  let max_mach := max_mach_1 in  (* L473 *)
  let density_ratio := (max_airspeed / (6617 / 10 * max_mach)) ** (161949 / 100000) in  (* L479 *)
  let ddensity_ratio_dmax_airspeed := 161949 / 100000 * (max_airspeed / (6617 / 10 * max_mach)) ** (61949 / 100000) *
      ((* dquotient, L10-12 *) let u := max_airspeed in let v := 6617 / 10 * max_mach in let du := 1 in let dv := 6617
      / 10 * dmax_mach_dmax_airspeed in (du * v - u * dv) / v ^ 2) in  (* L480 *)
  let SigE := sigmoidX1 density_ratio 1 (- 1 / 100) in  (* L487 *)
  let SigF := sigmoidX1 density_ratio 1 (1 / 100) in  (* L488 *)
  let DSigF := dSigmoidX1 density_ratio 1 (1 / 100) in  (* L489 *)
  let dV9_dmax_airspeed := vel_c * DSigF * - ddensity_ratio_dmax_airspeed + 6617 / 10 * dmax_mach_dmax_airspeed * SigF
      * (6617 / 10) * max_mach * DSigF * ddensity_ratio_dmax_airspeed in  (* L490 *)
  let dV9_dvel_c := SigE in  (* L500 *)
  let '(density_ratio_1, ddensity_ratio_dmax_airspeed, density_ratio) :=  (* L502 *)
    if ltb CATD 3 then
      let density_ratio_1 := 682 / 1000 * sigmoidX1 (density_ratio / (682 / 1000)) 1 (- 1 / 100) + density_ratio *
          sigmoidX1 (density_ratio / (682 / 1000)) 1 (1 / 100) * SigE + SigF in  (* L504 *)
      let ddensity_ratio_dmax_airspeed := 682 / 1000 * dSigmoidX1 (density_ratio / (682 / 1000)) 1 (1 / 100) * -
          ddensity_ratio_dmax_airspeed / (682 / 1000) + ddensity_ratio_dmax_airspeed * sigmoidX1 (density_ratio / (682
          / 1000)) 1 (1 / 100) * SigF + density_ratio * (dSigmoidX1 (density_ratio / (682 / 1000)) 1 (1 / 100) *
          ddensity_ratio_dmax_airspeed / (682 / 1000) * SigE + sigmoidX1 (density_ratio / (682 / 1000)) 1 (1 / 100) *
          DSigF * - ddensity_ratio_dmax_airspeed) + DSigF * ddensity_ratio_dmax_airspeed in  (* L509 *)
      let density_ratio := density_ratio_1 in  (* L529 *)
      (density_ratio_1, ddensity_ratio_dmax_airspeed, density_ratio)
    else
      let density_ratio_1 := 53281 / 100000 * sigmoidX1 (density_ratio / (53281 / 100000)) 1 (- 1 / 100) +
          density_ratio * sigmoidX1 (density_ratio / (53281 / 100000)) 1 (1 / 100) * SigE + SigF in  (* L533 *)
      let ddensity_ratio_dmax_airspeed := 53281 / 100000 * dSigmoidX1 (density_ratio / (53281 / 100000)) 1 (1 / 100) *
          - ddensity_ratio_dmax_airspeed / (53281 / 100000) + ddensity_ratio_dmax_airspeed * sigmoidX1 (density_ratio
          / (53281 / 100000)) 1 (1 / 100) * SigE + density_ratio * (dSigmoidX1 (density_ratio / (53281 / 100000)) 1 (1
          / 100) * ddensity_ratio_dmax_airspeed / (53281 / 100000) * SigE + sigmoidX1 (density_ratio / (53281 /
          100000)) 1 (- 1 / 100) * SigF * - ddensity_ratio_dmax_airspeed) + DSigF * ddensity_ratio_dmax_airspeed in  (* L538 *)
      let density_ratio := density_ratio_1 in  (* L558 *)
      (density_ratio_1, ddensity_ratio_dmax_airspeed, density_ratio) in
  let d_max_mach__max_airspeed := dmax_mach_dmax_airspeed in  (* L582 *)
  let d_density_ratio__max_airspeed := ddensity_ratio_dmax_airspeed in  (* L583 *)
  let d_V9__max_airspeed := dV9_dmax_airspeed in  (* L584 *)
  let d_V9__vel_c := dV9_dvel_c in  (* L585 *)
  [(v_max_mach, v_max_airspeed, d_max_mach__max_airspeed);
   (v_density_ratio, v_max_airspeed, d_density_ratio__max_airspeed);
   (v_V9, v_max_airspeed, d_V9__max_airspeed);
   (v_V9, v_vel_c, d_V9__vel_c)].

(** Inputs, outputs and declared partials: /repo/aviary/subsystems/mass/gasp_based/design_load.py L344-375 *)
Definition LoadParametersSmooth (op : options) : comp := {|
  c_ins := [v_vel_c;
            v_max_airspeed];
  c_outs := [v_max_mach;
             v_density_ratio;
             v_V9];
  c_decl := [(v_max_mach, v_max_airspeed, 0);
             (v_density_ratio, v_max_airspeed, 0);
             (v_V9, v_vel_c, 0);
             (v_V9, v_max_airspeed, 0)];
  c_run := LoadParametersSmooth_compute op; c_jac := LoadParametersSmooth_partials op |}.

(** LiftCurveSlopeAtCruise.compute, /repo/aviary/subsystems/mass/gasp_based/design_load.py L603-625 (one engine type or one node) *)
Definition LiftCurveSlopeAtCruise_compute (op : options) (e : env) : list (string * R) :=
  let AR := e Aircraft_Wing_ASPECT_RATIO in  (* L606 *)
  let DLMC4 := e Aircraft_Wing_SWEEP in  (* L607 *)
  let mach := e Aircraft_Design_MACH in  (* L608 *)
  let o_Design_LIFT_CURVE_SLOPE := PI * AR / (1 + sqrt (1 + (AR / (2 * cos DLMC4)) ^ 2 * (1 - (mach * cos DLMC4) ^
      2))) in  (* L616 *)
  [(Aircraft_Design_LIFT_CURVE_SLOPE, o_Design_LIFT_CURVE_SLOPE)].

(** LiftCurveSlopeAtCruise.compute_partials, /repo/aviary/subsystems/mass/gasp_based/design_load.py L627-649 *)
Definition LiftCurveSlopeAtCruise_partials (op : options) (e : env) : list (string * string * R) :=
  let AR := e Aircraft_Wing_ASPECT_RATIO in  (* L628 *)
  let DLMC4 := e Aircraft_Wing_SWEEP in  (* L629 *)
  let mach := e Aircraft_Design_MACH in  (* L630 *)
  let c1 := sqrt (AR ^ 2 * (- mach ^ 2 * cos DLMC4 ^ 2 + 1) + 4 * cos DLMC4 ^ 2) in  (* L632 *)
  let c2 := 2 * cos DLMC4 + c1 in  (* L633 *)
  let d_Design_LIFT_CURVE_SLOPE__Wing_ASPECT_RATIO := 4 * PI * cos DLMC4 ^ 2 / (c1 * c2) in  (* L635 *)
  let d_Design_LIFT_CURVE_SLOPE__Design_MACH := 2 * PI * AR ^ 3 * mach * cos DLMC4 ^ 3 / (c1 * c2 ^ 2) in  (* L638 *)
  let d_Design_LIFT_CURVE_SLOPE__Wing_SWEEP := - PI * AR * (- 8 * cos DLMC4 ^ 3 * sin DLMC4 + 4 * cos DLMC4 ^ 2 * sin
      (2 * DLMC4) + AR ^ 2 * sin (2 * DLMC4)) / (cos DLMC4 * c1 * c2 ^ 2) in  (* L641 *)
  [(Aircraft_Design_LIFT_CURVE_SLOPE, Aircraft_Wing_ASPECT_RATIO, d_Design_LIFT_CURVE_SLOPE__Wing_ASPECT_RATIO);
   (Aircraft_Design_LIFT_CURVE_SLOPE, Aircraft_Design_MACH, d_Design_LIFT_CURVE_SLOPE__Design_MACH);
   (Aircraft_Design_LIFT_CURVE_SLOPE, Aircraft_Wing_SWEEP, d_Design_LIFT_CURVE_SLOPE__Wing_SWEEP)].

(** Inputs, outputs and declared partials: /repo/aviary/subsystems/mass/gasp_based/design_load.py L594-601 *)
Definition LiftCurveSlopeAtCruise (op : options) : comp := {|
  c_ins := [Aircraft_Wing_ASPECT_RATIO;
            Aircraft_Wing_SWEEP;
            Aircraft_Design_MACH];
  c_outs := [Aircraft_Design_LIFT_CURVE_SLOPE];
  c_decl := [(Aircraft_Design_LIFT_CURVE_SLOPE, Aircraft_Wing_ASPECT_RATIO, 0);
             (Aircraft_Design_LIFT_CURVE_SLOPE, Aircraft_Wing_SWEEP, 0);
             (Aircraft_Design_LIFT_CURVE_SLOPE, Aircraft_Design_MACH, 0)];
  c_run := LiftCurveSlopeAtCruise_compute op; c_jac := LiftCurveSlopeAtCruise_partials op |}.

(** LoadFactors.compute, /repo/aviary/subsystems/mass/gasp_based/design_load.py L687-734 (one engine type or one node) *)
Definition LoadFactorsSharp_compute (op : options) (e : env) : list (string * R) :=
  let wing_loading := e Aircraft_Design_WING_LOADING in  (* L688 *)
  let density_ratio := e v_density_ratio in  (* L689 *)
  let V9 := e v_V9 in  (* L690 *)
  let min_dive_vel := e v_min_dive_vel in  (* L691 *)
  let max_maneuver_factor := e v_max_maneuver_factor in  (* L692 *)
  let avg_chord := e Aircraft_Wing_AVERAGE_CHORD in  (* L693 *)
  let Cl_alpha := e Aircraft_Design_LIFT_CURVE_SLOPE in  (* L694 *)
  let ULF_from_maneuver := ob op Aircraft_Design_ULF_CALCULATED_FROM_MANEUVER in  (* L696 *)
  let smooth := ob op Aircraft_Design_SMOOTH_MASS_DISCONTINUITIES in  (* L697 *)
  let rho_sea_level := on op Mission_SEA_LEVEL_DENSITY in  (* L698 *)
  let mass_ratio := 2 * wing_loading / (density_ratio * rho_sea_level * avg_chord * Cl_alpha * (322 / 10)) in  (* L700 *)
  let k_load_factor := 88 / 100 * mass_ratio / (53 / 10 + mass_ratio) in  (* L703 *)
  let cruise_load_factor := 1 + k_load_factor * 50 * V9 * Cl_alpha / (498 * wing_loading) in  (* L704 *)
  let dive_load_factor := 1 + k_load_factor * 25 * min_dive_vel * Cl_alpha / (498 * wing_loading) in  (* L705 *)
  let gust_load_factor := dive_load_factor in  (* L708 *)
  let gust_load_factor :=  (* L716 *)
    if ltb dive_load_factor cruise_load_factor then
      let gust_load_factor := cruise_load_factor in  (* L717 *)
      gust_load_factor
    else
      gust_load_factor in
  let ULF := 15 / 10 * max_maneuver_factor in  (* L719 *)
  let ULF :=  (* L728 *)
    if ltb max_maneuver_factor gust_load_factor then
      let ULF := 15 / 10 * gust_load_factor in  (* L729 *)
      ULF
    else
      ULF in
  let ULF :=  (* L731 *)
    if ULF_from_maneuver then
      let ULF := 15 / 10 * max_maneuver_factor in  (* L732 *)
      ULF
    else
      ULF in
  let o_Wing_ULTIMATE_LOAD_FACTOR := ULF in  (* L734 *)
  [(Aircraft_Wing_ULTIMATE_LOAD_FACTOR, o_Wing_ULTIMATE_LOAD_FACTOR)].

(** LoadFactors.compute_partials, /repo/aviary/subsystems/mass/gasp_based/design_load.py L736-1122 *)
Definition LoadFactorsSharp_partials (op : options) (e : env) : list (string * string * R) :=
  let wing_loading := e Aircraft_Design_WING_LOADING in  (* L737 *)
  let density_ratio := e v_density_ratio in  (* L738 *)
  let V9 := e v_V9 in  (* L739 *)
  let min_dive_vel := e v_min_dive_vel in  (* L740 *)
  let max_maneuver_factor := e v_max_maneuver_factor in  (* L741 *)
  let avg_chord := e Aircraft_Wing_AVERAGE_CHORD in  (* L742 *)
  let Cl_alpha := e Aircraft_Design_LIFT_CURVE_SLOPE in  (* L743 *)
  let ULF_from_maneuver := ob op Aircraft_Design_ULF_CALCULATED_FROM_MANEUVER in  (* L745 *)
  let smooth := ob op Aircraft_Design_SMOOTH_MASS_DISCONTINUITIES in  (* L746 *)
  let rho_sea_level := on op Mission_SEA_LEVEL_DENSITY in  (* L747 *)
  let mass_ratio := 2 * wing_loading / (density_ratio * rho_sea_level * avg_chord * Cl_alpha * (322 / 10)) in  (* L749 *)
  let k_load_factor := 88 / 100 * mass_ratio / (53 / 10 + mass_ratio) in  (* L752 *)
  let cruise_load_factor := 1 + k_load_factor * 50 * V9 * Cl_alpha / (498 * wing_loading) in  (* L753 *)
  let dive_load_factor := 1 + k_load_factor * 25 * min_dive_vel * Cl_alpha / (498 * wing_loading) in  (* L754 *)
  let gust_load_factor := dive_load_factor in  (* L757 *)
  let dmass_ratio_dwing_loading := 2 / (density_ratio * rho_sea_level * avg_chord * Cl_alpha * (322 / 10)) in  (* L759 *)
  let dmass_ratio_ddensity_ratio := - 2 * wing_loading / (density_ratio ^ 2 * rho_sea_level * avg_chord * Cl_alpha *
      (322 / 10)) in  (* L762 *)
  let dmass_ratio_davg_chord := - 2 * wing_loading / (density_ratio * rho_sea_level * avg_chord ^ 2 * Cl_alpha * (322
      / 10)) in  (* L765 *)
  let dmass_ratio_dCl_alpha := - 2 * wing_loading / (density_ratio * rho_sea_level * avg_chord * Cl_alpha ^ 2 * (322 /
      10)) in  (* L768 *)
  let dk_load_factor_dwing_loading := (* dquotient, L10-12 *) let u := 88 / 100 * mass_ratio in let v := 53 / 10 +
      mass_ratio in let du := 88 / 100 * dmass_ratio_dwing_loading in let dv := dmass_ratio_dwing_loading in (du * v -
      u * dv) / v ^ 2 in  (* L772 *)
  let dk_load_factor_ddensity_ratio := (* dquotient, L10-12 *) let u := 88 / 100 * mass_ratio in let v := 53 / 10 +
      mass_ratio in let du := 88 / 100 * dmass_ratio_ddensity_ratio in let dv := dmass_ratio_ddensity_ratio in (du * v
      - u * dv) / v ^ 2 in  (* L778 *)
  let dk_load_factor_davg_chord := (* dquotient, L10-12 *) let u := 88 / 100 * mass_ratio in let v := 53 / 10 +
      mass_ratio in let du := 88 / 100 * dmass_ratio_davg_chord in let dv := dmass_ratio_davg_chord in (du * v - u *
      dv) / v ^ 2 in  (* L784 *)
  let dk_load_factor_dCl_alpha := (* dquotient, L10-12 *) let u := 88 / 100 * mass_ratio in let v := 53 / 10 +
      mass_ratio in let du := 88 / 100 * dmass_ratio_dCl_alpha in let dv := dmass_ratio_dCl_alpha in (du * v - u * dv)
      / v ^ 2 in  (* L790 *)
  let dcruise_load_factor_dwing_loading := (* dquotient, L10-12 *) let u := k_load_factor * 50 * V9 * Cl_alpha in let
      v := 498 * wing_loading in let du := dk_load_factor_dwing_loading * 50 * V9 * Cl_alpha in let dv := 498 in (du *
      v - u * dv) / v ^ 2 in  (* L797 *)
  let dcruise_load_factor_ddensity_ratio := dk_load_factor_ddensity_ratio * 50 * V9 * Cl_alpha / (498 * wing_loading)
      in  (* L803 *)
  let dcruise_load_factor_davg_chord := dk_load_factor_davg_chord * 50 * V9 * Cl_alpha / (498 * wing_loading) in  (* L806 *)
  let dcruise_load_factor_dCl_alpha := (dk_load_factor_dCl_alpha * 50 * V9 * Cl_alpha + k_load_factor * 50 * V9) /
      (498 * wing_loading) in  (* L809 *)
  let dcruise_load_factor_dV9 := k_load_factor * 50 * Cl_alpha / (498 * wing_loading) in  (* L812 *)
  let ddive_load_factor_dwing_loading := (* dquotient, L10-12 *) let u := k_load_factor * 25 * min_dive_vel * Cl_alpha
      in let v := 498 * wing_loading in let du := dk_load_factor_dwing_loading * 25 * min_dive_vel * Cl_alpha in let
      dv := 498 in (du * v - u * dv) / v ^ 2 in  (* L814 *)
  let ddive_load_factor_ddensity_ratio := dk_load_factor_ddensity_ratio * 25 * min_dive_vel * Cl_alpha / (498 *
      wing_loading) in  (* L820 *)
  let ddive_load_factor_davg_chord := dk_load_factor_davg_chord * 25 * min_dive_vel * Cl_alpha / (498 * wing_loading)
      in  (* L823 *)
  let ddive_load_factor_dCl_alpha := (dk_load_factor_dCl_alpha * 25 * min_dive_vel * Cl_alpha + k_load_factor * 50 *
      min_dive_vel) / (498 * wing_loading) in  (* L826 *)
  let ddive_load_factor_dV9 := 0 in  (* L831 *)
  let dgust_load_factor_dwing_loading := (* dquotient, L10-12 *) let u := k_load_factor * 25 * min_dive_vel * Cl_alpha
      in let v := 498 * wing_loading in let du := dk_load_factor_dwing_loading * 25 * min_dive_vel * Cl_alpha in let
      dv := 498 in (du * v - u * dv) / v ^ 2 in  (* L833 *)
  let dgust_load_factor_ddensity_ratio := dk_load_factor_ddensity_ratio * 25 * min_dive_vel * Cl_alpha / (498 *
      wing_loading) in  (* L839 *)
  let dgust_load_factor_davg_chord := dk_load_factor_davg_chord * 25 * min_dive_vel * Cl_alpha / (498 * wing_loading)
      in  (* L842 *)
  let dgust_load_factor_dCl_alpha := (dk_load_factor_dCl_alpha * 25 * min_dive_vel * Cl_alpha + k_load_factor * 25 *
      min_dive_vel) / (498 * wing_loading) in  (* L845 *)
  let dgust_load_factor_dmin_dive_vel := k_load_factor * 25 * Cl_alpha / (498 * wing_loading) in  (* L849 *)
  let dgust_load_factor_dV9 := 0 in  (* L850 *)
  let '(gust_load_factor, dgust_load_factor_dwing_loading, dgust_load_factor_ddensity_ratio,
      dgust_load_factor_davg_chord, dgust_load_factor_dCl_alpha, dgust_load_factor_dV9,
      dgust_load_factor_dmin_dive_vel) :=  (* L959 *)
    if ltb dive_load_factor cruise_load_factor then
      let gust_load_factor := cruise_load_factor in  (* L960 *)
      let dgust_load_factor_dwing_loading := dcruise_load_factor_dwing_loading in  (* L962 *)
      let dgust_load_factor_ddensity_ratio := dcruise_load_factor_ddensity_ratio in  (* L963 *)
      let dgust_load_factor_davg_chord := dcruise_load_factor_davg_chord in  (* L964 *)
      let dgust_load_factor_dCl_alpha := dcruise_load_factor_dCl_alpha in  (* L965 *)
      let dgust_load_factor_dV9 := dcruise_load_factor_dV9 in  (* L966 *)
      let dgust_load_factor_dmin_dive_vel := 0 in  (* L967 *)
      (gust_load_factor, dgust_load_factor_dwing_loading, dgust_load_factor_ddensity_ratio,
          dgust_load_factor_davg_chord, dgust_load_factor_dCl_alpha, dgust_load_factor_dV9,
          dgust_load_factor_dmin_dive_vel)
    else
      (gust_load_factor, dgust_load_factor_dwing_loading, dgust_load_factor_ddensity_ratio,
          dgust_load_factor_davg_chord, dgust_load_factor_dCl_alpha, dgust_load_factor_dV9,
          dgust_load_factor_dmin_dive_vel) in
  let dULF_dmax_maneuver_factor := 15 / 10 in  (* L969 *)
  let dULF_dwing_loading := 0 in  (* L970 *)
  let dULF_ddensity_ratio := 0 in  (* L971 *)
  let dULF_davg_chord := 0 in  (* L972 *)
  let dULF_dCl_alpha := 0 in  (* L973 *)
  let dULF_dV9 := 0 in  (* L974 *)
  let dULF_dmin_dive_vel := 0 in  (* L975 *)
  let '(dULF_dmax_maneuver_factor, dULF_dwing_loading, dULF_ddensity_ratio, dULF_davg_chord, dULF_dCl_alpha, dULF_dV9,
      dULF_dmin_dive_vel) :=  (* L1092 *)
    if ltb max_maneuver_factor gust_load_factor then
      let dULF_dmax_maneuver_factor := 0 in  (* L1093 *)
      let dULF_dwing_loading := 15 / 10 * dgust_load_factor_dwing_loading in  (* L1094 *)
      let dULF_ddensity_ratio := 15 / 10 * dgust_load_factor_ddensity_ratio in  (* L1095 *)
      let dULF_davg_chord := 15 / 10 * dgust_load_factor_davg_chord in  (* L1096 *)
      let dULF_dCl_alpha := 15 / 10 * dgust_load_factor_dCl_alpha in  (* L1097 *)
      let dULF_dV9 := 15 / 10 * dgust_load_factor_dV9 in  (* L1098 *)
      let dULF_dmin_dive_vel := 15 / 10 * dgust_load_factor_dmin_dive_vel in  (* L1099 *)
      (dULF_dmax_maneuver_factor, dULF_dwing_loading, dULF_ddensity_ratio, dULF_davg_chord, dULF_dCl_alpha, dULF_dV9,
          dULF_dmin_dive_vel)
    else
      (dULF_dmax_maneuver_factor, dULF_dwing_loading, dULF_ddensity_ratio, dULF_davg_chord, dULF_dCl_alpha, dULF_dV9,
          dULF_dmin_dive_vel) in
  let '(dULF_dmax_maneuver_factor, dULF_dwing_loading, dULF_ddensity_ratio, dULF_davg_chord, dULF_dCl_alpha, dULF_dV9,
      dULF_dmin_dive_vel) :=  (* L1101 *)
    if ULF_from_maneuver then
      let dULF_dmax_maneuver_factor := 15 / 10 in  (* L1102 *)
      let dULF_dwing_loading := 0 in  (* L1103 *)
      let dULF_ddensity_ratio := 0 in  (* L1104 *)
      let dULF_davg_chord := 0 in  (* L1105 *)
      let dULF_dCl_alpha := 0 in  (* L1106 *)
      let dULF_dV9 := 0 in  (* L1107 *)
      let dULF_dmin_dive_vel := 0 in  (* L1108 *)
      (dULF_dmax_maneuver_factor, dULF_dwing_loading, dULF_ddensity_ratio, dULF_davg_chord, dULF_dCl_alpha, dULF_dV9,
          dULF_dmin_dive_vel)
    else
      (dULF_dmax_maneuver_factor, dULF_dwing_loading, dULF_ddensity_ratio, dULF_davg_chord, dULF_dCl_alpha, dULF_dV9,
          dULF_dmin_dive_vel) in
  let d_Wing_ULTIMATE_LOAD_FACTOR__max_maneuver_factor := dULF_dmax_maneuver_factor in  (* L1110 *)
  let d_Wing_ULTIMATE_LOAD_FACTOR__Design_WING_LOADING := dULF_dwing_loading in  (* L1113 *)
  let d_Wing_ULTIMATE_LOAD_FACTOR__density_ratio := dULF_ddensity_ratio in  (* L1116 *)
  let d_Wing_ULTIMATE_LOAD_FACTOR__Wing_AVERAGE_CHORD := dULF_davg_chord in  (* L1117 *)
  let d_Wing_ULTIMATE_LOAD_FACTOR__Design_LIFT_CURVE_SLOPE := dULF_dCl_alpha in  (* L1118 *)
  let d_Wing_ULTIMATE_LOAD_FACTOR__V9 := dULF_dV9 in  (* L1121 *)
  let d_Wing_ULTIMATE_LOAD_FACTOR__min_dive_vel := dULF_dmin_dive_vel in  (* L1122 *)
  [(Aircraft_Wing_ULTIMATE_LOAD_FACTOR, v_max_maneuver_factor, d_Wing_ULTIMATE_LOAD_FACTOR__max_maneuver_factor);
   (Aircraft_Wing_ULTIMATE_LOAD_FACTOR, Aircraft_Design_WING_LOADING,
       d_Wing_ULTIMATE_LOAD_FACTOR__Design_WING_LOADING);
   (Aircraft_Wing_ULTIMATE_LOAD_FACTOR, v_density_ratio, d_Wing_ULTIMATE_LOAD_FACTOR__density_ratio);
   (Aircraft_Wing_ULTIMATE_LOAD_FACTOR, Aircraft_Wing_AVERAGE_CHORD, d_Wing_ULTIMATE_LOAD_FACTOR__Wing_AVERAGE_CHORD);
   (Aircraft_Wing_ULTIMATE_LOAD_FACTOR, Aircraft_Design_LIFT_CURVE_SLOPE,
       d_Wing_ULTIMATE_LOAD_FACTOR__Design_LIFT_CURVE_SLOPE);
   (Aircraft_Wing_ULTIMATE_LOAD_FACTOR, v_V9, d_Wing_ULTIMATE_LOAD_FACTOR__V9);
   (Aircraft_Wing_ULTIMATE_LOAD_FACTOR, v_min_dive_vel, d_Wing_ULTIMATE_LOAD_FACTOR__min_dive_vel)].

(** Inputs, outputs and declared partials: /repo/aviary/subsystems/mass/gasp_based/design_load.py L660-685 *)
Definition LoadFactorsSharp (op : options) : comp := {|
  c_ins := [Aircraft_Design_WING_LOADING;
            v_density_ratio;
            v_V9;
            v_min_dive_vel;
            v_max_maneuver_factor;
            Aircraft_Wing_AVERAGE_CHORD;
            Aircraft_Design_LIFT_CURVE_SLOPE];
  c_outs := [Aircraft_Wing_ULTIMATE_LOAD_FACTOR];
  c_decl := [(Aircraft_Wing_ULTIMATE_LOAD_FACTOR, Aircraft_Design_WING_LOADING, 0);
             (Aircraft_Wing_ULTIMATE_LOAD_FACTOR, v_density_ratio, 0);
             (Aircraft_Wing_ULTIMATE_LOAD_FACTOR, v_V9, 0);
             (Aircraft_Wing_ULTIMATE_LOAD_FACTOR, v_min_dive_vel, 0);
             (Aircraft_Wing_ULTIMATE_LOAD_FACTOR, v_max_maneuver_factor, 0);
             (Aircraft_Wing_ULTIMATE_LOAD_FACTOR, Aircraft_Wing_AVERAGE_CHORD, 0);
             (Aircraft_Wing_ULTIMATE_LOAD_FACTOR, Aircraft_Design_LIFT_CURVE_SLOPE, 0)];
  c_run := LoadFactorsSharp_compute op; c_jac := LoadFactorsSharp_partials op |}.

(** LoadFactors.compute, /repo/aviary/subsystems/mass/gasp_based/design_load.py L687-734 (one engine type or one node) *)
Definition LoadFactorsSmooth_compute (op : options) (e : env) : list (string * R) :=
  let wing_loading := e Aircraft_Design_WING_LOADING in  (* L688 *)
  let density_ratio := e v_density_ratio in  (* L689 *)
  let V9 := e v_V9 in  (* L690 *)
  let min_dive_vel := e v_min_dive_vel in  (* L691 *)
  let max_maneuver_factor := e v_max_maneuver_factor in  (* L692 *)
  let avg_chord := e Aircraft_Wing_AVERAGE_CHORD in  (* L693 *)
  let Cl_alpha := e Aircraft_Design_LIFT_CURVE_SLOPE in  (* L694 *)
  let ULF_from_maneuver := ob op Aircraft_Design_ULF_CALCULATED_FROM_MANEUVER in  (* L696 *)
  let smooth := ob op Aircraft_Design_SMOOTH_MASS_DISCONTINUITIES in  (* L697 *)
  let rho_sea_level := on op Mission_SEA_LEVEL_DENSITY in  (* L698 *)
  let mass_ratio := 2 * wing_loading / (density_ratio * rho_sea_level * avg_chord * Cl_alpha * (322 / 10)) in  (* L700 *)
  let k_load_factor := 88 / 100 * mass_ratio / (53 / 10 + mass_ratio) in  (* L703 *)
  let cruise_load_factor := 1 + k_load_factor * 50 * V9 * Cl_alpha / (498 * wing_loading) in  (* L704 *)
  let dive_load_factor := 1 + k_load_factor * 25 * min_dive_vel * Cl_alpha / (498 * wing_loading) in  (* L705 *)
  let gust_load_factor := dive_load_factor in  (* L708 *)
  let gust_load_factor := dive_load_factor * sigmoidX1 (cruise_load_factor / dive_load_factor) 1 (- 1 / 100) +
      cruise_load_factor * sigmoidX1 (cruise_load_factor / dive_load_factor) 1 (1 / 100) in  (* L711 *)
  let ULF := 15 / 10 * max_maneuver_factor in  (* L719 *)
  let ULF := 15 / 10 * (gust_load_factor * sigmoidX1 (max_maneuver_factor / gust_load_factor) 1 (- 1 / 100) +
      max_maneuver_factor * sigmoidX1 (max_maneuver_factor / gust_load_factor) 1 (1 / 100)) in  (* L722 *)
  let ULF :=  (* L731 *)
    if ULF_from_maneuver then
      let ULF := 15 / 10 * max_maneuver_factor in  (* L732 *)
      ULF
    else
      ULF in
  let o_Wing_ULTIMATE_LOAD_FACTOR := ULF in  (* L734 *)
  [(Aircraft_Wing_ULTIMATE_LOAD_FACTOR, o_Wing_ULTIMATE_LOAD_FACTOR)].

(** LoadFactors.compute_partials, /repo/aviary/subsystems/mass/gasp_based/design_load.py L736-1122 *)
Definition LoadFactorsSmooth_partials (op : options) (e : env) : list (string * string * R) :=
  let wing_loading := e Aircraft_Design_WING_LOADING in  (* L737 *)
  let density_ratio := e v_density_ratio in  (* L738 *)
  let V9 := e v_V9 in  (* L739 *)
  let min_dive_vel := e v_min_dive_vel in  (* L740 *)
  let max_maneuver_factor := e v_max_maneuver_factor in  (* L741 *)
  let avg_chord := e Aircraft_Wing_AVERAGE_CHORD in  (* L742 *)
  let Cl_alpha := e Aircraft_Design_LIFT_CURVE_SLOPE in  (* L743 *)
  let ULF_from_maneuver := ob op Aircraft_Design_ULF_CALCULATED_FROM_MANEUVER in  (* L745 *)
  let smooth := ob op Aircraft_Design_SMOOTH_MASS_DISCONTINUITIES in  (* L746 *)
  let rho_sea_level := on op Mission_SEA_LEVEL_DENSITY in  (* L747 *)
  let mass_ratio := 2 * wing_loading / (density_ratio * rho_sea_level * avg_chord * Cl_alpha * (322 / 10)) in  (* L749 *)
  let k_load_factor := 88 / 100 * mass_ratio / (53 / 10 + mass_ratio) in  (* L752 *)
  let cruise_load_factor := 1 + k_load_factor * 50 * V9 * Cl_alpha / (498 * wing_loading) in  (* L753 *)
  let dive_load_factor := 1 + k_load_factor * 25 * min_dive_vel * Cl_alpha / (498 * wing_loading) in  (* L754 *)
  let gust_load_factor := dive_load_factor in  (* L757 *)
  let dmass_ratio_dwing_loading := 2 / (density_ratio * rho_sea_level * avg_chord * Cl_alpha * (322 / 10)) in  (* L759 *)
  let dmass_ratio_ddensity_ratio := - 2 * wing_loading / (density_ratio ^ 2 * rho_sea_level * avg_chord * Cl_alpha *
      (322 / 10)) in  (* L762 *)
  let dmass_ratio_davg_chord := - 2 * wing_loading / (density_ratio * rho_sea_level * avg_chord ^ 2 * Cl_alpha * (322
      / 10)) in  (* L765 *)
  let dmass_ratio_dCl_alpha := - 2 * wing_loading / (density_ratio * rho_sea_level * avg_chord * Cl_alpha ^ 2 * (322 /
      10)) in  (* L768 *)
  let dk_load_factor_dwing_loading := (* dquotient, L10-12 *) let u := 88 / 100 * mass_ratio in let v := 53 / 10 +
      mass_ratio in let du := 88 / 100 * dmass_ratio_dwing_loading in let dv := dmass_ratio_dwing_loading in (du * v -
      u * dv) / v ^ 2 in  (* L772 *)
  let dk_load_factor_ddensity_ratio := (* dquotient, L10-12 *) let u := 88 / 100 * mass_ratio in let v := 53 / 10 +
      mass_ratio in let du := 88 / 100 * dmass_ratio_ddensity_ratio in let dv := dmass_ratio_ddensity_ratio in (du * v
      - u * dv) / v ^ 2 in  (* L778 *)
  let dk_load_factor_davg_chord := (* dquotient, L10-12 *) let u := 88 / 100 * mass_ratio in let v := 53 / 10 +
      mass_ratio in let du := 88 / 100 * dmass_ratio_davg_chord in let dv := dmass_ratio_davg_chord in (du * v - u *
      dv) / v ^ 2 in  (* L784 *)
  let dk_load_factor_dCl_alpha := (* dquotient, L10-12 *) let u := 88 / 100 * mass_ratio in let v := 53 / 10 +
      mass_ratio in let du := 88 / 100 * dmass_ratio_dCl_alpha in let dv := dmass_ratio_dCl_alpha in (du * v - u * dv)
      / v ^ 2 in  (* L790 *)
  let dcruise_load_factor_dwing_loading := (* dquotient, L10-12 *) let u := k_load_factor * 50 * V9 * Cl_alpha in let
      v := 498 * wing_loading in let du := dk_load_factor_dwing_loading * 50 * V9 * Cl_alpha in let dv := 498 in (du *
      v - u * dv) / v ^ 2 in  (* L797 *)
  let dcruise_load_factor_ddensity_ratio := dk_load_factor_ddensity_ratio * 50 * V9 * Cl_alpha / (498 * wing_loading)
      in  (* L803 *)
  let dcruise_load_factor_davg_chord := dk_load_factor_davg_chord * 50 * V9 * Cl_alpha / (498 * wing_loading) in  (* L806 *)
  let dcruise_load_factor_dCl_alpha := (dk_load_factor_dCl_alpha * 50 * V9 * Cl_alpha + k_load_factor * 50 * V9) /
      (498 * wing_loading) in  (* L809 *)
  let dcruise_load_factor_dV9 := k_load_factor * 50 * Cl_alpha / (498 * wing_loading) in  (* L812 *)
  let ddive_load_factor_dwing_loading := (* dquotient, L10-12 *) let u := k_load_factor * 25 * min_dive_vel * Cl_alpha
      in let v := 498 * wing_loading in let du := dk_load_factor_dwing_loading * 25 * min_dive_vel * Cl_alpha in let
      dv := 498 in (du * v - u * dv) / v ^ 2 in  (* L814 *)
  let ddive_load_factor_ddensity_ratio := dk_load_factor_ddensity_ratio * 25 * min_dive_vel * Cl_alpha / (498 *
      wing_loading) in  (* L820 *)
  let ddive_load_factor_davg_chord := dk_load_factor_davg_chord * 25 * min_dive_vel * Cl_alpha / (498 * wing_loading)
      in  (* L823 *)
  let ddive_load_factor_dCl_alpha := (dk_load_factor_dCl_alpha * 25 * min_dive_vel * Cl_alpha + k_load_factor * 50 *
      min_dive_vel) / (498 * wing_loading) in  (* L826 *)
  let ddive_load_factor_dV9 := 0 in  (* L831 *)
  let dgust_load_factor_dwing_loading := (* dquotient, L10-12 *) let u := k_load_factor * 25 * min_dive_vel * Cl_alpha
      in let v := 498 * wing_loading in let du := dk_load_factor_dwing_loading * 25 * min_dive_vel * Cl_alpha in let
      dv := 498 in (du * v - u * dv) / v ^ 2 in  (* L833 *)
  let dgust_load_factor_ddensity_ratio := dk_load_factor_ddensity_ratio * 25 * min_dive_vel * Cl_alpha / (498 *
      wing_loading) in  (* L839 *)
  let dgust_load_factor_davg_chord := dk_load_factor_davg_chord * 25 * min_dive_vel * Cl_alpha / (498 * wing_loading)
      in  (* L842 *)
  let dgust_load_factor_dCl_alpha := (dk_load_factor_dCl_alpha * 25 * min_dive_vel * Cl_alpha + k_load_factor * 25 *
      min_dive_vel) / (498 * wing_loading) in  (* L845 *)
  let dgust_load_factor_dmin_dive_vel := k_load_factor * 25 * Cl_alpha / (498 * wing_loading) in  (* L849 *)
  let dgust_load_factor_dV9 := 0 in  (* L850 *)
  let SigG := sigmoidX1 (cruise_load_factor / dive_load_factor) 1 (- 1 / 100) in  (* L853 *)
  let SigH := sigmoidX1 (cruise_load_factor / dive_load_factor) 1 (1 / 100) in  (* L854 *)
  let DSigG := dSigmoidX1 (cruise_load_factor / dive_load_factor) 1 (- 1 / 100) in  (* L855 *)
  let DSigH := dSigmoidX1 (cruise_load_factor / dive_load_factor) 1 (1 / 100) in  (* L856 *)
  let gust_load_factor_1 := dive_load_factor * SigG + cruise_load_factor * SigH in  (* L857 *)
  let dgust_load_factor_dwing_loading := ddive_load_factor_dwing_loading * SigG + dive_load_factor * DSigG * ((*
      dquotient, L10-12 *) let u := dive_load_factor - cruise_load_factor in let v := dive_load_factor in let du :=
      ddive_load_factor_dwing_loading - dcruise_load_factor_dwing_loading in let dv := ddive_load_factor_dwing_loading
      in (du * v - u * dv) / v ^ 2) + dcruise_load_factor_dwing_loading * SigH + cruise_load_factor * DSigG * ((*
      dquotient, L10-12 *) let u := cruise_load_factor - dive_load_factor in let v := dive_load_factor in let du :=
      dcruise_load_factor_dwing_loading - ddive_load_factor_dwing_loading in let dv := ddive_load_factor_dwing_loading
      in (du * v - u * dv) / v ^ 2) in  (* L858 *)
  let dgust_load_factor_ddensity_ratio := ddive_load_factor_ddensity_ratio * SigG + dive_load_factor * DSigG * ((*
      dquotient, L10-12 *) let u := dive_load_factor - cruise_load_factor in let v := dive_load_factor in let du :=
      ddive_load_factor_ddensity_ratio - dcruise_load_factor_ddensity_ratio in let dv :=
      ddive_load_factor_ddensity_ratio in (du * v - u * dv) / v ^ 2) + dcruise_load_factor_ddensity_ratio * SigH +
      cruise_load_factor * DSigH * ((* dquotient, L10-12 *) let u := cruise_load_factor - dive_load_factor in let v :=
      dive_load_factor in let du := dcruise_load_factor_ddensity_ratio - ddive_load_factor_ddensity_ratio in let dv :=
      ddive_load_factor_ddensity_ratio in (du * v - u * dv) / v ^ 2) in  (* L878 *)
  let dgust_load_factor_davg_chord := ddive_load_factor_davg_chord * SigG + dive_load_factor * DSigH * ((* dquotient,
      L10-12 *) let u := dive_load_factor - cruise_load_factor in let v := dive_load_factor in let du :=
      ddive_load_factor_davg_chord - dcruise_load_factor_davg_chord in let dv := ddive_load_factor_davg_chord in (du *
      v - u * dv) / v ^ 2) + dcruise_load_factor_davg_chord * SigH + cruise_load_factor * DSigH * ((* dquotient,
      L10-12 *) let u := cruise_load_factor - dive_load_factor in let v := dive_load_factor in let du :=
      dcruise_load_factor_davg_chord - ddive_load_factor_davg_chord in let dv := ddive_load_factor_davg_chord in (du *
      v - u * dv) / v ^ 2) in  (* L898 *)
  let dgust_load_factor_dCl_alpha := ddive_load_factor_dCl_alpha * SigG + dive_load_factor * DSigH * ((* dquotient,
      L10-12 *) let u := dive_load_factor - cruise_load_factor in let v := dive_load_factor in let du :=
      ddive_load_factor_dCl_alpha - dcruise_load_factor_dCl_alpha in let dv := ddive_load_factor_dCl_alpha in (du * v
      - u * dv) / v ^ 2) + dcruise_load_factor_dCl_alpha * SigH + cruise_load_factor * DSigH * ((* dquotient, L10-12
      *) let u := cruise_load_factor - dive_load_factor in let v := dive_load_factor in let du :=
      dcruise_load_factor_dCl_alpha - ddive_load_factor_dCl_alpha in let dv := ddive_load_factor_dCl_alpha in (du * v
      - u * dv) / v ^ 2) in  (* L918 *)
  let dgust_load_factor_dV9 := dive_load_factor * DSigH * ((* dquotient, L10-12 *) let u := dive_load_factor -
      cruise_load_factor in let v := dive_load_factor in let du := ddive_load_factor_dV9 - dcruise_load_factor_dV9 in
      let dv := ddive_load_factor_dV9 in (du * v - u * dv) / v ^ 2) + dcruise_load_factor_dV9 * SigH +
      cruise_load_factor * DSigH * ((* dquotient, L10-12 *) let u := cruise_load_factor - dive_load_factor in let v :=
      dive_load_factor in let du := dcruise_load_factor_dV9 - ddive_load_factor_dV9 in let dv := ddive_load_factor_dV9
      in (du * v - u * dv) / v ^ 2) in  (* L938 *)
  let gust_load_factor := gust_load_factor_1 in  (* L957 *)
  let dULF_dmax_maneuver_factor := 15 / 10 in  (* L969 *)
  let dULF_dwing_loading := 0 in  (* L970 *)
  let dULF_ddensity_ratio := 0 in  (* L971 *)
  let dULF_davg_chord := 0 in  (* L972 *)
  let dULF_dCl_alpha := 0 in  (* L973 *)
  let dULF_dV9 := 0 in  (* L974 *)
  let dULF_dmin_dive_vel := 0 in  (* L975 *)
  let SigK := sigmoidX1 (max_maneuver_factor / gust_load_factor) 1 (- 1 / 100) in  (* L978 *)
  let SigL := sigmoidX1 (max_maneuver_factor / gust_load_factor) 1 (1 / 100) in  (* L979 *)
  let DSigL := dSigmoidX1 (max_maneuver_factor / gust_load_factor) 1 (1 / 100) in  (* L980 *)
  let dULF_dmax_maneuver_factor := 15 / 10 * (gust_load_factor * DSigL * ((* dquotient, L10-12 *) let u :=
      gust_load_factor - max_maneuver_factor in let v := gust_load_factor in let du := - 1 in let dv := 0 in (du * v -
      u * dv) / v ^ 2) + SigL + max_maneuver_factor * DSigL * ((* dquotient, L10-12 *) let u := max_maneuver_factor -
      gust_load_factor in let v := gust_load_factor in let du := 1 in let dv := 0 in (du * v - u * dv) / v ^ 2)) in  (* L981 *)
  let dULF_dwing_loading := 15 / 10 * (dgust_load_factor_dwing_loading * SigK + gust_load_factor * DSigL * ((*
      dquotient, L10-12 *) let u := gust_load_factor - max_maneuver_factor in let v := gust_load_factor in let du :=
      dgust_load_factor_dwing_loading in let dv := dgust_load_factor_dwing_loading in (du * v - u * dv) / v ^ 2) +
      max_maneuver_factor * DSigL * ((* dquotient, L10-12 *) let u := max_maneuver_factor - gust_load_factor in let v
      := gust_load_factor in let du := - dgust_load_factor_dwing_loading in let dv := dgust_load_factor_dwing_loading
      in (du * v - u * dv) / v ^ 2)) in  (* L995 *)
  let dULF_ddensity_ratio := 15 / 10 * (dgust_load_factor_ddensity_ratio * SigK + gust_load_factor * DSigL * ((*
      dquotient, L10-12 *) let u := gust_load_factor - max_maneuver_factor in let v := gust_load_factor in let du :=
      dgust_load_factor_ddensity_ratio in let dv := dgust_load_factor_ddensity_ratio in (du * v - u * dv) / v ^ 2) +
      max_maneuver_factor * DSigL * ((* dquotient, L10-12 *) let u := max_maneuver_factor - gust_load_factor in let v
      := gust_load_factor in let du := - dgust_load_factor_ddensity_ratio in let dv :=
      dgust_load_factor_ddensity_ratio in (du * v - u * dv) / v ^ 2)) in  (* L1014 *)
  let dULF_davg_chord := 15 / 10 * (dgust_load_factor_davg_chord * SigK + gust_load_factor * DSigL * ((* dquotient,
      L10-12 *) let u := gust_load_factor - max_maneuver_factor in let v := gust_load_factor in let du :=
      dgust_load_factor_davg_chord in let dv := dgust_load_factor_davg_chord in (du * v - u * dv) / v ^ 2) +
      max_maneuver_factor * DSigL * ((* dquotient, L10-12 *) let u := max_maneuver_factor - gust_load_factor in let v
      := gust_load_factor in let du := - dgust_load_factor_davg_chord in let dv := dgust_load_factor_davg_chord in (du
      * v - u * dv) / v ^ 2)) in  (* L1033 *)
  let dULF_dCl_alpha := 15 / 10 * (dgust_load_factor_dCl_alpha * SigK + gust_load_factor * DSigL * ((* dquotient,
      L10-12 *) let u := gust_load_factor - max_maneuver_factor in let v := gust_load_factor in let du :=
      dgust_load_factor_dCl_alpha in let dv := dgust_load_factor_dCl_alpha in (du * v - u * dv) / v ^ 2) +
      max_maneuver_factor * DSigL * ((* dquotient, L10-12 *) let u := max_maneuver_factor - gust_load_factor in let v
      := gust_load_factor in let du := - dgust_load_factor_dCl_alpha in let dv := dgust_load_factor_dCl_alpha in (du *
      v - u * dv) / v ^ 2)) in  (* L1052 *)
  let dULF_dV9 := 15 / 10 * (dgust_load_factor_dV9 * SigK + gust_load_factor * DSigL * ((* dquotient, L10-12 *) let u
      := gust_load_factor - max_maneuver_factor in let v := gust_load_factor in let du := dgust_load_factor_dV9 in let
      dv := dgust_load_factor_dV9 in (du * v - u * dv) / v ^ 2) + max_maneuver_factor * DSigL * ((* dquotient, L10-12
      *) let u := max_maneuver_factor - gust_load_factor in let v := gust_load_factor in let du := -
      dgust_load_factor_dV9 in let dv := dgust_load_factor_dV9 in (du * v - u * dv) / v ^ 2)) in  (* L1071 *)
  let dULF_dmin_dive_vel := 0 in  (* L1090 *)
  let '(dULF_dmax_maneuver_factor, dULF_dwing_loading, dULF_ddensity_ratio, dULF_davg_chord, dULF_dCl_alpha, dULF_dV9,
      dULF_dmin_dive_vel) :=  (* L1101 *)
    if ULF_from_maneuver then
      let dULF_dmax_maneuver_factor := 15 / 10 in  (* L1102 *)
      let dULF_dwing_loading := 0 in  (* L1103 *)
      let dULF_ddensity_ratio := 0 in  (* L1104 *)
      let dULF_davg_chord := 0 in  (* L1105 *)
      let dULF_dCl_alpha := 0 in  (* L1106 *)
      let dULF_dV9 := 0 in  (* L1107 *)
      let dULF_dmin_dive_vel := 0 in  (* L1108 *)
      (dULF_dmax_maneuver_factor, dULF_dwing_loading, dULF_ddensity_ratio, dULF_davg_chord, dULF_dCl_alpha, dULF_dV9,
          dULF_dmin_dive_vel)
    else
      (dULF_dmax_maneuver_factor, dULF_dwing_loading, dULF_ddensity_ratio, dULF_davg_chord, dULF_dCl_alpha, dULF_dV9,
          dULF_dmin_dive_vel) in
  let d_Wing_ULTIMATE_LOAD_FACTOR__max_maneuver_factor := dULF_dmax_maneuver_factor in  (* L1110 *)
  let d_Wing_ULTIMATE_LOAD_FACTOR__Design_WING_LOADING := dULF_dwing_loading in  (* L1113 *)
  let d_Wing_ULTIMATE_LOAD_FACTOR__density_ratio := dULF_ddensity_ratio in  (* L1116 *)
  let d_Wing_ULTIMATE_LOAD_FACTOR__Wing_AVERAGE_CHORD := dULF_davg_chord in  (* L1117 *)
  let d_Wing_ULTIMATE_LOAD_FACTOR__Design_LIFT_CURVE_SLOPE := dULF_dCl_alpha in  (* L1118 *)
  let d_Wing_ULTIMATE_LOAD_FACTOR__V9 := dULF_dV9 in  (* L1121 *)
  let d_Wing_ULTIMATE_LOAD_FACTOR__min_dive_vel := dULF_dmin_dive_vel in  (* L1122 *)
  [(Aircraft_Wing_ULTIMATE_LOAD_FACTOR, v_max_maneuver_factor, d_Wing_ULTIMATE_LOAD_FACTOR__max_maneuver_factor);
   (Aircraft_Wing_ULTIMATE_LOAD_FACTOR, Aircraft_Design_WING_LOADING,
       d_Wing_ULTIMATE_LOAD_FACTOR__Design_WING_LOADING);
   (Aircraft_Wing_ULTIMATE_LOAD_FACTOR, v_density_ratio, d_Wing_ULTIMATE_LOAD_FACTOR__density_ratio);
   (Aircraft_Wing_ULTIMATE_LOAD_FACTOR, Aircraft_Wing_AVERAGE_CHORD, d_Wing_ULTIMATE_LOAD_FACTOR__Wing_AVERAGE_CHORD);
   (Aircraft_Wing_ULTIMATE_LOAD_FACTOR, Aircraft_Design_LIFT_CURVE_SLOPE,
       d_Wing_ULTIMATE_LOAD_FACTOR__Design_LIFT_CURVE_SLOPE);
   (Aircraft_Wing_ULTIMATE_LOAD_FACTOR, v_V9, d_Wing_ULTIMATE_LOAD_FACTOR__V9);
   (Aircraft_Wing_ULTIMATE_LOAD_FACTOR, v_min_dive_vel, d_Wing_ULTIMATE_LOAD_FACTOR__min_dive_vel)].

(** Inputs, outputs and declared partials: /repo/aviary/subsystems/mass/gasp_based/design_load.py L660-685 *)
Definition LoadFactorsSmooth (op : options) : comp := {|
  c_ins := [Aircraft_Design_WING_LOADING;
            v_density_ratio;
            v_V9;
            v_min_dive_vel;
            v_max_maneuver_factor;
            Aircraft_Wing_AVERAGE_CHORD;
            Aircraft_Design_LIFT_CURVE_SLOPE];
  c_outs := [Aircraft_Wing_ULTIMATE_LOAD_FACTOR];
  c_decl := [(Aircraft_Wing_ULTIMATE_LOAD_FACTOR, Aircraft_Design_WING_LOADING, 0);
             (Aircraft_Wing_ULTIMATE_LOAD_FACTOR, v_density_ratio, 0);
             (Aircraft_Wing_ULTIMATE_LOAD_FACTOR, v_V9, 0);
             (Aircraft_Wing_ULTIMATE_LOAD_FACTOR, v_min_dive_vel, 0);
             (Aircraft_Wing_ULTIMATE_LOAD_FACTOR, v_max_maneuver_factor, 0);
             (Aircraft_Wing_ULTIMATE_LOAD_FACTOR, Aircraft_Wing_AVERAGE_CHORD, 0);
             (Aircraft_Wing_ULTIMATE_LOAD_FACTOR, Aircraft_Design_LIFT_CURVE_SLOPE, 0)];
  c_run := LoadFactorsSmooth_compute op; c_jac := LoadFactorsSmooth_partials op |}.

(** BWBLoadSpeeds.compute, /repo/aviary/subsystems/mass/gasp_based/design_load.py L1212-1306 (one engine type or one node) *)
Definition BWBLoadSpeedsLightSharp_compute (op : options) (e : env) : list (string * R) :=
  let max_struct_speed_mph := e Aircraft_Design_MAX_STRUCTURAL_SPEED in  (* L1215 *)
  let CATD := on op Aircraft_Design_PART25_STRUCTURAL_CATEGORY in  (* L1217 *)
  let smooth := ob op Aircraft_Design_SMOOTH_MASS_DISCONTINUITIES in  (* L1218 *)
  let WGS_greater_than_20_flag := ob op Aircraft_Wing_LOADING_ABOVE_20 in  (* L1219 *)
  let max_struct_speed_kts := max_struct_speed_mph / (115 / 100) in  (* L1221 *)
  let gross_mass := e Aircraft_Design_GROSS_MASS in  (* L1224 *)
  let exp_wing_area := e Aircraft_Wing_EXPOSED_AREA in  (* L1225 *)
  let wing_loading := gross_mass / exp_wing_area in  (* L1231 *)
  let VCMAX := 9 / 10 * max_struct_speed_kts in  (* L1233 *)
  let VCCOF :=  (* L1234 *)
    if leb CATD 1 then
      let VCCOF :=  (* L1235 *)
        if WGS_greater_than_20_flag then
          let VCCOF := 33 - 55 / 1000 * (wing_loading - 20) in  (* L1236 *)
          VCCOF
        else
          let VCCOF := 33 in  (* L1238 *)
          VCCOF in
      VCCOF
    else
      let VCCOF :=  (* L1239 *)
        if eqb CATD 2 then
          let VCCOF :=  (* L1240 *)
            if WGS_greater_than_20_flag then
              let VCCOF := 36 - 925 / 10000 * (wing_loading - 20) in  (* L1241 *)
              VCCOF
            else
              let VCCOF := 36 in  (* L1243 *)
              VCCOF in
          VCCOF
        else
          0 in
      VCCOF in
  let VCMIN := VCCOF * wing_loading ** (5 / 10) in  (* L1245 *)
  let VCMIN :=  (* L1252 *)
    if ltb VCMAX VCMIN then
      let VCMIN := VCMAX in  (* L1253 *)
      VCMIN
    else
      VCMIN in
  let VDCOF :=  (* L1255 *)
    if eqb CATD 0 then
      let VDCOF :=  (* L1256 *)
        if WGS_greater_than_20_flag then
          let VDCOF := 14 / 10 - 625 / 1000000 * (wing_loading - 20) in  (* L1257 *)
          VDCOF
        else
          let VDCOF := 14 / 10 in  (* L1259 *)
          VDCOF in
      VDCOF
    else
      let VDCOF :=  (* L1260 *)
        if eqb CATD 1 then
          let VDCOF :=  (* L1261 *)
            if WGS_greater_than_20_flag then
              let VDCOF := 15 / 10 - 1875 / 1000000 * (wing_loading - 20) in  (* L1262 *)
              VDCOF
            else
              let VDCOF := 15 / 10 in  (* L1264 *)
              VDCOF in
          VDCOF
        else
          let VDCOF :=  (* L1265 *)
            if eqb CATD 2 then
              let VDCOF :=  (* L1266 *)
                if WGS_greater_than_20_flag then
                  let VDCOF := 155 / 100 - 25 / 10000 * (wing_loading - 20) in  (* L1267 *)
                  VDCOF
                else
                  let VDCOF := 155 / 100 in  (* L1269 *)
                  VDCOF in
              VDCOF
            else
              0 in
          VDCOF in
      VDCOF in
  let min_dive_vel := VDCOF * VCMIN in  (* L1271 *)
  let min_dive_vel :=  (* L1278 *)
    if ltb min_dive_vel max_struct_speed_kts then
      let min_dive_vel := max_struct_speed_kts in  (* L1279 *)
      min_dive_vel
    else
      min_dive_vel in
  let max_airspeed := 85 / 100 * min_dive_vel in  (* L1281 *)
  let vel_c := VCMIN in  (* L1282 *)
  let max_maneuver_factor :=  (* L1284 *)
    if eqb CATD 0 then
      let max_maneuver_factor := 38 / 10 in  (* L1285 *)
      max_maneuver_factor
    else
      let max_maneuver_factor :=  (* L1286 *)
        if eqb CATD 1 then
          let max_maneuver_factor := 44 / 10 in  (* L1287 *)
          max_maneuver_factor
        else
          let max_maneuver_factor :=  (* L1288 *)
            if eqb CATD 2 then
              let max_maneuver_factor := 6 in  (* L1289 *)
              max_maneuver_factor
            else
              0 in
          max_maneuver_factor in
      max_maneuver_factor in
  let o_max_airspeed := max_airspeed in  (* L1303 *)
  let o_vel_c := vel_c in  (* L1304 *)
  let o_max_maneuver_factor := max_maneuver_factor in  (* L1305 *)
  let o_min_dive_vel := min_dive_vel in  (* L1306 *)
  [(v_max_airspeed, o_max_airspeed);
   (v_vel_c, o_vel_c);
   (v_max_maneuver_factor, o_max_maneuver_factor);
   (v_min_dive_vel, o_min_dive_vel)].

(** BWBLoadSpeeds.compute_partials, /repo/aviary/subsystems/mass/gasp_based/design_load.py L1308-1566 *)
Definition BWBLoadSpeedsLightSharp_partials (op : options) (e : env) : list (string * string * R) :=
  let max_struct_speed_mph := e Aircraft_Design_MAX_STRUCTURAL_SPEED in  (* L1309 *)
  let CATD := on op Aircraft_Design_PART25_STRUCTURAL_CATEGORY in  (* L1311 *)
  let smooth := ob op Aircraft_Design_SMOOTH_MASS_DISCONTINUITIES in  (* L1312 *)
  let WGS_greater_than_20_flag := ob op Aircraft_Wing_LOADING_ABOVE_20 in  (* L1313 *)
  let max_struct_speed_kts := max_struct_speed_mph / (115 / 100) in  (* L1315 *)
  let dmax_struct_speed_kts_dmax_struct_speed_mph := 1 / (115 / 100) in  (* L1316 *)
  let dmax_struct_speed_kts_dgross_mass := 0 in  (* L1317 *)
  let dmax_struct_speed_kts_dexp_wing_area := 0 in  (* L1318 *)
  let gross_mass := e Aircraft_Design_GROSS_MASS in  (* L1321 *)
  let exp_wing_area := e Aircraft_Wing_EXPOSED_AREA in  (* L1322 *)
  let wing_loading := gross_mass / exp_wing_area in  (* L1323 *)
  let dwing_loading_dgross_mass := 1 / exp_wing_area in  (* L1324 *)
  let dwing_loading_dexp_wing_area := - gross_mass / exp_wing_area ^ 2 in  (* L1325 *)
  let VCMAX := 9 / 10 * max_struct_speed_kts in  (* L1327 *)
  let dVCMAX_dmax_struct_speed_mph := 9 / 10 / (115 / 100) in  (* L1328 *)
  let '(VCCOF, dVCCOF_dgross_mass, dVCCOF_dexp_wing_area) :=  (* L1330 *)
    if leb CATD 1 then
      let '(VCCOF, dVCCOF_dwing_loading, dVCCOF_dgross_mass, dVCCOF_dexp_wing_area) :=  (* L1331 *)
        if WGS_greater_than_20_flag then
          let VCCOF := 33 - 55 / 1000 * (wing_loading - 20) in  (* L1332 *)
          let dVCCOF_dwing_loading := - 55 / 1000 in  (* L1333 *)
          let dVCCOF_dgross_mass := dVCCOF_dwing_loading * dwing_loading_dgross_mass in  (* L1334 *)
          let dVCCOF_dexp_wing_area := dVCCOF_dwing_loading * dwing_loading_dexp_wing_area in  (* L1335 *)
          (VCCOF, dVCCOF_dwing_loading, dVCCOF_dgross_mass, dVCCOF_dexp_wing_area)
        else
          let VCCOF := 33 in  (* L1337 *)
          let dVCCOF_dwing_loading := 0 in  (* L1338 *)
          let dVCCOF_dgross_mass := 0 in  (* L1339 *)
          let dVCCOF_dexp_wing_area := 0 in  (* L1340 *)
          (VCCOF, dVCCOF_dwing_loading, dVCCOF_dgross_mass, dVCCOF_dexp_wing_area) in
      (VCCOF, dVCCOF_dgross_mass, dVCCOF_dexp_wing_area)
    else
      let '(VCCOF, dVCCOF_dgross_mass, dVCCOF_dexp_wing_area) :=  (* L1341 *)
        if eqb CATD 2 then
          let '(VCCOF, dVCCOF_dwing_loading, dVCCOF_dgross_mass, dVCCOF_dexp_wing_area) :=  (* L1342 *)
            if WGS_greater_than_20_flag then
              let VCCOF := 36 - 925 / 10000 * (wing_loading - 20) in  (* L1343 *)
              let dVCCOF_dwing_loading := - 925 / 10000 in  (* L1344 *)
              let dVCCOF_dgross_mass := dVCCOF_dwing_loading * dwing_loading_dgross_mass in  (* L1345 *)
              let dVCCOF_dexp_wing_area := dVCCOF_dwing_loading * dwing_loading_dexp_wing_area in  (* L1346 *)
              (VCCOF, dVCCOF_dwing_loading, dVCCOF_dgross_mass, dVCCOF_dexp_wing_area)
            else
              let VCCOF := 36 in  (* L1348 *)
              let dVCCOF_dwing_loading := 0 in  (* L1349 *)
              let dVCCOF_dgross_mass := 0 in  (* L1350 *)
              let dVCCOF_dexp_wing_area := 0 in  (* L1351 *)
              (VCCOF, dVCCOF_dwing_loading, dVCCOF_dgross_mass, dVCCOF_dexp_wing_area) in
          (VCCOF, dVCCOF_dgross_mass, dVCCOF_dexp_wing_area)
        else
          (0, 0, 0) in
      (VCCOF, dVCCOF_dgross_mass, dVCCOF_dexp_wing_area) in
  let wl_sqrt := wing_loading ** (5 / 10) in  (* L1353 *)
  let d_wl_sqrt_d_wing_loading := 5 / 10 * wing_loading ** (- 5 / 10) in  (* L1354 *)
  let VCMIN := VCCOF * wl_sqrt in  (* L1355 *)
  let dVCMIN_dgross_mass := dVCCOF_dgross_mass * wl_sqrt + VCCOF * d_wl_sqrt_d_wing_loading *
      dwing_loading_dgross_mass in  (* L1356 *)
  let dVCMIN_dexp_wing_area := dVCCOF_dexp_wing_area * wl_sqrt + VCCOF * d_wl_sqrt_d_wing_loading *
      dwing_loading_dexp_wing_area in  (* L1360 *)
  let dVCMIN_dmax_struct_speed_mph := 0 in  (* L1364 *)
  let '(VCMIN, dVCMIN_dmax_struct_speed_mph, dVCMIN_dgross_mass, dVCMIN_dexp_wing_area) :=  (* L1403 *)
    if ltb VCMAX VCMIN then
      let VCMIN := VCMAX in  (* L1404 *)
      let dVCMIN_dmax_struct_speed_mph := dVCMAX_dmax_struct_speed_mph in  (* L1405 *)
      let dVCMIN_dgross_mass := 0 in  (* L1406 *)
      let dVCMIN_dexp_wing_area := 0 in  (* L1407 *)
      (VCMIN, dVCMIN_dmax_struct_speed_mph, dVCMIN_dgross_mass, dVCMIN_dexp_wing_area)
    else
      (VCMIN, dVCMIN_dmax_struct_speed_mph, dVCMIN_dgross_mass, dVCMIN_dexp_wing_area) in
  let '(VDCOF, dVDCOF_dwing_loading, dVDCOF_dgross_mass, dVDCOF_dexp_wing_area) :=  (* L1409 *)
    if eqb CATD 0 then
      let '(VDCOF, dVDCOF_dwing_loading, dVDCOF_dgross_mass, dVDCOF_dexp_wing_area) :=  (* L1410 *)
        if WGS_greater_than_20_flag then
          let VDCOF := 14 / 10 - 625 / 1000000 * (wing_loading - 20) in  (* L1411 *)
          let dVDCOF_dwing_loading := - 625 / 1000000 in  (* L1412 *)
          let dVDCOF_dgross_mass := dVDCOF_dwing_loading * dwing_loading_dgross_mass in  (* L1413 *)
          let dVDCOF_dexp_wing_area := dVDCOF_dwing_loading * dwing_loading_dexp_wing_area in  (* L1414 *)
          (VDCOF, dVDCOF_dwing_loading, dVDCOF_dgross_mass, dVDCOF_dexp_wing_area)
        else
          let VDCOF := 14 / 10 in  (* L1416 *)
          let dVDCOF_dwing_loading := 0 in  (* L1417 *)
          let dVDCOF_dgross_mass := 0 in  (* L1418 *)
          let dVDCOF_dexp_wing_area := 0 in  (* L1419 *)
          (VDCOF, dVDCOF_dwing_loading, dVDCOF_dgross_mass, dVDCOF_dexp_wing_area) in
      (VDCOF, dVDCOF_dwing_loading, dVDCOF_dgross_mass, dVDCOF_dexp_wing_area)
    else
      (0, 0, 0, 0) in
  let '(VDCOF, dVDCOF_dwing_loading, dVDCOF_dgross_mass, dVDCOF_dexp_wing_area) :=  (* L1420 *)
    if eqb CATD 1 then
      let '(VDCOF, dVDCOF_dwing_loading, dVDCOF_dgross_mass, dVDCOF_dexp_wing_area) :=  (* L1421 *)
        if WGS_greater_than_20_flag then
          let VDCOF := 15 / 10 - 1875 / 1000000 * (wing_loading - 20) in  (* L1422 *)
          let dVDCOF_dwing_loading := - 1875 / 1000000 in  (* L1423 *)
          let dVDCOF_dgross_mass := dVDCOF_dwing_loading * dwing_loading_dgross_mass in  (* L1424 *)
          let dVDCOF_dexp_wing_area := dVDCOF_dwing_loading * dwing_loading_dexp_wing_area in  (* L1425 *)
          (VDCOF, dVDCOF_dwing_loading, dVDCOF_dgross_mass, dVDCOF_dexp_wing_area)
        else
          let VDCOF := 15 / 10 in  (* L1427 *)
          let dVDCOF_dwing_loading := 0 in  (* L1428 *)
          let dVDCOF_dgross_mass := 0 in  (* L1429 *)
          let dVDCOF_dexp_wing_area := 0 in  (* L1430 *)
          (VDCOF, dVDCOF_dwing_loading, dVDCOF_dgross_mass, dVDCOF_dexp_wing_area) in
      (VDCOF, dVDCOF_dwing_loading, dVDCOF_dgross_mass, dVDCOF_dexp_wing_area)
    else
      (VDCOF, dVDCOF_dwing_loading, dVDCOF_dgross_mass, dVDCOF_dexp_wing_area) in
  let '(VDCOF, dVDCOF_dwing_loading, dVDCOF_dgross_mass, dVDCOF_dexp_wing_area) :=  (* L1431 *)
    if eqb CATD 2 then
      let '(VDCOF, dVDCOF_dwing_loading, dVDCOF_dgross_mass, dVDCOF_dexp_wing_area) :=  (* L1432 *)
        if WGS_greater_than_20_flag then
          let VDCOF := 155 / 100 - 25 / 10000 * (wing_loading - 20) in  (* L1433 *)
          let dVDCOF_dwing_loading := - 25 / 10000 in  (* L1434 *)
          let dVDCOF_dgross_mass := dVDCOF_dwing_loading * dwing_loading_dgross_mass in  (* L1435 *)
          let dVDCOF_dexp_wing_area := dVDCOF_dwing_loading * dwing_loading_dexp_wing_area in  (* L1436 *)
          (VDCOF, dVDCOF_dwing_loading, dVDCOF_dgross_mass, dVDCOF_dexp_wing_area)
        else
          let VDCOF := 155 / 100 in  (* L1438 *)
          let dVDCOF_dwing_loading := 0 in  (* L1439 *)
          let dVDCOF_dgross_mass := 0 in  (* L1440 *)
          let dVDCOF_dexp_wing_area := 0 in  (* L1441 *)
          (VDCOF, dVDCOF_dwing_loading, dVDCOF_dgross_mass, dVDCOF_dexp_wing_area) in
      (VDCOF, dVDCOF_dwing_loading, dVDCOF_dgross_mass, dVDCOF_dexp_wing_area)
    else
      (VDCOF, dVDCOF_dwing_loading, dVDCOF_dgross_mass, dVDCOF_dexp_wing_area) in
  let min_dive_vel := VDCOF * VCMIN in  (* L1443 *)
  let dmin_dive_vel_dgross_mass := dVDCOF_dgross_mass * VCMIN + VDCOF * dVCMIN_dgross_mass in  (* L1444 *)
  let dmin_dive_vel_dexp_wing_area := dVDCOF_dexp_wing_area * VCMIN + VDCOF * dVCMIN_dexp_wing_area in  (* L1445 *)
  let dmin_dive_vel_dmax_struct_speed_mph := VDCOF * dVCMIN_dmax_struct_speed_mph in  (* L1448 *)
  let '(min_dive_vel, dmin_dive_vel_dgross_mass, dmin_dive_vel_dexp_wing_area, dmin_dive_vel_dmax_struct_speed_mph) :=  (* L1521 *)
    if ltb min_dive_vel max_struct_speed_kts then
      let min_dive_vel := max_struct_speed_kts in  (* L1522 *)
      let dmin_dive_vel_dgross_mass := 0 in  (* L1523 *)
      let dmin_dive_vel_dexp_wing_area := 0 in  (* L1524 *)
      let dmin_dive_vel_dmax_struct_speed_mph := dmax_struct_speed_kts_dmax_struct_speed_mph in  (* L1525 *)
      (min_dive_vel, dmin_dive_vel_dgross_mass, dmin_dive_vel_dexp_wing_area, dmin_dive_vel_dmax_struct_speed_mph)
    else
      (min_dive_vel, dmin_dive_vel_dgross_mass, dmin_dive_vel_dexp_wing_area, dmin_dive_vel_dmax_struct_speed_mph) in
  let d_min_dive_vel__Design_GROSS_MASS := dmin_dive_vel_dgross_mass in  (* L1529 *)
  let d_min_dive_vel__Wing_EXPOSED_AREA := dmin_dive_vel_dexp_wing_area in  (* L1530 *)
  let d_min_dive_vel__Design_MAX_STRUCTURAL_SPEED := dmin_dive_vel_dmax_struct_speed_mph in  (* L1531 *)
  let d_max_airspeed__Design_GROSS_MASS := 85 / 100 * dmin_dive_vel_dgross_mass in  (* L1535 *)
  let d_max_airspeed__Wing_EXPOSED_AREA := 85 / 100 * dmin_dive_vel_dexp_wing_area in  (* L1536 *)
  let d_max_airspeed__Design_MAX_STRUCTURAL_SPEED := 85 / 100 * dmin_dive_vel_dmax_struct_speed_mph in  (* L1539 *)
  let d_vel_c__Design_GROSS_MASS := dVCMIN_dgross_mass in  (* L1543 *)
  let d_vel_c__Wing_EXPOSED_AREA := dVCMIN_dexp_wing_area in  (* L1544 *)
  let d_vel_c__Design_MAX_STRUCTURAL_SPEED := dVCMIN_dmax_struct_speed_mph in  (* L1545 *)
  [(v_min_dive_vel, Aircraft_Design_GROSS_MASS, d_min_dive_vel__Design_GROSS_MASS);
   (v_min_dive_vel, Aircraft_Wing_EXPOSED_AREA, d_min_dive_vel__Wing_EXPOSED_AREA);
   (v_min_dive_vel, Aircraft_Design_MAX_STRUCTURAL_SPEED, d_min_dive_vel__Design_MAX_STRUCTURAL_SPEED);
   (v_max_airspeed, Aircraft_Design_GROSS_MASS, d_max_airspeed__Design_GROSS_MASS);
   (v_max_airspeed, Aircraft_Wing_EXPOSED_AREA, d_max_airspeed__Wing_EXPOSED_AREA);
   (v_max_airspeed, Aircraft_Design_MAX_STRUCTURAL_SPEED, d_max_airspeed__Design_MAX_STRUCTURAL_SPEED);
   (v_vel_c, Aircraft_Design_GROSS_MASS, d_vel_c__Design_GROSS_MASS);
   (v_vel_c, Aircraft_Wing_EXPOSED_AREA, d_vel_c__Wing_EXPOSED_AREA);
   (v_vel_c, Aircraft_Design_MAX_STRUCTURAL_SPEED, d_vel_c__Design_MAX_STRUCTURAL_SPEED)].

(** Inputs, outputs and declared partials: /repo/aviary/subsystems/mass/gasp_based/design_load.py L1185-1210 *)
Definition BWBLoadSpeedsLightSharp (op : options) : comp := {|
  c_ins := [Aircraft_Design_MAX_STRUCTURAL_SPEED;
            Aircraft_Design_GROSS_MASS;
            Aircraft_Wing_EXPOSED_AREA];
  c_outs := [v_max_airspeed;
             v_vel_c;
             v_max_maneuver_factor;
             v_min_dive_vel];
  c_decl := [(v_max_airspeed, Aircraft_Design_MAX_STRUCTURAL_SPEED, 0);
             (v_max_airspeed, Aircraft_Design_GROSS_MASS, 0);
             (v_max_airspeed, Aircraft_Wing_EXPOSED_AREA, 0);
             (v_vel_c, Aircraft_Design_MAX_STRUCTURAL_SPEED, 0);
             (v_vel_c, Aircraft_Design_GROSS_MASS, 0);
             (v_vel_c, Aircraft_Wing_EXPOSED_AREA, 0);
             (v_max_maneuver_factor, Aircraft_Design_MAX_STRUCTURAL_SPEED, 0);
             (v_max_maneuver_factor, Aircraft_Design_GROSS_MASS, 0);
             (v_max_maneuver_factor, Aircraft_Wing_EXPOSED_AREA, 0);
             (v_min_dive_vel, Aircraft_Design_MAX_STRUCTURAL_SPEED, 0);
             (v_min_dive_vel, Aircraft_Design_GROSS_MASS, 0);
             (v_min_dive_vel, Aircraft_Wing_EXPOSED_AREA, 0)];
  c_run := BWBLoadSpeedsLightSharp_compute op; c_jac := BWBLoadSpeedsLightSharp_partials op |}.

(** BWBLoadSpeeds.compute, /repo/aviary/subsystems/mass/gasp_based/design_load.py L1212-1306 (one engine type or one node) *)
Definition BWBLoadSpeedsLightSmooth_compute (op : options) (e : env) : list (string * R) :=
  let max_struct_speed_mph := e Aircraft_Design_MAX_STRUCTURAL_SPEED in  (* L1215 *)
  let CATD := on op Aircraft_Design_PART25_STRUCTURAL_CATEGORY in  (* L1217 *)
  let smooth := ob op Aircraft_Design_SMOOTH_MASS_DISCONTINUITIES in  (* L1218 *)
  let WGS_greater_than_20_flag := ob op Aircraft_Wing_LOADING_ABOVE_20 in  (* L1219 *)
  let max_struct_speed_kts := max_struct_speed_mph / (115 / 100) in  (* L1221 *)
  let gross_mass := e Aircraft_Design_GROSS_MASS in  (* L1224 *)
  let exp_wing_area := e Aircraft_Wing_EXPOSED_AREA in  (* L1225 *)
  let wing_loading := gross_mass / exp_wing_area in  (* L1231 *)
  let VCMAX := 9 / 10 * max_struct_speed_kts in  (* L1233 *)
  let VCCOF :=  (* L1234 *)
    if leb CATD 1 then
      let VCCOF :=  (* L1235 *)
        if WGS_greater_than_20_flag then
          let VCCOF := 33 - 55 / 1000 * (wing_loading - 20) in  (* L1236 *)
          VCCOF
        else
          let VCCOF := 33 in  (* L1238 *)
          VCCOF in
      VCCOF
    else
      let VCCOF :=  (* L1239 *)
        if eqb CATD 2 then
          let VCCOF :=  (* L1240 *)
            if WGS_greater_than_20_flag then
              let VCCOF := 36 - 925 / 10000 * (wing_loading - 20) in  (* L1241 *)
              VCCOF
            else
              let VCCOF := 36 in  (* L1243 *)
              VCCOF in
          VCCOF
        else
          0 in
      VCCOF in
  let VCMIN := VCCOF * wing_loading ** (5 / 10) in  (* L1245 *)
  let VCMIN := VCMIN * sigmoidX1 (VCMIN / VCMAX) 1 (- 1 / 100) + VCMAX * sigmoidX1 (VCMIN / VCMAX) 1 (1 / 100) in  (* L1248 *)
  let VDCOF :=  (* L1255 *)
    if eqb CATD 0 then
      let VDCOF :=  (* L1256 *)
        if WGS_greater_than_20_flag then
          let VDCOF := 14 / 10 - 625 / 1000000 * (wing_loading - 20) in  (* L1257 *)
          VDCOF
        else
          let VDCOF := 14 / 10 in  (* L1259 *)
          VDCOF in
      VDCOF
    else
      let VDCOF :=  (* L1260 *)
        if eqb CATD 1 then
          let VDCOF :=  (* L1261 *)
            if WGS_greater_than_20_flag then
              let VDCOF := 15 / 10 - 1875 / 1000000 * (wing_loading - 20) in  (* L1262 *)
              VDCOF
            else
              let VDCOF := 15 / 10 in  (* L1264 *)
              VDCOF in
          VDCOF
        else
          let VDCOF :=  (* L1265 *)
            if eqb CATD 2 then
              let VDCOF :=  (* L1266 *)
                if WGS_greater_than_20_flag then
                  let VDCOF := 155 / 100 - 25 / 10000 * (wing_loading - 20) in  (* L1267 *)
                  VDCOF
                else
                  let VDCOF := 155 / 100 in  (* L1269 *)
                  VDCOF in
              VDCOF
            else
              0 in
          VDCOF in
      VDCOF in
  let min_dive_vel := VDCOF * VCMIN in  (* L1271 *)
  let min_dive_vel := max_struct_speed_kts * sigmoidX1 (min_dive_vel / max_struct_speed_kts) 1 (- 1 / 100) +
      min_dive_vel * sigmoidX1 (min_dive_vel / max_struct_speed_kts) 1 (1 / 100) in  (* L1274 *)
  let max_airspeed := 85 / 100 * min_dive_vel in  (* L1281 *)
  let vel_c := VCMIN in  (* L1282 *)
  let max_maneuver_factor :=  (* L1284 *)
    if eqb CATD 0 then
      let max_maneuver_factor := 38 / 10 in  (* L1285 *)
      max_maneuver_factor
    else
      let max_maneuver_factor :=  (* L1286 *)
        if eqb CATD 1 then
          let max_maneuver_factor := 44 / 10 in  (* L1287 *)
          max_maneuver_factor
        else
          let max_maneuver_factor :=  (* L1288 *)
            if eqb CATD 2 then
              let max_maneuver_factor := 6 in  (* L1289 *)
              max_maneuver_factor
            else
              0 in
          max_maneuver_factor in
      max_maneuver_factor in
  let o_max_airspeed := max_airspeed in  (* L1303 *)
  let o_vel_c := vel_c in  (* L1304 *)
  let o_max_maneuver_factor := max_maneuver_factor in  (* L1305 *)
  let o_min_dive_vel := min_dive_vel in  (* L1306 *)
  [(v_max_airspeed, o_max_airspeed);
   (v_vel_c, o_vel_c);
   (v_max_maneuver_factor, o_max_maneuver_factor);
   (v_min_dive_vel, o_min_dive_vel)].

(** BWBLoadSpeeds.compute_partials, /repo/aviary/subsystems/mass/gasp_based/design_load.py L1308-1566 *)
Definition BWBLoadSpeedsLightSmooth_partials (op : options) (e : env) : list (string * string * R) :=
  let max_struct_speed_mph := e Aircraft_Design_MAX_STRUCTURAL_SPEED in  (* L1309 *)
  let CATD := on op Aircraft_Design_PART25_STRUCTURAL_CATEGORY in  (* L1311 *)
  let smooth := ob op Aircraft_Design_SMOOTH_MASS_DISCONTINUITIES in  (* L1312 *)
  let WGS_greater_than_20_flag := ob op Aircraft_Wing_LOADING_ABOVE_20 in  (* L1313 *)
  let max_struct_speed_kts := max_struct_speed_mph / (115 / 100) in  (* L1315 *)
  let dmax_struct_speed_kts_dmax_struct_speed_mph := 1 / (115 / 100) in  (* L1316 *)
  let dmax_struct_speed_kts_dgross_mass := 0 in  (* L1317 *)
  let dmax_struct_speed_kts_dexp_wing_area := 0 in  (* L1318 *)
  let gross_mass := e Aircraft_Design_GROSS_MASS in  (* L1321 *)
  let exp_wing_area := e Aircraft_Wing_EXPOSED_AREA in  (* L1322 *)
  let wing_loading := gross_mass / exp_wing_area in  (* L1323 *)
  let dwing_loading_dgross_mass := 1 / exp_wing_area in  (* L1324 *)
  let dwing_loading_dexp_wing_area := - gross_mass / exp_wing_area ^ 2 in  (* L1325 *)
  let VCMAX := 9 / 10 * max_struct_speed_kts in  (* L1327 *)
  let dVCMAX_dmax_struct_speed_mph := 9 / 10 / (115 / 100) in  (* L1328 *)
  let '(VCCOF, dVCCOF_dgross_mass, dVCCOF_dexp_wing_area) :=  (* L1330 *)
    if leb CATD 1 then
      let '(VCCOF, dVCCOF_dwing_loading, dVCCOF_dgross_mass, dVCCOF_dexp_wing_area) :=  (* L1331 *)
        if WGS_greater_than_20_flag then
          let VCCOF := 33 - 55 / 1000 * (wing_loading - 20) in  (* L1332 *)
          let dVCCOF_dwing_loading := - 55 / 1000 in  (* L1333 *)
          let dVCCOF_dgross_mass := dVCCOF_dwing_loading * dwing_loading_dgross_mass in  (* L1334 *)
          let dVCCOF_dexp_wing_area := dVCCOF_dwing_loading * dwing_loading_dexp_wing_area in  (* L1335 *)
          (VCCOF, dVCCOF_dwing_loading, dVCCOF_dgross_mass, dVCCOF_dexp_wing_area)
        else
          let VCCOF := 33 in  (* L1337 *)
          let dVCCOF_dwing_loading := 0 in  (* L1338 *)
          let dVCCOF_dgross_mass := 0 in  (* L1339 *)
          let dVCCOF_dexp_wing_area := 0 in  (* L1340 *)
          (VCCOF, dVCCOF_dwing_loading, dVCCOF_dgross_mass, dVCCOF_dexp_wing_area) in
      (VCCOF, dVCCOF_dgross_mass, dVCCOF_dexp_wing_area)
    else
      let '(VCCOF, dVCCOF_dgross_mass, dVCCOF_dexp_wing_area) :=  (* L1341 *)
        if eqb CATD 2 then
          let '(VCCOF, dVCCOF_dwing_loading, dVCCOF_dgross_mass, dVCCOF_dexp_wing_area) :=  (* L1342 *)
            if WGS_greater_than_20_flag then
              let VCCOF := 36 - 925 / 10000 * (wing_loading - 20) in  (* L1343 *)
              let dVCCOF_dwing_loading := - 925 / 10000 in  (* L1344 *)
              let dVCCOF_dgross_mass := dVCCOF_dwing_loading * dwing_loading_dgross_mass in  (* L1345 *)
              let dVCCOF_dexp_wing_area := dVCCOF_dwing_loading * dwing_loading_dexp_wing_area in  (* L1346 *)
              (VCCOF, dVCCOF_dwing_loading, dVCCOF_dgross_mass, dVCCOF_dexp_wing_area)
            else
              let VCCOF := 36 in  (* L1348 *)
              let dVCCOF_dwing_loading := 0 in  (* L1349 *)
              let dVCCOF_dgross_mass := 0 in  (* L1350 *)
              let dVCCOF_dexp_wing_area := 0 in  (* L1351 *)
              (VCCOF, dVCCOF_dwing_loading, dVCCOF_dgross_mass, dVCCOF_dexp_wing_area) in
          (VCCOF, dVCCOF_dgross_mass, dVCCOF_dexp_wing_area)
        else
          (0, 0, 0) in
      (VCCOF, dVCCOF_dgross_mass, dVCCOF_dexp_wing_area) in
  let wl_sqrt := wing_loading ** (5 / 10) in  (* L1353 *)
  let d_wl_sqrt_d_wing_loading := 5 / 10 * wing_loading ** (- 5 / 10) in  (* L1354 *)
  let VCMIN := VCCOF * wl_sqrt in  (* L1355 *)
  let dVCMIN_dgross_mass := dVCCOF_dgross_mass * wl_sqrt + VCCOF * d_wl_sqrt_d_wing_loading *
      dwing_loading_dgross_mass in  (* L1356 *)
  let dVCMIN_dexp_wing_area := dVCCOF_dexp_wing_area * wl_sqrt + VCCOF * d_wl_sqrt_d_wing_loading *
      dwing_loading_dexp_wing_area in  (* L1360 *)
  let dVCMIN_dmax_struct_speed_mph := 0 in  (* L1364 *)
  let SigA := sigmoidX1 (VCMIN / VCMAX) 1 (- 1 / 100) in  (* L1367 *)
  let SigB := sigmoidX1 (VCMIN / VCMAX) 1 (1 / 100) in  (* L1368 *)
  let DSigB := dSigmoidX1 (VCMIN / VCMAX) 1 (1 / 100) in  (* L1369 *)
  let VCMIN_1 := VCMIN * SigA + VCMAX * SigB in  (* L1370 *)
  let dVCMIN_dgross_mass := dVCMIN_dgross_mass * SigA - VCMIN * DSigB * dVCMIN_dgross_mass / VCMAX + VCMAX * DSigB *
      dVCMIN_dgross_mass / VCMAX in  (* L1371 *)
  let dVCMIN_dexp_wing_area := dVCMIN_dexp_wing_area * SigA - VCMIN * DSigB * dVCMIN_dexp_wing_area / VCMAX + VCMAX *
      DSigB * dVCMIN_dexp_wing_area / VCMAX in  (* L1376 *)
  let dVCMIN_dmax_struct_speed_mph := dVCMIN_dmax_struct_speed_mph * sigmoidX1 (VCMIN / VCMAX) 1 (- 1 / 100) + VCMIN *
      DSigB * ((* dquotient, L10-12 *) let u := VCMAX - VCMIN in let v := VCMAX in let du :=
      dVCMAX_dmax_struct_speed_mph - dVCMIN_dmax_struct_speed_mph in let dv := dVCMAX_dmax_struct_speed_mph in (du * v
      - u * dv) / v ^ 2) + dVCMAX_dmax_struct_speed_mph * SigB + VCMAX * DSigB * ((* dquotient, L10-12 *) let u :=
      VCMIN - VCMAX in let v := VCMAX in let du := dVCMIN_dmax_struct_speed_mph - dVCMAX_dmax_struct_speed_mph in let
      dv := dVCMAX_dmax_struct_speed_mph in (du * v - u * dv) / v ^ 2) in  (* L1381 *)
  let VCMIN := VCMIN_1 in  (* L1401 *)
  let '(VDCOF, dVDCOF_dwing_loading, dVDCOF_dgross_mass, dVDCOF_dexp_wing_area) :=  (* L1409 *)
    if eqb CATD 0 then
      let '(VDCOF, dVDCOF_dwing_loading, dVDCOF_dgross_mass, dVDCOF_dexp_wing_area) :=  (* L1410 *)
        if WGS_greater_than_20_flag then
          let VDCOF := 14 / 10 - 625 / 1000000 * (wing_loading - 20) in  (* L1411 *)
          let dVDCOF_dwing_loading := - 625 / 1000000 in  (* L1412 *)
          let dVDCOF_dgross_mass := dVDCOF_dwing_loading * dwing_loading_dgross_mass in  (* L1413 *)
          let dVDCOF_dexp_wing_area := dVDCOF_dwing_loading * dwing_loading_dexp_wing_area in  (* L1414 *)
          (VDCOF, dVDCOF_dwing_loading, dVDCOF_dgross_mass, dVDCOF_dexp_wing_area)
        else
          let VDCOF := 14 / 10 in  (* L1416 *)
          let dVDCOF_dwing_loading := 0 in  (* L1417 *)
          let dVDCOF_dgross_mass := 0 in  (* L1418 *)
          let dVDCOF_dexp_wing_area := 0 in  (* L1419 *)
          (VDCOF, dVDCOF_dwing_loading, dVDCOF_dgross_mass, dVDCOF_dexp_wing_area) in
      (VDCOF, dVDCOF_dwing_loading, dVDCOF_dgross_mass, dVDCOF_dexp_wing_area)
    else
      (0, 0, 0, 0) in
  let '(VDCOF, dVDCOF_dwing_loading, dVDCOF_dgross_mass, dVDCOF_dexp_wing_area) :=  (* L1420 *)
    if eqb CATD 1 then
      let '(VDCOF, dVDCOF_dwing_loading, dVDCOF_dgross_mass, dVDCOF_dexp_wing_area) :=  (* L1421 *)
        if WGS_greater_than_20_flag then
          let VDCOF := 15 / 10 - 1875 / 1000000 * (wing_loading - 20) in  (* L1422 *)
          let dVDCOF_dwing_loading := - 1875 / 1000000 in  (* L1423 *)
          let dVDCOF_dgross_mass := dVDCOF_dwing_loading * dwing_loading_dgross_mass in  (* L1424 *)
          let dVDCOF_dexp_wing_area := dVDCOF_dwing_loading * dwing_loading_dexp_wing_area in  (* L1425 *)
          (VDCOF, dVDCOF_dwing_loading, dVDCOF_dgross_mass, dVDCOF_dexp_wing_area)
        else
          let VDCOF := 15 / 10 in  (* L1427 *)
          let dVDCOF_dwing_loading := 0 in  (* L1428 *)
          let dVDCOF_dgross_mass := 0 in  (* L1429 *)
          let dVDCOF_dexp_wing_area := 0 in  (* L1430 *)
          (VDCOF, dVDCOF_dwing_loading, dVDCOF_dgross_mass, dVDCOF_dexp_wing_area) in
      (VDCOF, dVDCOF_dwing_loading, dVDCOF_dgross_mass, dVDCOF_dexp_wing_area)
    else
      (VDCOF, dVDCOF_dwing_loading, dVDCOF_dgross_mass, dVDCOF_dexp_wing_area) in
  let '(VDCOF, dVDCOF_dwing_loading, dVDCOF_dgross_mass, dVDCOF_dexp_wing_area) :=  (* L1431 *)
    if eqb CATD 2 then
      let '(VDCOF, dVDCOF_dwing_loading, dVDCOF_dgross_mass, dVDCOF_dexp_wing_area) :=  (* L1432 *)
        if WGS_greater_than_20_flag then
          let VDCOF := 155 / 100 - 25 / 10000 * (wing_loading - 20) in  (* L1433 *)
          let dVDCOF_dwing_loading := - 25 / 10000 in  (* L1434 *)
          let dVDCOF_dgross_mass := dVDCOF_dwing_loading * dwing_loading_dgross_mass in  (* L1435 *)
          let dVDCOF_dexp_wing_area := dVDCOF_dwing_loading * dwing_loading_dexp_wing_area in  (* L1436 *)
          (VDCOF, dVDCOF_dwing_loading, dVDCOF_dgross_mass, dVDCOF_dexp_wing_area)
        else
          let VDCOF := 155 / 100 in  (* L1438 *)
          let dVDCOF_dwing_loading := 0 in  (* L1439 *)
          let dVDCOF_dgross_mass := 0 in  (* L1440 *)
          let dVDCOF_dexp_wing_area := 0 in  (* L1441 *)
          (VDCOF, dVDCOF_dwing_loading, dVDCOF_dgross_mass, dVDCOF_dexp_wing_area) in
      (VDCOF, dVDCOF_dwing_loading, dVDCOF_dgross_mass, dVDCOF_dexp_wing_area)
    else
      (VDCOF, dVDCOF_dwing_loading, dVDCOF_dgross_mass, dVDCOF_dexp_wing_area) in
  let min_dive_vel := VDCOF * VCMIN in  (* L1443 *)
  let dmin_dive_vel_dgross_mass := dVDCOF_dgross_mass * VCMIN + VDCOF * dVCMIN_dgross_mass in  (* L1444 *)
  let dmin_dive_vel_dexp_wing_area := dVDCOF_dexp_wing_area * VCMIN + VDCOF * dVCMIN_dexp_wing_area in  (* L1445 *)
  let dmin_dive_vel_dmax_struct_speed_mph := VDCOF * dVCMIN_dmax_struct_speed_mph in  (* L1448 *)
  let SigC := sigmoidX1 (min_dive_vel / max_struct_speed_kts) 1 (- 1 / 100) in  (* L1451 *)
  let SigD := sigmoidX1 (min_dive_vel / max_struct_speed_kts) 1 (1 / 100) in  (* L1452 *)
  let DSigD := dSigmoidX1 (min_dive_vel / max_struct_speed_kts) 1 (1 / 100) in  (* L1453 *)
  let min_dive_vel_1 := max_struct_speed_kts * SigC + min_dive_vel * SigD in  (* L1454 *)
  let dmin_dive_vel_dmax_struct_speed_mph := dmax_struct_speed_kts_dmax_struct_speed_mph * SigC + max_struct_speed_kts
      * DSigD * ((* dquotient, L10-12 *) let u := max_struct_speed_kts - min_dive_vel in let v := max_struct_speed_kts
      in let du := dmax_struct_speed_kts_dmax_struct_speed_mph - dmin_dive_vel_dmax_struct_speed_mph in let dv :=
      dmax_struct_speed_kts_dmax_struct_speed_mph in (du * v - u * dv) / v ^ 2) + dmin_dive_vel_dmax_struct_speed_mph
      * SigD + min_dive_vel * DSigD * ((* dquotient, L10-12 *) let u := min_dive_vel - max_struct_speed_kts in let v
      := max_struct_speed_kts in let du := dmin_dive_vel_dmax_struct_speed_mph -
      dmax_struct_speed_kts_dmax_struct_speed_mph in let dv := dmax_struct_speed_kts_dmax_struct_speed_mph in (du * v
      - u * dv) / v ^ 2) in  (* L1455 *)
  let dmin_dive_vel_dgross_mass := dmax_struct_speed_kts_dgross_mass * SigC + max_struct_speed_kts * DSigD * ((*
      dquotient, L10-12 *) let u := max_struct_speed_kts - min_dive_vel in let v := max_struct_speed_kts in let du :=
      dmax_struct_speed_kts_dgross_mass - dmin_dive_vel_dgross_mass in let dv := dmax_struct_speed_kts_dgross_mass in
      (du * v - u * dv) / v ^ 2) + dmin_dive_vel_dgross_mass * SigD + min_dive_vel * DSigD * ((* dquotient, L10-12 *)
      let u := min_dive_vel - max_struct_speed_kts in let v := max_struct_speed_kts in let du :=
      dmin_dive_vel_dgross_mass - dmax_struct_speed_kts_dgross_mass in let dv := dmax_struct_speed_kts_dgross_mass in
      (du * v - u * dv) / v ^ 2) in  (* L1479 *)
  let dmin_dive_vel_dexp_wing_area := dmax_struct_speed_kts_dexp_wing_area * SigC + max_struct_speed_kts * DSigD * ((*
      dquotient, L10-12 *) let u := max_struct_speed_kts - min_dive_vel in let v := max_struct_speed_kts in let du :=
      dmax_struct_speed_kts_dexp_wing_area - dmin_dive_vel_dexp_wing_area in let dv :=
      dmax_struct_speed_kts_dexp_wing_area in (du * v - u * dv) / v ^ 2) + dmin_dive_vel_dexp_wing_area * SigD +
      min_dive_vel * DSigD * ((* dquotient, L10-12 *) let u := min_dive_vel - max_struct_speed_kts in let v :=
      max_struct_speed_kts in let du := dmin_dive_vel_dexp_wing_area - dmax_struct_speed_kts_dexp_wing_area in let dv
      := dmax_struct_speed_kts_dexp_wing_area in (du * v - u * dv) / v ^ 2) in  (* L1499 *)
  let min_dive_vel := min_dive_vel_1 in  (* L1519 *)
  let d_min_dive_vel__Design_GROSS_MASS := dmin_dive_vel_dgross_mass in  (* L1529 *)
  let d_min_dive_vel__Wing_EXPOSED_AREA := dmin_dive_vel_dexp_wing_area in  (* L1530 *)
  let d_min_dive_vel__Design_MAX_STRUCTURAL_SPEED := dmin_dive_vel_dmax_struct_speed_mph in  (* L1531 *)
  let d_max_airspeed__Design_GROSS_MASS := 85 / 100 * dmin_dive_vel_dgross_mass in  (* L1535 *)
  let d_max_airspeed__Wing_EXPOSED_AREA := 85 / 100 * dmin_dive_vel_dexp_wing_area in  (* L1536 *)
  let d_max_airspeed__Design_MAX_STRUCTURAL_SPEED := 85 / 100 * dmin_dive_vel_dmax_struct_speed_mph in  (* L1539 *)
  let d_vel_c__Design_GROSS_MASS := dVCMIN_dgross_mass in  (* L1543 *)
  let d_vel_c__Wing_EXPOSED_AREA := dVCMIN_dexp_wing_area in  (* L1544 *)
  let d_vel_c__Design_MAX_STRUCTURAL_SPEED := dVCMIN_dmax_struct_speed_mph in  (* L1545 *)
  [(v_min_dive_vel, Aircraft_Design_GROSS_MASS, d_min_dive_vel__Design_GROSS_MASS);
   (v_min_dive_vel, Aircraft_Wing_EXPOSED_AREA, d_min_dive_vel__Wing_EXPOSED_AREA);
   (v_min_dive_vel, Aircraft_Design_MAX_STRUCTURAL_SPEED, d_min_dive_vel__Design_MAX_STRUCTURAL_SPEED);
   (v_max_airspeed, Aircraft_Design_GROSS_MASS, d_max_airspeed__Design_GROSS_MASS);
   (v_max_airspeed, Aircraft_Wing_EXPOSED_AREA, d_max_airspeed__Wing_EXPOSED_AREA);
   (v_max_airspeed, Aircraft_Design_MAX_STRUCTURAL_SPEED, d_max_airspeed__Design_MAX_STRUCTURAL_SPEED);
   (v_vel_c, Aircraft_Design_GROSS_MASS, d_vel_c__Design_GROSS_MASS);
   (v_vel_c, Aircraft_Wing_EXPOSED_AREA, d_vel_c__Wing_EXPOSED_AREA);
   (v_vel_c, Aircraft_Design_MAX_STRUCTURAL_SPEED, d_vel_c__Design_MAX_STRUCTURAL_SPEED)].

(** Inputs, outputs and declared partials: /repo/aviary/subsystems/mass/gasp_based/design_load.py L1185-1210 *)
Definition BWBLoadSpeedsLightSmooth (op : options) : comp := {|
  c_ins := [Aircraft_Design_MAX_STRUCTURAL_SPEED;
            Aircraft_Design_GROSS_MASS;
            Aircraft_Wing_EXPOSED_AREA];
  c_outs := [v_max_airspeed;
             v_vel_c;
             v_max_maneuver_factor;
             v_min_dive_vel];
  c_decl := [(v_max_airspeed, Aircraft_Design_MAX_STRUCTURAL_SPEED, 0);
             (v_max_airspeed, Aircraft_Design_GROSS_MASS, 0);
             (v_max_airspeed, Aircraft_Wing_EXPOSED_AREA, 0);
             (v_vel_c, Aircraft_Design_MAX_STRUCTURAL_SPEED, 0);
             (v_vel_c, Aircraft_Design_GROSS_MASS, 0);
             (v_vel_c, Aircraft_Wing_EXPOSED_AREA, 0);
             (v_max_maneuver_factor, Aircraft_Design_MAX_STRUCTURAL_SPEED, 0);
             (v_max_maneuver_factor, Aircraft_Design_GROSS_MASS, 0);
             (v_max_maneuver_factor, Aircraft_Wing_EXPOSED_AREA, 0);
             (v_min_dive_vel, Aircraft_Design_MAX_STRUCTURAL_SPEED, 0);
             (v_min_dive_vel, Aircraft_Design_GROSS_MASS, 0);
             (v_min_dive_vel, Aircraft_Wing_EXPOSED_AREA, 0)];
  c_run := BWBLoadSpeedsLightSmooth_compute op; c_jac := BWBLoadSpeedsLightSmooth_partials op |}.

(** BWBLoadSpeeds.compute, /repo/aviary/subsystems/mass/gasp_based/design_load.py L1212-1306 (one engine type or one node) *)
Definition BWBLoadSpeedsTransport_compute (op : options) (e : env) : list (string * R) :=
  let max_struct_speed_mph := e Aircraft_Design_MAX_STRUCTURAL_SPEED in  (* L1215 *)
  let CATD := on op Aircraft_Design_PART25_STRUCTURAL_CATEGORY in  (* L1217 *)
  let smooth := ob op Aircraft_Design_SMOOTH_MASS_DISCONTINUITIES in  (* L1218 *)
  let WGS_greater_than_20_flag := ob op Aircraft_Wing_LOADING_ABOVE_20 in  (* L1219 *)
  let max_struct_speed_kts := max_struct_speed_mph / (115 / 100) in  (* L1221 *)
  let '(max_maneuver_factor, min_dive_vel, max_airspeed, vel_c) :=  (* L1291 *)
    if eqb CATD 3 then
      let max_maneuver_factor := 25 / 10 in  (* L1292 *)
      let min_dive_vel := 12 / 10 * max_struct_speed_kts in  (* L1293 *)
      let max_airspeed := max_struct_speed_kts in  (* L1294 *)
      let vel_c := max_airspeed in  (* L1295 *)
      (max_maneuver_factor, min_dive_vel, max_airspeed, vel_c)
    else
      let '(max_maneuver_factor, min_dive_vel, max_airspeed, vel_c) :=  (* L1297 *)
        if ltb (3001 / 1000) CATD then
          let max_maneuver_factor := CATD in  (* L1298 *)
          let min_dive_vel := 12 / 10 * max_struct_speed_kts in  (* L1299 *)
          let max_airspeed := max_struct_speed_kts in  (* L1300 *)
          let vel_c := max_airspeed in  (* L1301 *)
          (max_maneuver_factor, min_dive_vel, max_airspeed, vel_c)
        else
          (0, 0, 0, 0) in
      (max_maneuver_factor, min_dive_vel, max_airspeed, vel_c) in
  let o_max_airspeed := max_airspeed in  (* L1303 *)
  let o_vel_c := vel_c in  (* L1304 *)
  let o_max_maneuver_factor := max_maneuver_factor in  (* L1305 *)
  let o_min_dive_vel := min_dive_vel in  (* L1306 *)
  [(v_max_airspeed, o_max_airspeed);
   (v_vel_c, o_vel_c);
   (v_max_maneuver_factor, o_max_maneuver_factor);
   (v_min_dive_vel, o_min_dive_vel)].

(** BWBLoadSpeeds.compute_partials, /repo/aviary/subsystems/mass/gasp_based/design_load.py L1308-1566 *)
Definition BWBLoadSpeedsTransport_partials (op : options) (e : env) : list (string * string * R) :=
  let max_struct_speed_mph := e Aircraft_Design_MAX_STRUCTURAL_SPEED in  (* L1309 *)
  let CATD := on op Aircraft_Design_PART25_STRUCTURAL_CATEGORY in  (* L1311 *)
  let smooth := ob op Aircraft_Design_SMOOTH_MASS_DISCONTINUITIES in  (* L1312 *)
  let WGS_greater_than_20_flag := ob op Aircraft_Wing_LOADING_ABOVE_20 in  (* L1313 *)
  let max_struct_speed_kts := max_struct_speed_mph / (115 / 100) in  (* L1315 *)
  let dmax_struct_speed_kts_dmax_struct_speed_mph := 1 / (115 / 100) in  (* L1316 *)
  let dmax_struct_speed_kts_dgross_mass := 0 in  (* L1317 *)
  let dmax_struct_speed_kts_dexp_wing_area := 0 in  (* L1318 *)
  let '(d_max_airspeed__Design_MAX_STRUCTURAL_SPEED, d_min_dive_vel__Design_MAX_STRUCTURAL_SPEED,
      d_vel_c__Design_MAX_STRUCTURAL_SPEED) :=  (* L1547 *)
    if eqb CATD 3 then
      let d_max_airspeed__Design_MAX_STRUCTURAL_SPEED := dmax_struct_speed_kts_dmax_struct_speed_mph in  (* L1548 *)
      let d_min_dive_vel__Design_MAX_STRUCTURAL_SPEED := 12 / 10 * dmax_struct_speed_kts_dmax_struct_speed_mph in  (* L1551 *)
      let d_vel_c__Design_MAX_STRUCTURAL_SPEED := 1 * dmax_struct_speed_kts_dmax_struct_speed_mph in  (* L1554 *)
      (d_max_airspeed__Design_MAX_STRUCTURAL_SPEED, d_min_dive_vel__Design_MAX_STRUCTURAL_SPEED,
          d_vel_c__Design_MAX_STRUCTURAL_SPEED)
    else
      let '(d_max_airspeed__Design_MAX_STRUCTURAL_SPEED, d_min_dive_vel__Design_MAX_STRUCTURAL_SPEED,
          d_vel_c__Design_MAX_STRUCTURAL_SPEED) :=  (* L1557 *)
        if ltb (3001 / 1000) CATD then
          let d_max_airspeed__Design_MAX_STRUCTURAL_SPEED := 1 * dmax_struct_speed_kts_dmax_struct_speed_mph in  (* L1558 *)
          let d_min_dive_vel__Design_MAX_STRUCTURAL_SPEED := 12 / 10 * dmax_struct_speed_kts_dmax_struct_speed_mph in  (* L1561 *)
          let d_vel_c__Design_MAX_STRUCTURAL_SPEED := 1 * dmax_struct_speed_kts_dmax_struct_speed_mph in  (* L1564 *)
          (d_max_airspeed__Design_MAX_STRUCTURAL_SPEED, d_min_dive_vel__Design_MAX_STRUCTURAL_SPEED,
              d_vel_c__Design_MAX_STRUCTURAL_SPEED)
        else
          (0, 0, 0) in
      (d_max_airspeed__Design_MAX_STRUCTURAL_SPEED, d_min_dive_vel__Design_MAX_STRUCTURAL_SPEED,
          d_vel_c__Design_MAX_STRUCTURAL_SPEED) in
  [(v_max_airspeed, Aircraft_Design_MAX_STRUCTURAL_SPEED, d_max_airspeed__Design_MAX_STRUCTURAL_SPEED);
   (v_min_dive_vel, Aircraft_Design_MAX_STRUCTURAL_SPEED, d_min_dive_vel__Design_MAX_STRUCTURAL_SPEED);
   (v_vel_c, Aircraft_Design_MAX_STRUCTURAL_SPEED, d_vel_c__Design_MAX_STRUCTURAL_SPEED)].

(** Inputs, outputs and declared partials: /repo/aviary/subsystems/mass/gasp_based/design_load.py L1185-1210 *)
Definition BWBLoadSpeedsTransport (op : options) : comp := {|
  c_ins := [Aircraft_Design_MAX_STRUCTURAL_SPEED];
  c_outs := [v_max_airspeed;
             v_vel_c;
             v_max_maneuver_factor;
             v_min_dive_vel];
  c_decl := [(v_max_airspeed, Aircraft_Design_MAX_STRUCTURAL_SPEED, 0);
             (v_vel_c, Aircraft_Design_MAX_STRUCTURAL_SPEED, 0);
             (v_max_maneuver_factor, Aircraft_Design_MAX_STRUCTURAL_SPEED, 0);
             (v_min_dive_vel, Aircraft_Design_MAX_STRUCTURAL_SPEED, 0)];
  c_run := BWBLoadSpeedsTransport_compute op; c_jac := BWBLoadSpeedsTransport_partials op |}.

(** BWBLoadFactors.compute, /repo/aviary/subsystems/mass/gasp_based/design_load.py L1607-1668 (one engine type or one node) *)
Definition BWBLoadFactorsSharp_compute (op : options) (e : env) : list (string * R) :=
  let ULF_from_maneuver := ob op Aircraft_Design_ULF_CALCULATED_FROM_MANEUVER in  (* L1609 *)
  let max_maneuver_factor := e v_max_maneuver_factor in  (* L1610 *)
  let ULF :=  (* L1612 *)
    if ULF_from_maneuver then
      let ULF := 15 / 10 * max_maneuver_factor in  (* L1613 *)
      ULF
    else
      let gross_mass := e Aircraft_Design_GROSS_MASS in  (* L1615 *)
      let exp_wing_area := e Aircraft_Wing_EXPOSED_AREA in  (* L1616 *)
      let wing_loading := gross_mass / exp_wing_area in  (* L1622 *)
      let density_ratio := e v_density_ratio in  (* L1624 *)
      let V9 := e v_V9 in  (* L1625 *)
      let min_dive_vel := e v_min_dive_vel in  (* L1626 *)
      let avg_chord := e Aircraft_Wing_AVERAGE_CHORD in  (* L1627 *)
      let Cl_alpha := e Aircraft_Design_LIFT_CURVE_SLOPE in  (* L1628 *)
      let smooth := ob op Aircraft_Design_SMOOTH_MASS_DISCONTINUITIES in  (* L1630 *)
      let rho_sea_level := on op Mission_SEA_LEVEL_DENSITY in  (* L1631 *)
      let mass_ratio := 2 * wing_loading / (density_ratio * rho_sea_level * avg_chord * Cl_alpha * (322 / 10)) in  (* L1633 *)
      let k_load_factor := 88 / 100 * mass_ratio / (53 / 10 + mass_ratio) in  (* L1636 *)
      let cruise_load_factor := 1 + k_load_factor * 50 * V9 * Cl_alpha / (498 * wing_loading) in  (* L1637 *)
      let dive_load_factor := 1 + k_load_factor * 25 * min_dive_vel * Cl_alpha / (498 * wing_loading) in  (* L1640 *)
      let gust_load_factor :=  (* L1650 *)
        if ltb dive_load_factor cruise_load_factor then
          let gust_load_factor := cruise_load_factor in  (* L1651 *)
          gust_load_factor
        else
          let gust_load_factor := dive_load_factor in  (* L1653 *)
          gust_load_factor in
      let ULF :=  (* L1663 *)
        if ltb max_maneuver_factor gust_load_factor then
          let ULF := 15 / 10 * gust_load_factor in  (* L1664 *)
          ULF
        else
          let ULF := 15 / 10 * max_maneuver_factor in  (* L1666 *)
          ULF in
      ULF in
  let o_Wing_ULTIMATE_LOAD_FACTOR := ULF in  (* L1668 *)
  [(Aircraft_Wing_ULTIMATE_LOAD_FACTOR, o_Wing_ULTIMATE_LOAD_FACTOR)].

(** BWBLoadFactors.compute_partials, /repo/aviary/subsystems/mass/gasp_based/design_load.py L1670-2180 *)
Definition BWBLoadFactorsSharp_partials (op : options) (e : env) : list (string * string * R) :=
  let ULF_from_maneuver := ob op Aircraft_Design_ULF_CALCULATED_FROM_MANEUVER in  (* L1671 *)
  let '(dULF_dmax_maneuver_factor, dULF_dgross_mass, dULF_dexp_wing_areas, dULF_ddensity_ratio, dULF_davg_chord,
      dULF_dCl_alpha, dULF_dV9, dULF_dmin_dive_vel) :=  (* L1673 *)
    if ULF_from_maneuver then
      let dULF_dmax_maneuver_factor := 15 / 10 in  (* L1675 *)
      let dULF_dgross_mass := 0 in  (* L1676 *)
      let dULF_dexp_wing_areas := 0 in  (* L1677 *)
      let dULF_ddensity_ratio := 0 in  (* L1678 *)
      let dULF_davg_chord := 0 in  (* L1679 *)
      let dULF_dCl_alpha := 0 in  (* L1680 *)
      let dULF_dV9 := 0 in  (* L1681 *)
      let dULF_dmin_dive_vel := 0 in  (* L1682 *)
      (dULF_dmax_maneuver_factor, dULF_dgross_mass, dULF_dexp_wing_areas, dULF_ddensity_ratio, dULF_davg_chord,
          dULF_dCl_alpha, dULF_dV9, dULF_dmin_dive_vel)
    else
      let gross_mass := e Aircraft_Design_GROSS_MASS in  (* L1684 *)
      let exp_wing_area := e Aircraft_Wing_EXPOSED_AREA in  (* L1685 *)
      let wing_loading := gross_mass / exp_wing_area in  (* L1686 *)
      let dwing_loading_dgross_mass := 1 / exp_wing_area in  (* L1687 *)
      let dwing_loading_dexp_wing_area := - gross_mass / exp_wing_area ^ 2 in  (* L1688 *)
      let density_ratio := e v_density_ratio in  (* L1690 *)
      let V9 := e v_V9 in  (* L1691 *)
      let min_dive_vel := e v_min_dive_vel in  (* L1692 *)
      let max_maneuver_factor := e v_max_maneuver_factor in  (* L1693 *)
      let avg_chord := e Aircraft_Wing_AVERAGE_CHORD in  (* L1694 *)
      let Cl_alpha := e Aircraft_Design_LIFT_CURVE_SLOPE in  (* L1695 *)
      let smooth := ob op Aircraft_Design_SMOOTH_MASS_DISCONTINUITIES in  (* L1697 *)
      let rho_sea_level := on op Mission_SEA_LEVEL_DENSITY in  (* L1698 *)
      let mass_ratio := 2 * wing_loading / (density_ratio * rho_sea_level * avg_chord * Cl_alpha * (322 / 10)) in  (* L1700 *)
      let k_load_factor := 88 / 100 * mass_ratio / (53 / 10 + mass_ratio) in  (* L1703 *)
      let cruise_load_factor := 1 + k_load_factor * 50 * V9 * Cl_alpha / (498 * wing_loading) in  (* L1704 *)
      let dive_load_factor := 1 + k_load_factor * 25 * min_dive_vel * Cl_alpha / (498 * wing_loading) in  (* L1707 *)
      let dmass_ratio_dgross_mass := 2 * dwing_loading_dgross_mass / (density_ratio * rho_sea_level * avg_chord *
          Cl_alpha * (322 / 10)) in  (* L1711 *)
      let dmass_ratio_dexp_wing_area := 2 * dwing_loading_dexp_wing_area / (density_ratio * rho_sea_level * avg_chord
          * Cl_alpha * (322 / 10)) in  (* L1716 *)
      let dmass_ratio_ddensity_ratio := - 2 * wing_loading / (density_ratio ^ 2 * rho_sea_level * avg_chord * Cl_alpha
          * (322 / 10)) in  (* L1721 *)
      let dmass_ratio_davg_chord := - 2 * wing_loading / (density_ratio * rho_sea_level * avg_chord ^ 2 * Cl_alpha *
          (322 / 10)) in  (* L1726 *)
      let dmass_ratio_dCl_alpha := - 2 * wing_loading / (density_ratio * rho_sea_level * avg_chord * Cl_alpha ^ 2 *
          (322 / 10)) in  (* L1731 *)
      let dk_load_factor_dgross_mass := (* dquotient, L10-12 *) let u := 88 / 100 * mass_ratio in let v := 53 / 10 +
          mass_ratio in let du := 88 / 100 * dmass_ratio_dgross_mass in let dv := dmass_ratio_dgross_mass in (du * v -
          u * dv) / v ^ 2 in  (* L1737 *)
      let dk_load_factor_dexp_wing_areas := (* dquotient, L10-12 *) let u := 88 / 100 * mass_ratio in let v := 53 / 10
          + mass_ratio in let du := 88 / 100 * dmass_ratio_dexp_wing_area in let dv := dmass_ratio_dexp_wing_area in
          (du * v - u * dv) / v ^ 2 in  (* L1743 *)
      let dk_load_factor_ddensity_ratio := (* dquotient, L10-12 *) let u := 88 / 100 * mass_ratio in let v := 53 / 10
          + mass_ratio in let du := 88 / 100 * dmass_ratio_ddensity_ratio in let dv := dmass_ratio_ddensity_ratio in
          (du * v - u * dv) / v ^ 2 in  (* L1749 *)
      let dk_load_factor_davg_chord := (* dquotient, L10-12 *) let u := 88 / 100 * mass_ratio in let v := 53 / 10 +
          mass_ratio in let du := 88 / 100 * dmass_ratio_davg_chord in let dv := dmass_ratio_davg_chord in (du * v - u
          * dv) / v ^ 2 in  (* L1755 *)
      let dk_load_factor_dCl_alpha := (* dquotient, L10-12 *) let u := 88 / 100 * mass_ratio in let v := 53 / 10 +
          mass_ratio in let du := 88 / 100 * dmass_ratio_dCl_alpha in let dv := dmass_ratio_dCl_alpha in (du * v - u *
          dv) / v ^ 2 in  (* L1761 *)
      let dcruise_load_factor_dgross_mass := (* dquotient, L10-12 *) let u := k_load_factor * 50 * V9 * Cl_alpha in
          let v := 498 * wing_loading in let du := dk_load_factor_dgross_mass * 50 * V9 * Cl_alpha in let dv := 498 *
          dwing_loading_dgross_mass in (du * v - u * dv) / v ^ 2 in  (* L1768 *)
      let dcruise_load_factor_dexp_wing_areas := (* dquotient, L10-12 *) let u := k_load_factor * 50 * V9 * Cl_alpha
          in let v := 498 * wing_loading in let du := dk_load_factor_dexp_wing_areas * 50 * V9 * Cl_alpha in let dv :=
          498 * dwing_loading_dexp_wing_area in (du * v - u * dv) / v ^ 2 in  (* L1774 *)
      let dcruise_load_factor_ddensity_ratio := dk_load_factor_ddensity_ratio * 50 * V9 * Cl_alpha / (498 *
          wing_loading) in  (* L1780 *)
      let dcruise_load_factor_davg_chord := dk_load_factor_davg_chord * 50 * V9 * Cl_alpha / (498 * wing_loading) in  (* L1783 *)
      let dcruise_load_factor_dCl_alpha := (dk_load_factor_dCl_alpha * 50 * V9 * Cl_alpha + k_load_factor * 50 * V9) /
          (498 * wing_loading) in  (* L1786 *)
      let dcruise_load_factor_dV9 := k_load_factor * 50 * Cl_alpha / (498 * wing_loading) in  (* L1789 *)
      let dcruise_load_factor_dmin_dive_vel := 0 in  (* L1790 *)
      let ddive_load_factor_dgross_mass := (* dquotient, L10-12 *) let u := k_load_factor * 25 * min_dive_vel *
          Cl_alpha in let v := 498 * wing_loading in let du := dk_load_factor_dgross_mass * 25 * min_dive_vel *
          Cl_alpha in let dv := 498 * dwing_loading_dgross_mass in (du * v - u * dv) / v ^ 2 in  (* L1792 *)
      let ddive_load_factor_dexp_wing_areas := (* dquotient, L10-12 *) let u := k_load_factor * 25 * min_dive_vel *
          Cl_alpha in let v := 498 * wing_loading in let du := dk_load_factor_dexp_wing_areas * 25 * min_dive_vel *
          Cl_alpha in let dv := 498 * dwing_loading_dexp_wing_area in (du * v - u * dv) / v ^ 2 in  (* L1798 *)
      let ddive_load_factor_ddensity_ratio := dk_load_factor_ddensity_ratio * 25 * min_dive_vel * Cl_alpha / (498 *
          wing_loading) in  (* L1804 *)
      let ddive_load_factor_davg_chord := dk_load_factor_davg_chord * 25 * min_dive_vel * Cl_alpha / (498 *
          wing_loading) in  (* L1807 *)
      let ddive_load_factor_dCl_alpha := (dk_load_factor_dCl_alpha * 25 * min_dive_vel * Cl_alpha + k_load_factor * 50
          * min_dive_vel) / (498 * wing_loading) in  (* L1810 *)
      let ddive_load_factor_dmin_dive_vel := k_load_factor * 25 * Cl_alpha / (498 * wing_loading) in  (* L1814 *)
      let ddive_load_factor_dV9 := 0 in  (* L1817 *)
      let '(gust_load_factor, dgust_load_factor_dgross_mass, dgust_load_factor_dexp_wing_areas,
          dgust_load_factor_ddensity_ratio, dgust_load_factor_davg_chord, dgust_load_factor_dCl_alpha,
          dgust_load_factor_dV9, dgust_load_factor_dmin_dive_vel) :=  (* L1965 *)
        if ltb dive_load_factor cruise_load_factor then
          let gust_load_factor := cruise_load_factor in  (* L1966 *)
          let dgust_load_factor_dgross_mass := dcruise_load_factor_dgross_mass in  (* L1967 *)
          let dgust_load_factor_dexp_wing_areas := dcruise_load_factor_dexp_wing_areas in  (* L1968 *)
          let dgust_load_factor_ddensity_ratio := dcruise_load_factor_ddensity_ratio in  (* L1969 *)
          let dgust_load_factor_davg_chord := dcruise_load_factor_davg_chord in  (* L1970 *)
          let dgust_load_factor_dCl_alpha := dcruise_load_factor_dCl_alpha in  (* L1971 *)
          let dgust_load_factor_dV9 := dcruise_load_factor_dV9 in  (* L1972 *)
          let dgust_load_factor_dmin_dive_vel := 0 in  (* L1973 *)
          (gust_load_factor, dgust_load_factor_dgross_mass, dgust_load_factor_dexp_wing_areas,
              dgust_load_factor_ddensity_ratio, dgust_load_factor_davg_chord, dgust_load_factor_dCl_alpha,
              dgust_load_factor_dV9, dgust_load_factor_dmin_dive_vel)
        else
          let gust_load_factor := dive_load_factor in  (* L1975 *)
          let dgust_load_factor_dgross_mass := (* dquotient, L10-12 *) let u := k_load_factor * 25 * min_dive_vel *
              Cl_alpha in let v := 498 * wing_loading in let du := dk_load_factor_dgross_mass * 25 * min_dive_vel *
              Cl_alpha in let dv := 498 * dwing_loading_dgross_mass in (du * v - u * dv) / v ^ 2 in  (* L1976 *)
          let dgust_load_factor_dexp_wing_areas := (* dquotient, L10-12 *) let u := k_load_factor * 25 * min_dive_vel
              * Cl_alpha in let v := 498 * wing_loading in let du := dk_load_factor_dexp_wing_areas * 25 *
              min_dive_vel * Cl_alpha in let dv := 498 * dwing_loading_dexp_wing_area in (du * v - u * dv) / v ^ 2 in  (* L1982 *)
          let dgust_load_factor_ddensity_ratio := dk_load_factor_ddensity_ratio * 25 * min_dive_vel * Cl_alpha / (498
              * wing_loading) in  (* L1988 *)
          let dgust_load_factor_davg_chord := dk_load_factor_davg_chord * 25 * min_dive_vel * Cl_alpha / (498 *
              wing_loading) in  (* L1991 *)
          let dgust_load_factor_dCl_alpha := (dk_load_factor_dCl_alpha * 25 * min_dive_vel * Cl_alpha + k_load_factor
              * 25 * min_dive_vel) / (498 * wing_loading) in  (* L1994 *)
          let dgust_load_factor_dmin_dive_vel := k_load_factor * 25 * Cl_alpha / (498 * wing_loading) in  (* L1998 *)
          let dgust_load_factor_dV9 := 0 in  (* L2001 *)
          (gust_load_factor, dgust_load_factor_dgross_mass, dgust_load_factor_dexp_wing_areas,
              dgust_load_factor_ddensity_ratio, dgust_load_factor_davg_chord, dgust_load_factor_dCl_alpha,
              dgust_load_factor_dV9, dgust_load_factor_dmin_dive_vel) in
      let '(dULF_dmax_maneuver_factor, dULF_dgross_mass, dULF_dexp_wing_areas, dULF_ddensity_ratio, dULF_davg_chord,
          dULF_dCl_alpha, dULF_dV9, dULF_dmin_dive_vel) :=  (* L2146 *)
        if ltb max_maneuver_factor gust_load_factor then
          let dULF_dmax_maneuver_factor := 0 in  (* L2148 *)
          let dULF_dgross_mass := 15 / 10 * dgust_load_factor_dgross_mass in  (* L2149 *)
          let dULF_dexp_wing_areas := 15 / 10 * dgust_load_factor_dexp_wing_areas in  (* L2150 *)
          let dULF_ddensity_ratio := 15 / 10 * dgust_load_factor_ddensity_ratio in  (* L2151 *)
          let dULF_davg_chord := 15 / 10 * dgust_load_factor_davg_chord in  (* L2152 *)
          let dULF_dCl_alpha := 15 / 10 * dgust_load_factor_dCl_alpha in  (* L2153 *)
          let dULF_dV9 := 15 / 10 * dgust_load_factor_dV9 in  (* L2154 *)
          let dULF_dmin_dive_vel := 15 / 10 * dgust_load_factor_dmin_dive_vel in  (* L2155 *)
          (dULF_dmax_maneuver_factor, dULF_dgross_mass, dULF_dexp_wing_areas, dULF_ddensity_ratio, dULF_davg_chord,
              dULF_dCl_alpha, dULF_dV9, dULF_dmin_dive_vel)
        else
          let dULF_dmax_maneuver_factor := 15 / 10 in  (* L2158 *)
          let dULF_dgross_mass := 0 in  (* L2159 *)
          let dULF_dexp_wing_areas := 0 in  (* L2160 *)
          let dULF_ddensity_ratio := 0 in  (* L2161 *)
          let dULF_davg_chord := 0 in  (* L2162 *)
          let dULF_dCl_alpha := 0 in  (* L2163 *)
          let dULF_dV9 := 0 in  (* L2164 *)
          let dULF_dmin_dive_vel := 0 in  (* L2165 *)
          (dULF_dmax_maneuver_factor, dULF_dgross_mass, dULF_dexp_wing_areas, dULF_ddensity_ratio, dULF_davg_chord,
              dULF_dCl_alpha, dULF_dV9, dULF_dmin_dive_vel) in
      (dULF_dmax_maneuver_factor, dULF_dgross_mass, dULF_dexp_wing_areas, dULF_ddensity_ratio, dULF_davg_chord,
          dULF_dCl_alpha, dULF_dV9, dULF_dmin_dive_vel) in
  let d_Wing_ULTIMATE_LOAD_FACTOR__max_maneuver_factor := dULF_dmax_maneuver_factor in  (* L2167 *)
  let d_Wing_ULTIMATE_LOAD_FACTOR__Design_GROSS_MASS := dULF_dgross_mass in  (* L2170 *)
  let d_Wing_ULTIMATE_LOAD_FACTOR__Wing_EXPOSED_AREA := dULF_dexp_wing_areas in  (* L2171 *)
  let d_Wing_ULTIMATE_LOAD_FACTOR__density_ratio := dULF_ddensity_ratio in  (* L2174 *)
  let d_Wing_ULTIMATE_LOAD_FACTOR__Wing_AVERAGE_CHORD := dULF_davg_chord in  (* L2175 *)
  let d_Wing_ULTIMATE_LOAD_FACTOR__Design_LIFT_CURVE_SLOPE := dULF_dCl_alpha in  (* L2176 *)
  let d_Wing_ULTIMATE_LOAD_FACTOR__V9 := dULF_dV9 in  (* L2179 *)
  let d_Wing_ULTIMATE_LOAD_FACTOR__min_dive_vel := dULF_dmin_dive_vel in  (* L2180 *)
  [(Aircraft_Wing_ULTIMATE_LOAD_FACTOR, v_max_maneuver_factor, d_Wing_ULTIMATE_LOAD_FACTOR__max_maneuver_factor);
   (Aircraft_Wing_ULTIMATE_LOAD_FACTOR, Aircraft_Design_GROSS_MASS, d_Wing_ULTIMATE_LOAD_FACTOR__Design_GROSS_MASS);
   (Aircraft_Wing_ULTIMATE_LOAD_FACTOR, Aircraft_Wing_EXPOSED_AREA, d_Wing_ULTIMATE_LOAD_FACTOR__Wing_EXPOSED_AREA);
   (Aircraft_Wing_ULTIMATE_LOAD_FACTOR, v_density_ratio, d_Wing_ULTIMATE_LOAD_FACTOR__density_ratio);
   (Aircraft_Wing_ULTIMATE_LOAD_FACTOR, Aircraft_Wing_AVERAGE_CHORD, d_Wing_ULTIMATE_LOAD_FACTOR__Wing_AVERAGE_CHORD);
   (Aircraft_Wing_ULTIMATE_LOAD_FACTOR, Aircraft_Design_LIFT_CURVE_SLOPE,
       d_Wing_ULTIMATE_LOAD_FACTOR__Design_LIFT_CURVE_SLOPE);
   (Aircraft_Wing_ULTIMATE_LOAD_FACTOR, v_V9, d_Wing_ULTIMATE_LOAD_FACTOR__V9);
   (Aircraft_Wing_ULTIMATE_LOAD_FACTOR, v_min_dive_vel, d_Wing_ULTIMATE_LOAD_FACTOR__min_dive_vel)].

(** Inputs, outputs and declared partials: /repo/aviary/subsystems/mass/gasp_based/design_load.py L1580-1605 *)
Definition BWBLoadFactorsSharp (op : options) : comp := {|
  c_ins := [Aircraft_Design_GROSS_MASS;
            Aircraft_Wing_EXPOSED_AREA;
            v_density_ratio;
            v_V9;
            v_min_dive_vel;
            v_max_maneuver_factor;
            Aircraft_Wing_AVERAGE_CHORD;
            Aircraft_Design_LIFT_CURVE_SLOPE];
  c_outs := [Aircraft_Wing_ULTIMATE_LOAD_FACTOR];
  c_decl := [(Aircraft_Wing_ULTIMATE_LOAD_FACTOR, Aircraft_Design_GROSS_MASS, 0);
             (Aircraft_Wing_ULTIMATE_LOAD_FACTOR, Aircraft_Wing_EXPOSED_AREA, 0);
             (Aircraft_Wing_ULTIMATE_LOAD_FACTOR, v_density_ratio, 0);
             (Aircraft_Wing_ULTIMATE_LOAD_FACTOR, v_V9, 0);
             (Aircraft_Wing_ULTIMATE_LOAD_FACTOR, v_min_dive_vel, 0);
             (Aircraft_Wing_ULTIMATE_LOAD_FACTOR, v_max_maneuver_factor, 0);
             (Aircraft_Wing_ULTIMATE_LOAD_FACTOR, Aircraft_Wing_AVERAGE_CHORD, 0);
             (Aircraft_Wing_ULTIMATE_LOAD_FACTOR, Aircraft_Design_LIFT_CURVE_SLOPE, 0)];
  c_run := BWBLoadFactorsSharp_compute op; c_jac := BWBLoadFactorsSharp_partials op |}.

(** BWBLoadFactors.compute, /repo/aviary/subsystems/mass/gasp_based/design_load.py L1607-1668 (one engine type or one node) *)
Definition BWBLoadFactorsSmooth_compute (op : options) (e : env) : list (string * R) :=
  let ULF_from_maneuver := ob op Aircraft_Design_ULF_CALCULATED_FROM_MANEUVER in  (* L1609 *)
  let max_maneuver_factor := e v_max_maneuver_factor in  (* L1610 *)
  let ULF :=  (* L1612 *)
    if ULF_from_maneuver then
      let ULF := 15 / 10 * max_maneuver_factor in  (* L1613 *)
      ULF
    else
      let gross_mass := e Aircraft_Design_GROSS_MASS in  (* L1615 *)
      let exp_wing_area := e Aircraft_Wing_EXPOSED_AREA in  (* L1616 *)
      let wing_loading := gross_mass / exp_wing_area in  (* L1622 *)
      let density_ratio := e v_density_ratio in  (* L1624 *)
      let V9 := e v_V9 in  (* L1625 *)
      let min_dive_vel := e v_min_dive_vel in  (* L1626 *)
      let avg_chord := e Aircraft_Wing_AVERAGE_CHORD in  (* L1627 *)
      let Cl_alpha := e Aircraft_Design_LIFT_CURVE_SLOPE in  (* L1628 *)
      let smooth := ob op Aircraft_Design_SMOOTH_MASS_DISCONTINUITIES in  (* L1630 *)
      let rho_sea_level := on op Mission_SEA_LEVEL_DENSITY in  (* L1631 *)
      let mass_ratio := 2 * wing_loading / (density_ratio * rho_sea_level * avg_chord * Cl_alpha * (322 / 10)) in  (* L1633 *)
      let k_load_factor := 88 / 100 * mass_ratio / (53 / 10 + mass_ratio) in  (* L1636 *)
      let cruise_load_factor := 1 + k_load_factor * 50 * V9 * Cl_alpha / (498 * wing_loading) in  (* L1637 *)
      let dive_load_factor := 1 + k_load_factor * 25 * min_dive_vel * Cl_alpha / (498 * wing_loading) in  (* L1640 *)
      let gust_load_factor := dive_load_factor * sigmoidX1 (cruise_load_factor / dive_load_factor) 1 (- 1 / 100) +
          cruise_load_factor * sigmoidX1 (cruise_load_factor / dive_load_factor) 1 (1 / 100) in  (* L1646 *)
      let ULF := 15 / 10 * (gust_load_factor * sigmoidX1 (max_maneuver_factor / gust_load_factor) 1 (- 1 / 100) +
          max_maneuver_factor * sigmoidX1 (max_maneuver_factor / gust_load_factor) 1 (1 / 100)) in  (* L1657 *)
      ULF in
  let o_Wing_ULTIMATE_LOAD_FACTOR := ULF in  (* L1668 *)
  [(Aircraft_Wing_ULTIMATE_LOAD_FACTOR, o_Wing_ULTIMATE_LOAD_FACTOR)].

(** BWBLoadFactors.compute_partials, /repo/aviary/subsystems/mass/gasp_based/design_load.py L1670-2180 *)
Definition BWBLoadFactorsSmooth_partials (op : options) (e : env) : list (string * string * R) :=
  let ULF_from_maneuver := ob op Aircraft_Design_ULF_CALCULATED_FROM_MANEUVER in  (* L1671 *)
  let '(dULF_dmax_maneuver_factor, dULF_dgross_mass, dULF_dexp_wing_areas, dULF_ddensity_ratio, dULF_davg_chord,
      dULF_dCl_alpha, dULF_dV9, dULF_dmin_dive_vel) :=  (* L1673 *)
    if ULF_from_maneuver then
      let dULF_dmax_maneuver_factor := 15 / 10 in  (* L1675 *)
      let dULF_dgross_mass := 0 in  (* L1676 *)
      let dULF_dexp_wing_areas := 0 in  (* L1677 *)
      let dULF_ddensity_ratio := 0 in  (* L1678 *)
      let dULF_davg_chord := 0 in  (* L1679 *)
      let dULF_dCl_alpha := 0 in  (* L1680 *)
      let dULF_dV9 := 0 in  (* L1681 *)
      let dULF_dmin_dive_vel := 0 in  (* L1682 *)
      (dULF_dmax_maneuver_factor, dULF_dgross_mass, dULF_dexp_wing_areas, dULF_ddensity_ratio, dULF_davg_chord,
          dULF_dCl_alpha, dULF_dV9, dULF_dmin_dive_vel)
    else
      let gross_mass := e Aircraft_Design_GROSS_MASS in  (* L1684 *)
      let exp_wing_area := e Aircraft_Wing_EXPOSED_AREA in  (* L1685 *)
      let wing_loading := gross_mass / exp_wing_area in  (* L1686 *)
      let dwing_loading_dgross_mass := 1 / exp_wing_area in  (* L1687 *)
      let dwing_loading_dexp_wing_area := - gross_mass / exp_wing_area ^ 2 in  (* L1688 *)
      let density_ratio := e v_density_ratio in  (* L1690 *)
      let V9 := e v_V9 in  (* L1691 *)
      let min_dive_vel := e v_min_dive_vel in  (* L1692 *)
      let max_maneuver_factor := e v_max_maneuver_factor in  (* L1693 *)
      let avg_chord := e Aircraft_Wing_AVERAGE_CHORD in  (* L1694 *)
      let Cl_alpha := e Aircraft_Design_LIFT_CURVE_SLOPE in  (* L1695 *)
      let smooth := ob op Aircraft_Design_SMOOTH_MASS_DISCONTINUITIES in  (* L1697 *)
      let rho_sea_level := on op Mission_SEA_LEVEL_DENSITY in  (* L1698 *)
      let mass_ratio := 2 * wing_loading / (density_ratio * rho_sea_level * avg_chord * Cl_alpha * (322 / 10)) in  (* L1700 *)
      let k_load_factor := 88 / 100 * mass_ratio / (53 / 10 + mass_ratio) in  (* L1703 *)
      let cruise_load_factor := 1 + k_load_factor * 50 * V9 * Cl_alpha / (498 * wing_loading) in  (* L1704 *)
      let dive_load_factor := 1 + k_load_factor * 25 * min_dive_vel * Cl_alpha / (498 * wing_loading) in  (* L1707 *)
      let dmass_ratio_dgross_mass := 2 * dwing_loading_dgross_mass / (density_ratio * rho_sea_level * avg_chord *
          Cl_alpha * (322 / 10)) in  (* L1711 *)
      let dmass_ratio_dexp_wing_area := 2 * dwing_loading_dexp_wing_area / (density_ratio * rho_sea_level * avg_chord
          * Cl_alpha * (322 / 10)) in  (* L1716 *)
      let dmass_ratio_ddensity_ratio := - 2 * wing_loading / (density_ratio ^ 2 * rho_sea_level * avg_chord * Cl_alpha
          * (322 / 10)) in  (* L1721 *)
      let dmass_ratio_davg_chord := - 2 * wing_loading / (density_ratio * rho_sea_level * avg_chord ^ 2 * Cl_alpha *
          (322 / 10)) in  (* L1726 *)
      let dmass_ratio_dCl_alpha := - 2 * wing_loading / (density_ratio * rho_sea_level * avg_chord * Cl_alpha ^ 2 *
          (322 / 10)) in  (* L1731 *)
      let dk_load_factor_dgross_mass := (* dquotient, L10-12 *) let u := 88 / 100 * mass_ratio in let v := 53 / 10 +
          mass_ratio in let du := 88 / 100 * dmass_ratio_dgross_mass in let dv := dmass_ratio_dgross_mass in (du * v -
          u * dv) / v ^ 2 in  (* L1737 *)
      let dk_load_factor_dexp_wing_areas := (* dquotient, L10-12 *) let u := 88 / 100 * mass_ratio in let v := 53 / 10
          + mass_ratio in let du := 88 / 100 * dmass_ratio_dexp_wing_area in let dv := dmass_ratio_dexp_wing_area in
          (du * v - u * dv) / v ^ 2 in  (* L1743 *)
      let dk_load_factor_ddensity_ratio := (* dquotient, L10-12 *) let u := 88 / 100 * mass_ratio in let v := 53 / 10
          + mass_ratio in let du := 88 / 100 * dmass_ratio_ddensity_ratio in let dv := dmass_ratio_ddensity_ratio in
          (du * v - u * dv) / v ^ 2 in  (* L1749 *)
      let dk_load_factor_davg_chord := (* dquotient, L10-12 *) let u := 88 / 100 * mass_ratio in let v := 53 / 10 +
          mass_ratio in let du := 88 / 100 * dmass_ratio_davg_chord in let dv := dmass_ratio_davg_chord in (du * v - u
          * dv) / v ^ 2 in  (* L1755 *)
      let dk_load_factor_dCl_alpha := (* dquotient, L10-12 *) let u := 88 / 100 * mass_ratio in let v := 53 / 10 +
          mass_ratio in let du := 88 / 100 * dmass_ratio_dCl_alpha in let dv := dmass_ratio_dCl_alpha in (du * v - u *
          dv) / v ^ 2 in  (* L1761 *)
      let dcruise_load_factor_dgross_mass := (* dquotient, L10-12 *) let u := k_load_factor * 50 * V9 * Cl_alpha in
          let v := 498 * wing_loading in let du := dk_load_factor_dgross_mass * 50 * V9 * Cl_alpha in let dv := 498 *
          dwing_loading_dgross_mass in (du * v - u * dv) / v ^ 2 in  (* L1768 *)
      let dcruise_load_factor_dexp_wing_areas := (* dquotient, L10-12 *) let u := k_load_factor * 50 * V9 * Cl_alpha
          in let v := 498 * wing_loading in let du := dk_load_factor_dexp_wing_areas * 50 * V9 * Cl_alpha in let dv :=
          498 * dwing_loading_dexp_wing_area in (du * v - u * dv) / v ^ 2 in  (* L1774 *)
      let dcruise_load_factor_ddensity_ratio := dk_load_factor_ddensity_ratio * 50 * V9 * Cl_alpha / (498 *
          wing_loading) in  (* L1780 *)
      let dcruise_load_factor_davg_chord := dk_load_factor_davg_chord * 50 * V9 * Cl_alpha / (498 * wing_loading) in  (* L1783 *)
      let dcruise_load_factor_dCl_alpha := (dk_load_factor_dCl_alpha * 50 * V9 * Cl_alpha + k_load_factor * 50 * V9) /
          (498 * wing_loading) in  (* L1786 *)
      let dcruise_load_factor_dV9 := k_load_factor * 50 * Cl_alpha / (498 * wing_loading) in  (* L1789 *)
      let dcruise_load_factor_dmin_dive_vel := 0 in  (* L1790 *)
      let ddive_load_factor_dgross_mass := (* dquotient, L10-12 *) let u := k_load_factor * 25 * min_dive_vel *
          Cl_alpha in let v := 498 * wing_loading in let du := dk_load_factor_dgross_mass * 25 * min_dive_vel *
          Cl_alpha in let dv := 498 * dwing_loading_dgross_mass in (du * v - u * dv) / v ^ 2 in  (* L1792 *)
      let ddive_load_factor_dexp_wing_areas := (* dquotient, L10-12 *) let u := k_load_factor * 25 * min_dive_vel *
          Cl_alpha in let v := 498 * wing_loading in let du := dk_load_factor_dexp_wing_areas * 25 * min_dive_vel *
          Cl_alpha in let dv := 498 * dwing_loading_dexp_wing_area in (du * v - u * dv) / v ^ 2 in  (* L1798 *)
      let ddive_load_factor_ddensity_ratio := dk_load_factor_ddensity_ratio * 25 * min_dive_vel * Cl_alpha / (498 *
          wing_loading) in  (* L1804 *)
      let ddive_load_factor_davg_chord := dk_load_factor_davg_chord * 25 * min_dive_vel * Cl_alpha / (498 *
          wing_loading) in  (* L1807 *)
      let ddive_load_factor_dCl_alpha := (dk_load_factor_dCl_alpha * 25 * min_dive_vel * Cl_alpha + k_load_factor * 50
          * min_dive_vel) / (498 * wing_loading) in  (* L1810 *)
      let ddive_load_factor_dmin_dive_vel := k_load_factor * 25 * Cl_alpha / (498 * wing_loading) in  (* L1814 *)
      let ddive_load_factor_dV9 := 0 in  (* L1817 *)
      let SigG := sigmoidX1 (cruise_load_factor / dive_load_factor) 1 (- 1 / 100) in  (* L1821 *)
      let SigH := sigmoidX1 (cruise_load_factor / dive_load_factor) 1 (1 / 100) in  (* L1822 *)
      let DSigG := dSigmoidX1 (cruise_load_factor / dive_load_factor) 1 (- 1 / 100) in  (* L1823 *)
      let DSigH := dSigmoidX1 (cruise_load_factor / dive_load_factor) 1 (1 / 100) in  (* L1824 *)
      let gust_load_factor := dive_load_factor * SigG + cruise_load_factor * SigH in  (* L1825 *)
      let dgust_load_factor_dgross_mass := ddive_load_factor_dgross_mass * SigG + dive_load_factor * DSigG * ((*
          dquotient, L10-12 *) let u := dive_load_factor - cruise_load_factor in let v := dive_load_factor in let du
          := ddive_load_factor_dgross_mass - dcruise_load_factor_dgross_mass in let dv :=
          ddive_load_factor_dgross_mass in (du * v - u * dv) / v ^ 2) + dcruise_load_factor_dgross_mass * SigH +
          cruise_load_factor * DSigG * ((* dquotient, L10-12 *) let u := cruise_load_factor - dive_load_factor in let
          v := dive_load_factor in let du := dcruise_load_factor_dgross_mass - ddive_load_factor_dgross_mass in let dv
          := ddive_load_factor_dgross_mass in (du * v - u * dv) / v ^ 2) in  (* L1826 *)
      let dgust_load_factor_dexp_wing_areas := ddive_load_factor_dexp_wing_areas * SigG + dive_load_factor * DSigG *
          ((* dquotient, L10-12 *) let u := dive_load_factor - cruise_load_factor in let v := dive_load_factor in let
          du := ddive_load_factor_dexp_wing_areas - dcruise_load_factor_dexp_wing_areas in let dv :=
          ddive_load_factor_dexp_wing_areas in (du * v - u * dv) / v ^ 2) + dcruise_load_factor_dexp_wing_areas * SigH
          + cruise_load_factor * DSigG * ((* dquotient, L10-12 *) let u := cruise_load_factor - dive_load_factor in
          let v := dive_load_factor in let du := dcruise_load_factor_dexp_wing_areas -
          ddive_load_factor_dexp_wing_areas in let dv := ddive_load_factor_dexp_wing_areas in (du * v - u * dv) / v ^
          2) in  (* L1846 *)
      let dgust_load_factor_ddensity_ratio := ddive_load_factor_ddensity_ratio * SigG + dive_load_factor * DSigG * ((*
          dquotient, L10-12 *) let u := dive_load_factor - cruise_load_factor in let v := dive_load_factor in let du
          := ddive_load_factor_ddensity_ratio - dcruise_load_factor_ddensity_ratio in let dv :=
          ddive_load_factor_ddensity_ratio in (du * v - u * dv) / v ^ 2) + dcruise_load_factor_ddensity_ratio * SigH +
          cruise_load_factor * DSigH * ((* dquotient, L10-12 *) let u := cruise_load_factor - dive_load_factor in let
          v := dive_load_factor in let du := dcruise_load_factor_ddensity_ratio - ddive_load_factor_ddensity_ratio in
          let dv := ddive_load_factor_ddensity_ratio in (du * v - u * dv) / v ^ 2) in  (* L1866 *)
      let dgust_load_factor_davg_chord := ddive_load_factor_davg_chord * SigG + dive_load_factor * DSigH * ((*
          dquotient, L10-12 *) let u := dive_load_factor - cruise_load_factor in let v := dive_load_factor in let du
          := ddive_load_factor_davg_chord - dcruise_load_factor_davg_chord in let dv := ddive_load_factor_davg_chord
          in (du * v - u * dv) / v ^ 2) + dcruise_load_factor_davg_chord * SigH + cruise_load_factor * DSigH * ((*
          dquotient, L10-12 *) let u := cruise_load_factor - dive_load_factor in let v := dive_load_factor in let du
          := dcruise_load_factor_davg_chord - ddive_load_factor_davg_chord in let dv := ddive_load_factor_davg_chord
          in (du * v - u * dv) / v ^ 2) in  (* L1886 *)
      let dgust_load_factor_dCl_alpha := ddive_load_factor_dCl_alpha * SigG + dive_load_factor * DSigH * ((*
          dquotient, L10-12 *) let u := dive_load_factor - cruise_load_factor in let v := dive_load_factor in let du
          := ddive_load_factor_dCl_alpha - dcruise_load_factor_dCl_alpha in let dv := ddive_load_factor_dCl_alpha in
          (du * v - u * dv) / v ^ 2) + dcruise_load_factor_dCl_alpha * SigH + cruise_load_factor * DSigH * ((*
          dquotient, L10-12 *) let u := cruise_load_factor - dive_load_factor in let v := dive_load_factor in let du
          := dcruise_load_factor_dCl_alpha - ddive_load_factor_dCl_alpha in let dv := ddive_load_factor_dCl_alpha in
          (du * v - u * dv) / v ^ 2) in  (* L1906 *)
      let dgust_load_factor_dV9 := dive_load_factor * DSigH * ((* dquotient, L10-12 *) let u := dive_load_factor -
          cruise_load_factor in let v := dive_load_factor in let du := ddive_load_factor_dV9 - dcruise_load_factor_dV9
          in let dv := ddive_load_factor_dV9 in (du * v - u * dv) / v ^ 2) + dcruise_load_factor_dV9 * SigH +
          cruise_load_factor * DSigH * ((* dquotient, L10-12 *) let u := cruise_load_factor - dive_load_factor in let
          v := dive_load_factor in let du := dcruise_load_factor_dV9 - ddive_load_factor_dV9 in let dv :=
          ddive_load_factor_dV9 in (du * v - u * dv) / v ^ 2) in  (* L1926 *)
      let dgust_loading_dmin_dive_vel := ddive_load_factor_dmin_dive_vel * SigG + dive_load_factor * DSigH * ((*
          dquotient, L10-12 *) let u := dive_load_factor - cruise_load_factor in let v := dive_load_factor in let du
          := ddive_load_factor_dmin_dive_vel in let dv := ddive_load_factor_dmin_dive_vel in (du * v - u * dv) / v ^
          2) + cruise_load_factor * DSigH * ((* dquotient, L10-12 *) let u := cruise_load_factor - dive_load_factor in
          let v := dive_load_factor in let du := - ddive_load_factor_dmin_dive_vel in let dv :=
          ddive_load_factor_dmin_dive_vel in (du * v - u * dv) / v ^ 2) in  (* L1945 *)
      let SigK := sigmoidX1 (max_maneuver_factor / gust_load_factor) 1 (- 1 / 100) in  (* L2005 *)
      let SigL := sigmoidX1 (max_maneuver_factor / gust_load_factor) 1 (1 / 100) in  (* L2006 *)
      let DSigL := dSigmoidX1 (max_maneuver_factor / gust_load_factor) 1 (1 / 100) in  (* L2007 *)
      let dULF_dmax_maneuver_factor := 15 / 10 * (gust_load_factor * DSigL * ((* dquotient, L10-12 *) let u :=
          gust_load_factor - max_maneuver_factor in let v := gust_load_factor in let du := - 1 in let dv := 0 in (du *
          v - u * dv) / v ^ 2) + SigL + max_maneuver_factor * DSigL * ((* dquotient, L10-12 *) let u :=
          max_maneuver_factor - gust_load_factor in let v := gust_load_factor in let du := 1 in let dv := 0 in (du * v
          - u * dv) / v ^ 2)) in  (* L2014 *)
      let dULF_dgross_mass := 15 / 10 * (dgust_load_factor_dgross_mass * SigK + gust_load_factor * DSigL * ((*
          dquotient, L10-12 *) let u := gust_load_factor - max_maneuver_factor in let v := gust_load_factor in let du
          := dgust_load_factor_dgross_mass in let dv := dgust_load_factor_dgross_mass in (du * v - u * dv) / v ^ 2) +
          max_maneuver_factor * DSigL * ((* dquotient, L10-12 *) let u := max_maneuver_factor - gust_load_factor in
          let v := gust_load_factor in let du := - dgust_load_factor_dgross_mass in let dv :=
          dgust_load_factor_dgross_mass in (du * v - u * dv) / v ^ 2)) in  (* L2030 *)
      let dULF_dexp_wing_areas := 15 / 10 * (dgust_load_factor_dexp_wing_areas * SigK + gust_load_factor * DSigL * ((*
          dquotient, L10-12 *) let u := gust_load_factor - max_maneuver_factor in let v := gust_load_factor in let du
          := dgust_load_factor_dexp_wing_areas in let dv := dgust_load_factor_dexp_wing_areas in (du * v - u * dv) / v
          ^ 2) + max_maneuver_factor * DSigL * ((* dquotient, L10-12 *) let u := max_maneuver_factor -
          gust_load_factor in let v := gust_load_factor in let du := - dgust_load_factor_dexp_wing_areas in let dv :=
          dgust_load_factor_dexp_wing_areas in (du * v - u * dv) / v ^ 2)) in  (* L2049 *)
      let dULF_ddensity_ratio := 15 / 10 * (dgust_load_factor_ddensity_ratio * SigK + gust_load_factor * DSigL * ((*
          dquotient, L10-12 *) let u := gust_load_factor - max_maneuver_factor in let v := gust_load_factor in let du
          := dgust_load_factor_ddensity_ratio in let dv := dgust_load_factor_ddensity_ratio in (du * v - u * dv) / v ^
          2) + max_maneuver_factor * DSigL * ((* dquotient, L10-12 *) let u := max_maneuver_factor - gust_load_factor
          in let v := gust_load_factor in let du := - dgust_load_factor_ddensity_ratio in let dv :=
          dgust_load_factor_ddensity_ratio in (du * v - u * dv) / v ^ 2)) in  (* L2068 *)
      let dULF_davg_chord := 15 / 10 * (dgust_load_factor_davg_chord * SigK + gust_load_factor * DSigL * ((*
          dquotient, L10-12 *) let u := gust_load_factor - max_maneuver_factor in let v := gust_load_factor in let du
          := dgust_load_factor_davg_chord in let dv := dgust_load_factor_davg_chord in (du * v - u * dv) / v ^ 2) +
          max_maneuver_factor * DSigL * ((* dquotient, L10-12 *) let u := max_maneuver_factor - gust_load_factor in
          let v := gust_load_factor in let du := - dgust_load_factor_davg_chord in let dv :=
          dgust_load_factor_davg_chord in (du * v - u * dv) / v ^ 2)) in  (* L2087 *)
      let dULF_dCl_alpha := 15 / 10 * (dgust_load_factor_dCl_alpha * SigK + gust_load_factor * DSigL * ((* dquotient,
          L10-12 *) let u := gust_load_factor - max_maneuver_factor in let v := gust_load_factor in let du :=
          dgust_load_factor_dCl_alpha in let dv := dgust_load_factor_dCl_alpha in (du * v - u * dv) / v ^ 2) +
          max_maneuver_factor * DSigL * ((* dquotient, L10-12 *) let u := max_maneuver_factor - gust_load_factor in
          let v := gust_load_factor in let du := - dgust_load_factor_dCl_alpha in let dv :=
          dgust_load_factor_dCl_alpha in (du * v - u * dv) / v ^ 2)) in  (* L2106 *)
      let dULF_dV9 := 15 / 10 * (dgust_load_factor_dV9 * SigK + gust_load_factor * DSigL * ((* dquotient, L10-12 *)
          let u := gust_load_factor - max_maneuver_factor in let v := gust_load_factor in let du :=
          dgust_load_factor_dV9 in let dv := dgust_load_factor_dV9 in (du * v - u * dv) / v ^ 2) + max_maneuver_factor
          * DSigL * ((* dquotient, L10-12 *) let u := max_maneuver_factor - gust_load_factor in let v :=
          gust_load_factor in let du := - dgust_load_factor_dV9 in let dv := dgust_load_factor_dV9 in (du * v - u *
          dv) / v ^ 2)) in  (* L2125 *)
      let dULF_dmin_dive_vel := 0 in  (* L2144 *)
      (dULF_dmax_maneuver_factor, dULF_dgross_mass, dULF_dexp_wing_areas, dULF_ddensity_ratio, dULF_davg_chord,
          dULF_dCl_alpha, dULF_dV9, dULF_dmin_dive_vel) in
  let d_Wing_ULTIMATE_LOAD_FACTOR__max_maneuver_factor := dULF_dmax_maneuver_factor in  (* L2167 *)
  let d_Wing_ULTIMATE_LOAD_FACTOR__Design_GROSS_MASS := dULF_dgross_mass in  (* L2170 *)
  let d_Wing_ULTIMATE_LOAD_FACTOR__Wing_EXPOSED_AREA := dULF_dexp_wing_areas in  (* L2171 *)
  let d_Wing_ULTIMATE_LOAD_FACTOR__density_ratio := dULF_ddensity_ratio in  (* L2174 *)
  let d_Wing_ULTIMATE_LOAD_FACTOR__Wing_AVERAGE_CHORD := dULF_davg_chord in  (* L2175 *)
  let d_Wing_ULTIMATE_LOAD_FACTOR__Design_LIFT_CURVE_SLOPE := dULF_dCl_alpha in  (* L2176 *)
  let d_Wing_ULTIMATE_LOAD_FACTOR__V9 := dULF_dV9 in  (* L2179 *)
  let d_Wing_ULTIMATE_LOAD_FACTOR__min_dive_vel := dULF_dmin_dive_vel in  (* L2180 *)
  [(Aircraft_Wing_ULTIMATE_LOAD_FACTOR, v_max_maneuver_factor, d_Wing_ULTIMATE_LOAD_FACTOR__max_maneuver_factor);
   (Aircraft_Wing_ULTIMATE_LOAD_FACTOR, Aircraft_Design_GROSS_MASS, d_Wing_ULTIMATE_LOAD_FACTOR__Design_GROSS_MASS);
   (Aircraft_Wing_ULTIMATE_LOAD_FACTOR, Aircraft_Wing_EXPOSED_AREA, d_Wing_ULTIMATE_LOAD_FACTOR__Wing_EXPOSED_AREA);
   (Aircraft_Wing_ULTIMATE_LOAD_FACTOR, v_density_ratio, d_Wing_ULTIMATE_LOAD_FACTOR__density_ratio);
   (Aircraft_Wing_ULTIMATE_LOAD_FACTOR, Aircraft_Wing_AVERAGE_CHORD, d_Wing_ULTIMATE_LOAD_FACTOR__Wing_AVERAGE_CHORD);
   (Aircraft_Wing_ULTIMATE_LOAD_FACTOR, Aircraft_Design_LIFT_CURVE_SLOPE,
       d_Wing_ULTIMATE_LOAD_FACTOR__Design_LIFT_CURVE_SLOPE);
   (Aircraft_Wing_ULTIMATE_LOAD_FACTOR, v_V9, d_Wing_ULTIMATE_LOAD_FACTOR__V9);
   (Aircraft_Wing_ULTIMATE_LOAD_FACTOR, v_min_dive_vel, d_Wing_ULTIMATE_LOAD_FACTOR__min_dive_vel)].

(** Inputs, outputs and declared partials: /repo/aviary/subsystems/mass/gasp_based/design_load.py L1580-1605 *)
Definition BWBLoadFactorsSmooth (op : options) : comp := {|
  c_ins := [Aircraft_Design_GROSS_MASS;
            Aircraft_Wing_EXPOSED_AREA;
            v_density_ratio;
            v_V9;
            v_min_dive_vel;
            v_max_maneuver_factor;
            Aircraft_Wing_AVERAGE_CHORD;
            Aircraft_Design_LIFT_CURVE_SLOPE];
  c_outs := [Aircraft_Wing_ULTIMATE_LOAD_FACTOR];
  c_decl := [(Aircraft_Wing_ULTIMATE_LOAD_FACTOR, Aircraft_Design_GROSS_MASS, 0);
             (Aircraft_Wing_ULTIMATE_LOAD_FACTOR, Aircraft_Wing_EXPOSED_AREA, 0);
             (Aircraft_Wing_ULTIMATE_LOAD_FACTOR, v_density_ratio, 0);
             (Aircraft_Wing_ULTIMATE_LOAD_FACTOR, v_V9, 0);
             (Aircraft_Wing_ULTIMATE_LOAD_FACTOR, v_min_dive_vel, 0);
             (Aircraft_Wing_ULTIMATE_LOAD_FACTOR, v_max_maneuver_factor, 0);
             (Aircraft_Wing_ULTIMATE_LOAD_FACTOR, Aircraft_Wing_AVERAGE_CHORD, 0);
             (Aircraft_Wing_ULTIMATE_LOAD_FACTOR, Aircraft_Design_LIFT_CURVE_SLOPE, 0)];
  c_run := BWBLoadFactorsSmooth_compute op; c_jac := BWBLoadFactorsSmooth_partials op |}.

(** BodyTankCalculations.compute, /repo/aviary/subsystems/mass/gasp_based/fuel.py L109-197 (one engine type or one node) *)
Definition BodyTankCalculationsSharp_compute (op : options) (e : env) : list (string * R) :=
  let design_fuel_vol := e Aircraft_Fuel_WING_VOLUME_DESIGN in  (* L110 *)
  let max_wingfuel_vol := e Aircraft_Fuel_WING_VOLUME_STRUCTURAL_MAX in  (* L111 *)
  let fuel_wt_min := e v_fuel_mass_min * GRAV_ENGLISH_LBM in  (* L112 *)
  let req_fuel_wt := e v_fuel_mass_required * GRAV_ENGLISH_LBM in  (* L113 *)
  let max_wingfuel_wt := e v_max_wingfuel_mass * GRAV_ENGLISH_LBM in  (* L114 *)
  let geom_fuel_vol := e Aircraft_Fuel_WING_VOLUME_GEOMETRIC_MAX in  (* L115 *)
  let rho_fuel := e Aircraft_Fuel_DENSITY * GRAV_ENGLISH_LBM in  (* L116 *)
  let gross_wt_initial := e Aircraft_Design_GROSS_MASS * GRAV_ENGLISH_LBM in  (* L117 *)
  let fuel_wt_des := e v_fuel_mass * GRAV_ENGLISH_LBM in  (* L118 *)
  let OEW := e Mission_OPERATING_MASS * GRAV_ENGLISH_LBM in  (* L119 *)
  let unusable_fuel := e Aircraft_Fuel_UNUSABLE_FUEL_MASS * GRAV_ENGLISH_LBM in  (* L120 *)
  let smooth := ob op Aircraft_Design_SMOOTH_MASS_DISCONTINUITIES in  (* L122 *)
  let mu := on op v_mu in  (* L123 *)
  let extra_fuel_volume :=  (* L130 *)
    if ltb design_fuel_vol max_wingfuel_vol then
      let extra_fuel_volume := 0 in  (* L131 *)
      extra_fuel_volume
    else
      let extra_fuel_volume := design_fuel_vol - geom_fuel_vol in  (* L133 *)
      extra_fuel_volume in
  let extra_fuel_volume := Rmax extra_fuel_volume 0 in  (* L138 *)
  let max_extra_fuel_wt := extra_fuel_volume * rho_fuel in  (* L140 *)
  let extra_fuel_wt := req_fuel_wt - max_wingfuel_wt in  (* L159 *)
  let extra_fuel_wt :=  (* L163 *)
    if ltb extra_fuel_wt 0 then
      let extra_fuel_wt := 0 in  (* L164 *)
      extra_fuel_wt
    else
      extra_fuel_wt in
  let wingfuel_wt_min := fuel_wt_min - max_extra_fuel_wt in  (* L166 *)
  let wingfuel_wt_min :=  (* L170 *)
    if ltb wingfuel_wt_min 0 then
      let wingfuel_wt_min := 0 in  (* L171 *)
      wingfuel_wt_min
    else
      wingfuel_wt_min in
  let max_fuel_avail_est := fuel_wt_des + extra_fuel_wt in  (* L173 *)
  let max_fuel_avail_new := gross_wt_initial - OEW in  (* L174 *)
  let est_GTOW := OEW + max_fuel_avail_est in  (* L175 *)
  let max_fuel_avail :=  (* L181 *)
    if ltb est_GTOW gross_wt_initial then
      let max_fuel_avail := max_fuel_avail_est in  (* L182 *)
      max_fuel_avail
    else
      let max_fuel_avail :=  (* L183 *)
        if ltb gross_wt_initial est_GTOW then
          let max_fuel_avail := max_fuel_avail_new in  (* L184 *)
          max_fuel_avail
        else
          let max_fuel_avail := (max_fuel_avail_est + max_fuel_avail_new) / 2 in  (* L186 *)
          max_fuel_avail in
      max_fuel_avail in
  let o_Fuel_AUXILIARY_FUEL_MASS_CAPACITY := extra_fuel_wt / GRAV_ENGLISH_LBM in  (* L188 *)
  let o_extra_fuel_volume := extra_fuel_volume in  (* L189 *)
  let o_max_extra_fuel_mass := max_extra_fuel_wt / GRAV_ENGLISH_LBM in  (* L190 *)
  let o_wingfuel_mass_min := wingfuel_wt_min / GRAV_ENGLISH_LBM in  (* L193 *)
  let o_Fuel_MAX_CAPACITY_MASS := (max_fuel_avail + unusable_fuel) / GRAV_ENGLISH_LBM in  (* L195 *)
  [(Aircraft_Fuel_AUXILIARY_FUEL_MASS_CAPACITY, o_Fuel_AUXILIARY_FUEL_MASS_CAPACITY);
   (v_extra_fuel_volume, o_extra_fuel_volume);
   (v_max_extra_fuel_mass, o_max_extra_fuel_mass);
   (v_wingfuel_mass_min, o_wingfuel_mass_min);
   (Aircraft_Fuel_MAX_CAPACITY_MASS, o_Fuel_MAX_CAPACITY_MASS)].

(** BodyTankCalculations.compute_partials, /repo/aviary/subsystems/mass/gasp_based/fuel.py L199-479 *)
Definition BodyTankCalculationsSharp_partials (op : options) (e : env) : list (string * string * R) :=
  let design_fuel_vol := e Aircraft_Fuel_WING_VOLUME_DESIGN in  (* L200 *)
  let max_wingfuel_vol := e Aircraft_Fuel_WING_VOLUME_STRUCTURAL_MAX in  (* L201 *)
  let fuel_wt_min := e v_fuel_mass_min * GRAV_ENGLISH_LBM in  (* L202 *)
  let req_fuel_wt := e v_fuel_mass_required * GRAV_ENGLISH_LBM in  (* L203 *)
  let max_wingfuel_wt := e v_max_wingfuel_mass * GRAV_ENGLISH_LBM in  (* L204 *)
  let geom_fuel_vol := e Aircraft_Fuel_WING_VOLUME_GEOMETRIC_MAX in  (* L205 *)
  let rho_fuel := e Aircraft_Fuel_DENSITY * GRAV_ENGLISH_LBM in  (* L206 *)
  let gross_wt_initial := e Aircraft_Design_GROSS_MASS * GRAV_ENGLISH_LBM in  (* L208 *)
  let fuel_wt_des := e v_fuel_mass * GRAV_ENGLISH_LBM in  (* L209 *)
  let OEW := e Mission_OPERATING_MASS * GRAV_ENGLISH_LBM in  (* L210 *)
  let smooth := ob op Aircraft_Design_SMOOTH_MASS_DISCONTINUITIES in  (* L212 *)
  let mu := on op v_mu in  (* L213 *)
  let '(extra_fuel_volume, dextra_fuel_volume_ddesign_fuel_vol, dextra_fuel_volume_dmax_wingfuel_vol,
      dextra_fuel_volume_dgeom_fuel_vol) :=  (* L228 *)
    if ltb design_fuel_vol max_wingfuel_vol then
      let extra_fuel_volume := 0 in  (* L229 *)
      let dextra_fuel_volume_ddesign_fuel_vol := 0 in  (* L230 *)
      let dextra_fuel_volume_dmax_wingfuel_vol := 0 in  (* L231 *)
      let dextra_fuel_volume_dgeom_fuel_vol := 0 in  (* L232 *)
      (extra_fuel_volume, dextra_fuel_volume_ddesign_fuel_vol, dextra_fuel_volume_dmax_wingfuel_vol,
          dextra_fuel_volume_dgeom_fuel_vol)
    else
      let extra_fuel_volume := design_fuel_vol - geom_fuel_vol in  (* L234 *)
      let dextra_fuel_volume_ddesign_fuel_vol := 1 in  (* L235 *)
      let dextra_fuel_volume_dmax_wingfuel_vol := 0 in  (* L236 *)
      let dextra_fuel_volume_dgeom_fuel_vol := - 1 in  (* L237 *)
      (extra_fuel_volume, dextra_fuel_volume_ddesign_fuel_vol, dextra_fuel_volume_dmax_wingfuel_vol,
          dextra_fuel_volume_dgeom_fuel_vol) in
  let '(extra_fuel_volume, dextra_fuel_volume_ddesign_fuel_vol, dextra_fuel_volume_dmax_wingfuel_vol,
      dextra_fuel_volume_dgeom_fuel_vol) :=  (* L246 *)
    if ltb extra_fuel_volume 0 then
      let extra_fuel_volume := 0 in  (* L247 *)
      let dextra_fuel_volume_ddesign_fuel_vol := 0 in  (* L248 *)
      let dextra_fuel_volume_dmax_wingfuel_vol := 0 in  (* L249 *)
      let dextra_fuel_volume_dgeom_fuel_vol := 0 in  (* L250 *)
      (extra_fuel_volume, dextra_fuel_volume_ddesign_fuel_vol, dextra_fuel_volume_dmax_wingfuel_vol,
          dextra_fuel_volume_dgeom_fuel_vol)
    else
      (extra_fuel_volume, dextra_fuel_volume_ddesign_fuel_vol, dextra_fuel_volume_dmax_wingfuel_vol,
          dextra_fuel_volume_dgeom_fuel_vol) in
  let max_extra_fuel_wt := extra_fuel_volume * rho_fuel in  (* L253 *)
  let dmax_extra_fuel_wt_ddesign_fuel_vol := dextra_fuel_volume_ddesign_fuel_vol * rho_fuel in  (* L254 *)
  let dmax_extra_fuel_wt_dmax_wingfuel_vol := dextra_fuel_volume_dmax_wingfuel_vol * rho_fuel in  (* L255 *)
  let dmax_extra_fuel_wt_dgeom_fuel_vol := dextra_fuel_volume_dgeom_fuel_vol * rho_fuel in  (* L256 *)
  let dmax_extra_fuel_wt_drho_fuel := extra_fuel_volume in  (* L257 *)
  let extra_fuel_wt := req_fuel_wt - max_wingfuel_wt in  (* L260 *)
  let dextra_fuel_wt_dreq_fuel_wt := 1 in  (* L261 *)
  let dextra_fuel_wt_dmax_wingfuel_wt := - 1 in  (* L262 *)
  let '(extra_fuel_wt, dextra_fuel_wt_dreq_fuel_wt, dextra_fuel_wt_dmax_wingfuel_wt) :=  (* L278 *)
    if ltb extra_fuel_wt 0 then
      let extra_fuel_wt := 0 in  (* L279 *)
      let dextra_fuel_wt_dreq_fuel_wt := 0 in  (* L280 *)
      let dextra_fuel_wt_dmax_wingfuel_wt := 0 in  (* L281 *)
      (extra_fuel_wt, dextra_fuel_wt_dreq_fuel_wt, dextra_fuel_wt_dmax_wingfuel_wt)
    else
      (extra_fuel_wt, dextra_fuel_wt_dreq_fuel_wt, dextra_fuel_wt_dmax_wingfuel_wt) in
  let wingfuel_wt_min := fuel_wt_min - max_extra_fuel_wt in  (* L284 *)
  let dwingfuel_wt_min_dfuel_wt_min := 1 in  (* L285 *)
  let dwingfuel_wt_min_ddesign_fuel_vol := - dmax_extra_fuel_wt_ddesign_fuel_vol in  (* L286 *)
  let dwingfuel_wt_min_dmax_wingfuel_vol := - dmax_extra_fuel_wt_dmax_wingfuel_vol in  (* L287 *)
  let dwingfuel_wt_min_dgeom_fuel_vol := - dmax_extra_fuel_wt_dgeom_fuel_vol in  (* L288 *)
  let dwingfuel_wt_min_drho_fuel := - dmax_extra_fuel_wt_drho_fuel in  (* L289 *)
  let '(wingfuel_wt_min, dwingfuel_wt_min_dfuel_wt_min, dwingfuel_wt_min_ddesign_fuel_vol,
      dwingfuel_wt_min_dmax_wingfuel_vol, dwingfuel_wt_min_dgeom_fuel_vol, dwingfuel_wt_min_drho_fuel) :=  (* L319 *)
    if ltb wingfuel_wt_min 0 then
      let wingfuel_wt_min := 0 in  (* L320 *)
      let dwingfuel_wt_min_dfuel_wt_min := 0 in  (* L321 *)
      let dwingfuel_wt_min_ddesign_fuel_vol := 0 in  (* L322 *)
      let dwingfuel_wt_min_dmax_wingfuel_vol := 0 in  (* L323 *)
      let dwingfuel_wt_min_dgeom_fuel_vol := 0 in  (* L324 *)
      let dwingfuel_wt_min_drho_fuel := 0 in  (* L325 *)
      (wingfuel_wt_min, dwingfuel_wt_min_dfuel_wt_min, dwingfuel_wt_min_ddesign_fuel_vol,
          dwingfuel_wt_min_dmax_wingfuel_vol, dwingfuel_wt_min_dgeom_fuel_vol, dwingfuel_wt_min_drho_fuel)
    else
      (wingfuel_wt_min, dwingfuel_wt_min_dfuel_wt_min, dwingfuel_wt_min_ddesign_fuel_vol,
          dwingfuel_wt_min_dmax_wingfuel_vol, dwingfuel_wt_min_dgeom_fuel_vol, dwingfuel_wt_min_drho_fuel) in
  let max_fuel_avail_est := fuel_wt_des + extra_fuel_wt in  (* L328 *)
  let dmax_fuel_avail_est_dfuel_wt_des := 1 in  (* L329 *)
  let dmax_fuel_avail_est_dreq_fuel_wt := dextra_fuel_wt_dreq_fuel_wt in  (* L330 *)
  let dmax_fuel_avail_est_dmax_wingfuel_wt := dextra_fuel_wt_dmax_wingfuel_wt in  (* L331 *)
  let dmax_fuel_avail_est_dgross_wt_initial := 0 in  (* L332 *)
  let dmax_fuel_avail_est_dOEW := 0 in  (* L333 *)
  let max_fuel_avail_new := gross_wt_initial - OEW in  (* L335 *)
  let dmax_fuel_avail_new_dfuel_wt_des := 0 in  (* L336 *)
  let dmax_fuel_avail_new_dreq_fuel_wt := 0 in  (* L337 *)
  let dmax_fuel_avail_new_dmax_wingfuel_wt := 0 in  (* L338 *)
  let dmax_fuel_avail_new_dgross_wt_initial := 1 in  (* L339 *)
  let dmax_fuel_avail_new_dOEW := - 1 in  (* L340 *)
  let est_GTOW := OEW + fuel_wt_des + extra_fuel_wt in  (* L342 *)
  let '(dmax_fuel_avail_dfuel_wt_des, dmax_fuel_avail_dreq_fuel_wt, dmax_fuel_avail_dmax_wingfuel_wt,
      dmax_fuel_avail_dgross_wt_initial, dmax_fuel_avail_dOEW) :=  (* L410 *)
    if ltb est_GTOW gross_wt_initial then
      let dmax_fuel_avail_dfuel_wt_des := 1 in  (* L412 *)
      let dmax_fuel_avail_dreq_fuel_wt := dextra_fuel_wt_dreq_fuel_wt in  (* L413 *)
      let dmax_fuel_avail_dmax_wingfuel_wt := dmax_fuel_avail_est_dmax_wingfuel_wt in  (* L414 *)
      let dmax_fuel_avail_dgross_wt_initial := 0 in  (* L415 *)
      let dmax_fuel_avail_dOEW := 0 in  (* L416 *)
      (dmax_fuel_avail_dfuel_wt_des, dmax_fuel_avail_dreq_fuel_wt, dmax_fuel_avail_dmax_wingfuel_wt,
          dmax_fuel_avail_dgross_wt_initial, dmax_fuel_avail_dOEW)
    else
      let '(dmax_fuel_avail_dfuel_wt_des, dmax_fuel_avail_dreq_fuel_wt, dmax_fuel_avail_dmax_wingfuel_wt,
          dmax_fuel_avail_dgross_wt_initial, dmax_fuel_avail_dOEW) :=  (* L417 *)
        if ltb gross_wt_initial est_GTOW then
          let dmax_fuel_avail_dfuel_wt_des := 0 in  (* L419 *)
          let dmax_fuel_avail_dreq_fuel_wt := 0 in  (* L420 *)
          let dmax_fuel_avail_dmax_wingfuel_wt := 0 in  (* L421 *)
          let dmax_fuel_avail_dgross_wt_initial := 1 in  (* L422 *)
          let dmax_fuel_avail_dOEW := - 1 in  (* L423 *)
          (dmax_fuel_avail_dfuel_wt_des, dmax_fuel_avail_dreq_fuel_wt, dmax_fuel_avail_dmax_wingfuel_wt,
              dmax_fuel_avail_dgross_wt_initial, dmax_fuel_avail_dOEW)
        else
          let dmax_fuel_avail_dfuel_wt_des := 1 / 2 in  (* L426 *)
          let dmax_fuel_avail_dreq_fuel_wt := dextra_fuel_wt_dreq_fuel_wt / 2 in  (* L427 *)
          let dmax_fuel_avail_dmax_wingfuel_wt := 0 in  (* L428 *)
          let dmax_fuel_avail_dgross_wt_initial := 1 / 2 in  (* L429 *)
          let dmax_fuel_avail_dOEW := - 1 / 2 in  (* L430 *)
          (dmax_fuel_avail_dfuel_wt_des, dmax_fuel_avail_dreq_fuel_wt, dmax_fuel_avail_dmax_wingfuel_wt,
              dmax_fuel_avail_dgross_wt_initial, dmax_fuel_avail_dOEW) in
      (dmax_fuel_avail_dfuel_wt_des, dmax_fuel_avail_dreq_fuel_wt, dmax_fuel_avail_dmax_wingfuel_wt,
          dmax_fuel_avail_dgross_wt_initial, dmax_fuel_avail_dOEW) in
  let d_extra_fuel_volume__Fuel_WING_VOLUME_DESIGN := dextra_fuel_volume_ddesign_fuel_vol in  (* L432 *)
  let d_extra_fuel_volume__Fuel_WING_VOLUME_STRUCTURAL_MAX := dextra_fuel_volume_dmax_wingfuel_vol in  (* L435 *)
  let d_extra_fuel_volume__Fuel_WING_VOLUME_GEOMETRIC_MAX := dextra_fuel_volume_dgeom_fuel_vol in  (* L438 *)
  let d_max_extra_fuel_mass__Fuel_WING_VOLUME_DESIGN := dmax_extra_fuel_wt_ddesign_fuel_vol / GRAV_ENGLISH_LBM in  (* L442 *)
  let d_max_extra_fuel_mass__Fuel_WING_VOLUME_STRUCTURAL_MAX := dmax_extra_fuel_wt_dmax_wingfuel_vol /
      GRAV_ENGLISH_LBM in  (* L445 *)
  let d_max_extra_fuel_mass__Fuel_WING_VOLUME_GEOMETRIC_MAX := dmax_extra_fuel_wt_dgeom_fuel_vol / GRAV_ENGLISH_LBM in  (* L448 *)
  let d_max_extra_fuel_mass__Fuel_DENSITY := dmax_extra_fuel_wt_drho_fuel in  (* L452 *)
  let d_Fuel_AUXILIARY_FUEL_MASS_CAPACITY__fuel_mass_required := dextra_fuel_wt_dreq_fuel_wt in  (* L454 *)
  let d_Fuel_AUXILIARY_FUEL_MASS_CAPACITY__max_wingfuel_mass := dextra_fuel_wt_dmax_wingfuel_wt in  (* L457 *)
  let d_wingfuel_mass_min__fuel_mass_min := dwingfuel_wt_min_dfuel_wt_min in  (* L461 *)
  let d_wingfuel_mass_min__Fuel_WING_VOLUME_DESIGN := dwingfuel_wt_min_ddesign_fuel_vol / GRAV_ENGLISH_LBM in  (* L462 *)
  let d_wingfuel_mass_min__Fuel_WING_VOLUME_STRUCTURAL_MAX := dwingfuel_wt_min_dmax_wingfuel_vol / GRAV_ENGLISH_LBM in  (* L465 *)
  let d_wingfuel_mass_min__Fuel_WING_VOLUME_GEOMETRIC_MAX := dwingfuel_wt_min_dgeom_fuel_vol / GRAV_ENGLISH_LBM in  (* L468 *)
  let d_wingfuel_mass_min__Fuel_DENSITY := dwingfuel_wt_min_drho_fuel in  (* L471 *)
  let d_Fuel_MAX_CAPACITY_MASS__fuel_mass := dmax_fuel_avail_dfuel_wt_des in  (* L473 *)
  let d_Fuel_MAX_CAPACITY_MASS__fuel_mass_required := dmax_fuel_avail_dreq_fuel_wt in  (* L474 *)
  let d_Fuel_MAX_CAPACITY_MASS__max_wingfuel_mass := dmax_fuel_avail_dmax_wingfuel_wt in  (* L475 *)
  let d_Fuel_MAX_CAPACITY_MASS__Design_GROSS_MASS := dmax_fuel_avail_dgross_wt_initial in  (* L476 *)
  let d_Fuel_MAX_CAPACITY_MASS__OPERATING_MASS := dmax_fuel_avail_dOEW in  (* L479 *)
  [(v_extra_fuel_volume, Aircraft_Fuel_WING_VOLUME_DESIGN, d_extra_fuel_volume__Fuel_WING_VOLUME_DESIGN);
   (v_extra_fuel_volume, Aircraft_Fuel_WING_VOLUME_STRUCTURAL_MAX,
       d_extra_fuel_volume__Fuel_WING_VOLUME_STRUCTURAL_MAX);
   (v_extra_fuel_volume, Aircraft_Fuel_WING_VOLUME_GEOMETRIC_MAX,
       d_extra_fuel_volume__Fuel_WING_VOLUME_GEOMETRIC_MAX);
   (v_max_extra_fuel_mass, Aircraft_Fuel_WING_VOLUME_DESIGN, d_max_extra_fuel_mass__Fuel_WING_VOLUME_DESIGN);
   (v_max_extra_fuel_mass, Aircraft_Fuel_WING_VOLUME_STRUCTURAL_MAX,
       d_max_extra_fuel_mass__Fuel_WING_VOLUME_STRUCTURAL_MAX);
   (v_max_extra_fuel_mass, Aircraft_Fuel_WING_VOLUME_GEOMETRIC_MAX,
       d_max_extra_fuel_mass__Fuel_WING_VOLUME_GEOMETRIC_MAX);
   (v_max_extra_fuel_mass, Aircraft_Fuel_DENSITY, d_max_extra_fuel_mass__Fuel_DENSITY);
   (Aircraft_Fuel_AUXILIARY_FUEL_MASS_CAPACITY, v_fuel_mass_required,
       d_Fuel_AUXILIARY_FUEL_MASS_CAPACITY__fuel_mass_required);
   (Aircraft_Fuel_AUXILIARY_FUEL_MASS_CAPACITY, v_max_wingfuel_mass,
       d_Fuel_AUXILIARY_FUEL_MASS_CAPACITY__max_wingfuel_mass);
   (v_wingfuel_mass_min, v_fuel_mass_min, d_wingfuel_mass_min__fuel_mass_min);
   (v_wingfuel_mass_min, Aircraft_Fuel_WING_VOLUME_DESIGN, d_wingfuel_mass_min__Fuel_WING_VOLUME_DESIGN);
   (v_wingfuel_mass_min, Aircraft_Fuel_WING_VOLUME_STRUCTURAL_MAX,
       d_wingfuel_mass_min__Fuel_WING_VOLUME_STRUCTURAL_MAX);
   (v_wingfuel_mass_min, Aircraft_Fuel_WING_VOLUME_GEOMETRIC_MAX,
       d_wingfuel_mass_min__Fuel_WING_VOLUME_GEOMETRIC_MAX);
   (v_wingfuel_mass_min, Aircraft_Fuel_DENSITY, d_wingfuel_mass_min__Fuel_DENSITY);
   (Aircraft_Fuel_MAX_CAPACITY_MASS, v_fuel_mass, d_Fuel_MAX_CAPACITY_MASS__fuel_mass);
   (Aircraft_Fuel_MAX_CAPACITY_MASS, v_fuel_mass_required, d_Fuel_MAX_CAPACITY_MASS__fuel_mass_required);
   (Aircraft_Fuel_MAX_CAPACITY_MASS, v_max_wingfuel_mass, d_Fuel_MAX_CAPACITY_MASS__max_wingfuel_mass);
   (Aircraft_Fuel_MAX_CAPACITY_MASS, Aircraft_Design_GROSS_MASS, d_Fuel_MAX_CAPACITY_MASS__Design_GROSS_MASS);
   (Aircraft_Fuel_MAX_CAPACITY_MASS, Mission_OPERATING_MASS, d_Fuel_MAX_CAPACITY_MASS__OPERATING_MASS)].

(** Inputs, outputs and declared partials: /repo/aviary/subsystems/mass/gasp_based/fuel.py L29-107 *)
Definition BodyTankCalculationsSharp (op : options) : comp := {|
  c_ins := [Aircraft_Fuel_WING_VOLUME_DESIGN;
            Aircraft_Fuel_WING_VOLUME_STRUCTURAL_MAX;
            v_fuel_mass_min;
            v_fuel_mass_required;
            v_max_wingfuel_mass;
            Aircraft_Fuel_WING_VOLUME_GEOMETRIC_MAX;
            Aircraft_Fuel_DENSITY;
            Aircraft_Design_GROSS_MASS;
            v_fuel_mass;
            Mission_OPERATING_MASS;
            Aircraft_Fuel_UNUSABLE_FUEL_MASS];
  c_outs := [Aircraft_Fuel_AUXILIARY_FUEL_MASS_CAPACITY;
             v_extra_fuel_volume;
             v_max_extra_fuel_mass;
             v_wingfuel_mass_min;
             Aircraft_Fuel_MAX_CAPACITY_MASS];
  c_decl := [(Aircraft_Fuel_AUXILIARY_FUEL_MASS_CAPACITY, v_fuel_mass_required, 0);
             (Aircraft_Fuel_AUXILIARY_FUEL_MASS_CAPACITY, v_max_wingfuel_mass, 0);
             (v_extra_fuel_volume, Aircraft_Fuel_WING_VOLUME_DESIGN, 0);
             (v_extra_fuel_volume, Aircraft_Fuel_WING_VOLUME_STRUCTURAL_MAX, 0);
             (v_extra_fuel_volume, Aircraft_Fuel_WING_VOLUME_GEOMETRIC_MAX, 0);
             (v_max_extra_fuel_mass, Aircraft_Fuel_WING_VOLUME_DESIGN, 0);
             (v_max_extra_fuel_mass, Aircraft_Fuel_WING_VOLUME_STRUCTURAL_MAX, 0);
             (v_max_extra_fuel_mass, Aircraft_Fuel_WING_VOLUME_GEOMETRIC_MAX, 0);
             (v_max_extra_fuel_mass, Aircraft_Fuel_DENSITY, 0);
             (v_wingfuel_mass_min, v_fuel_mass_min, 0);
             (v_wingfuel_mass_min, Aircraft_Fuel_WING_VOLUME_DESIGN, 0);
             (v_wingfuel_mass_min, Aircraft_Fuel_WING_VOLUME_STRUCTURAL_MAX, 0);
             (v_wingfuel_mass_min, Aircraft_Fuel_WING_VOLUME_GEOMETRIC_MAX, 0);
             (v_wingfuel_mass_min, Aircraft_Fuel_DENSITY, 0);
             (Aircraft_Fuel_MAX_CAPACITY_MASS, v_fuel_mass, 0);
             (Aircraft_Fuel_MAX_CAPACITY_MASS, v_fuel_mass_required, 0);
             (Aircraft_Fuel_MAX_CAPACITY_MASS, v_max_wingfuel_mass, 0);
             (Aircraft_Fuel_MAX_CAPACITY_MASS, Aircraft_Design_GROSS_MASS, 0);
             (Aircraft_Fuel_MAX_CAPACITY_MASS, Mission_OPERATING_MASS, 0);
             (Aircraft_Fuel_MAX_CAPACITY_MASS, Aircraft_Fuel_UNUSABLE_FUEL_MASS, 1)];
  c_run := BodyTankCalculationsSharp_compute op; c_jac := BodyTankCalculationsSharp_partials op |}.

(** BodyTankCalculations.compute, /repo/aviary/subsystems/mass/gasp_based/fuel.py L109-197 (one engine type or one node) *)
Definition BodyTankCalculationsSmooth_compute (op : options) (e : env) : list (string * R) :=
  let design_fuel_vol := e Aircraft_Fuel_WING_VOLUME_DESIGN in  (* L110 *)
  let max_wingfuel_vol := e Aircraft_Fuel_WING_VOLUME_STRUCTURAL_MAX in  (* L111 *)
  let fuel_wt_min := e v_fuel_mass_min * GRAV_ENGLISH_LBM in  (* L112 *)
  let req_fuel_wt := e v_fuel_mass_required * GRAV_ENGLISH_LBM in  (* L113 *)
  let max_wingfuel_wt := e v_max_wingfuel_mass * GRAV_ENGLISH_LBM in  (* L114 *)
  let geom_fuel_vol := e Aircraft_Fuel_WING_VOLUME_GEOMETRIC_MAX in  (* L115 *)
  let rho_fuel := e Aircraft_Fuel_DENSITY * GRAV_ENGLISH_LBM in  (* L116 *)
  let gross_wt_initial := e Aircraft_Design_GROSS_MASS * GRAV_ENGLISH_LBM in  (* L117 *)
  let fuel_wt_des := e v_fuel_mass * GRAV_ENGLISH_LBM in  (* L118 *)
  let OEW := e Mission_OPERATING_MASS * GRAV_ENGLISH_LBM in  (* L119 *)
  let unusable_fuel := e Aircraft_Fuel_UNUSABLE_FUEL_MASS * GRAV_ENGLISH_LBM in  (* L120 *)
  let smooth := ob op Aircraft_Design_SMOOTH_MASS_DISCONTINUITIES in  (* L122 *)
  let mu := on op v_mu in  (* L123 *)
  let extra_fuel_volume := sigmoidX1 (design_fuel_vol - max_wingfuel_vol) 0 1 * (design_fuel_vol - geom_fuel_vol) in  (* L126 *)
  let extra_fuel_volume := smooth_max1 extra_fuel_volume 0 mu in  (* L136 *)
  let max_extra_fuel_wt := extra_fuel_volume * rho_fuel in  (* L140 *)
  let extra_fuel_wt := req_fuel_wt - max_wingfuel_wt in  (* L159 *)
  let extra_fuel_wt := extra_fuel_wt * sigmoidX1 extra_fuel_wt 0 (1 / 50) in  (* L161 *)
  let wingfuel_wt_min := fuel_wt_min - max_extra_fuel_wt in  (* L166 *)
  let wingfuel_wt_min := wingfuel_wt_min * sigmoidX1 wingfuel_wt_min 0 1 in  (* L168 *)
  let max_fuel_avail_est := fuel_wt_des + extra_fuel_wt in  (* L173 *)
  let max_fuel_avail_new := gross_wt_initial - OEW in  (* L174 *)
  let est_GTOW := OEW + max_fuel_avail_est in  (* L175 *)
  let max_fuel_avail := max_fuel_avail_est * sigmoidX1 (gross_wt_initial - est_GTOW) 0 (1 / 110) + max_fuel_avail_new
      * sigmoidX1 (est_GTOW - gross_wt_initial) 0 (1 / 110) in  (* L177 *)
  let o_Fuel_AUXILIARY_FUEL_MASS_CAPACITY := extra_fuel_wt / GRAV_ENGLISH_LBM in  (* L188 *)
  let o_extra_fuel_volume := extra_fuel_volume in  (* L189 *)
  let o_max_extra_fuel_mass := max_extra_fuel_wt / GRAV_ENGLISH_LBM in  (* L190 *)
  let o_wingfuel_mass_min := wingfuel_wt_min / GRAV_ENGLISH_LBM in  (* L193 *)
  let o_Fuel_MAX_CAPACITY_MASS := (max_fuel_avail + unusable_fuel) / GRAV_ENGLISH_LBM in  (* L195 *)
  [(Aircraft_Fuel_AUXILIARY_FUEL_MASS_CAPACITY, o_Fuel_AUXILIARY_FUEL_MASS_CAPACITY);
   (v_extra_fuel_volume, o_extra_fuel_volume);
   (v_max_extra_fuel_mass, o_max_extra_fuel_mass);
   (v_wingfuel_mass_min, o_wingfuel_mass_min);
   (Aircraft_Fuel_MAX_CAPACITY_MASS, o_Fuel_MAX_CAPACITY_MASS)].

(** BodyTankCalculations.compute_partials, /repo/aviary/subsystems/mass/gasp_based/fuel.py L199-479 *)
Definition BodyTankCalculationsSmooth_partials (op : options) (e : env) : list (string * string * R) :=
  let design_fuel_vol := e Aircraft_Fuel_WING_VOLUME_DESIGN in  (* L200 *)
  let max_wingfuel_vol := e Aircraft_Fuel_WING_VOLUME_STRUCTURAL_MAX in  (* L201 *)
  let fuel_wt_min := e v_fuel_mass_min * GRAV_ENGLISH_LBM in  (* L202 *)
  let req_fuel_wt := e v_fuel_mass_required * GRAV_ENGLISH_LBM in  (* L203 *)
  let max_wingfuel_wt := e v_max_wingfuel_mass * GRAV_ENGLISH_LBM in  (* L204 *)
  let geom_fuel_vol := e Aircraft_Fuel_WING_VOLUME_GEOMETRIC_MAX in  (* L205 *)
  let rho_fuel := e Aircraft_Fuel_DENSITY * GRAV_ENGLISH_LBM in  (* L206 *)
  let gross_wt_initial := e Aircraft_Design_GROSS_MASS * GRAV_ENGLISH_LBM in  (* L208 *)
  let fuel_wt_des := e v_fuel_mass * GRAV_ENGLISH_LBM in  (* L209 *)
  let OEW := e Mission_OPERATING_MASS * GRAV_ENGLISH_LBM in  (* L210 *)
  let smooth := ob op Aircraft_Design_SMOOTH_MASS_DISCONTINUITIES in  (* L212 *)
  let mu := on op v_mu in  (* L213 *)
  let extra_fuel_volume := sigmoidX1 (design_fuel_vol - max_wingfuel_vol) 0 1 * (design_fuel_vol - geom_fuel_vol) in  (* L217 *)
  let dextra_fuel_volume_ddesign_fuel_vol := dSigmoidX1 (design_fuel_vol - max_wingfuel_vol) 0 1 * (design_fuel_vol -
      geom_fuel_vol) + sigmoidX1 (design_fuel_vol - max_wingfuel_vol) 0 1 in  (* L220 *)
  let dextra_fuel_volume_dmax_wingfuel_vol := dSigmoidX1 (design_fuel_vol - max_wingfuel_vol) 0 1 * - (design_fuel_vol
      - geom_fuel_vol) in  (* L223 *)
  let dextra_fuel_volume_dgeom_fuel_vol := - sigmoidX1 (design_fuel_vol - max_wingfuel_vol) 0 1 in  (* L226 *)
  let sm_fac := d_smooth_max1 extra_fuel_volume 0 mu in  (* L240 *)
  let dextra_fuel_volume_ddesign_fuel_vol := sm_fac * dextra_fuel_volume_ddesign_fuel_vol in  (* L241 *)
  let dextra_fuel_volume_dmax_wingfuel_vol := sm_fac * dextra_fuel_volume_dmax_wingfuel_vol in  (* L242 *)
  let dextra_fuel_volume_dgeom_fuel_vol := sm_fac * dextra_fuel_volume_dgeom_fuel_vol in  (* L243 *)
  let extra_fuel_volume := smooth_max1 extra_fuel_volume 0 mu in  (* L244 *)
  let max_extra_fuel_wt := extra_fuel_volume * rho_fuel in  (* L253 *)
  let dmax_extra_fuel_wt_ddesign_fuel_vol := dextra_fuel_volume_ddesign_fuel_vol * rho_fuel in  (* L254 *)
  let dmax_extra_fuel_wt_dmax_wingfuel_vol := dextra_fuel_volume_dmax_wingfuel_vol * rho_fuel in  (* L255 *)
  let dmax_extra_fuel_wt_dgeom_fuel_vol := dextra_fuel_volume_dgeom_fuel_vol * rho_fuel in  (* L256 *)
  let dmax_extra_fuel_wt_drho_fuel := extra_fuel_volume in  (* L257 *)
  let extra_fuel_wt := req_fuel_wt - max_wingfuel_wt in  (* L260 *)
  let dextra_fuel_wt_dreq_fuel_wt := 1 in  (* L261 *)
  let dextra_fuel_wt_dmax_wingfuel_wt := - 1 in  (* L262 *)
  let extra_fuel_wt := extra_fuel_wt * sigmoidX1 extra_fuel_wt 0 (1 / 50) in  (* L264 *)
  let dextra_fuel_wt_dreq_fuel_wt := sigmoidX1 (req_fuel_wt - max_wingfuel_wt) 0 (1 / 50) + (req_fuel_wt -
      max_wingfuel_wt) * dSigmoidX1 (req_fuel_wt - max_wingfuel_wt) 0 (1 / 50) * 1 / 50 in  (* L265 *)
  let dextra_fuel_wt_dmax_wingfuel_wt := - 1 * sigmoidX1 (req_fuel_wt - max_wingfuel_wt) 0 (1 / 50) + (req_fuel_wt -
      max_wingfuel_wt) * dSigmoidX1 (req_fuel_wt - max_wingfuel_wt) 0 (1 / 50) * (- 1 / 50) in  (* L272 *)
  let wingfuel_wt_min := fuel_wt_min - max_extra_fuel_wt in  (* L284 *)
  let dwingfuel_wt_min_dfuel_wt_min := 1 in  (* L285 *)
  let dwingfuel_wt_min_ddesign_fuel_vol := - dmax_extra_fuel_wt_ddesign_fuel_vol in  (* L286 *)
  let dwingfuel_wt_min_dmax_wingfuel_vol := - dmax_extra_fuel_wt_dmax_wingfuel_vol in  (* L287 *)
  let dwingfuel_wt_min_dgeom_fuel_vol := - dmax_extra_fuel_wt_dgeom_fuel_vol in  (* L288 *)
  let dwingfuel_wt_min_drho_fuel := - dmax_extra_fuel_wt_drho_fuel in  (* L289 *)
  let wingfuel_wt_min := wingfuel_wt_min * sigmoidX1 wingfuel_wt_min 0 1 in  (* L291 *)
  let dwingfuel_wt_min_dfuel_wt_min := dwingfuel_wt_min_dfuel_wt_min * sigmoidX1 wingfuel_wt_min 0 1 + wingfuel_wt_min
      * dSigmoidX1 wingfuel_wt_min 0 1 * dwingfuel_wt_min_dfuel_wt_min in  (* L292 *)
  let dwingfuel_wt_min_ddesign_fuel_vol := dwingfuel_wt_min_ddesign_fuel_vol * sigmoidX1 wingfuel_wt_min 0 1 +
      wingfuel_wt_min * dSigmoidX1 wingfuel_wt_min 0 1 * dwingfuel_wt_min_ddesign_fuel_vol in  (* L296 *)
  let dwingfuel_wt_min_dmax_wingfuel_vol := dwingfuel_wt_min_dmax_wingfuel_vol * sigmoidX1 wingfuel_wt_min 0 1 +
      wingfuel_wt_min * dSigmoidX1 wingfuel_wt_min 0 1 * dwingfuel_wt_min_dmax_wingfuel_vol in  (* L302 *)
  let dwingfuel_wt_min_dgeom_fuel_vol := dwingfuel_wt_min_dgeom_fuel_vol * sigmoidX1 wingfuel_wt_min 0 1 +
      wingfuel_wt_min * dSigmoidX1 wingfuel_wt_min 0 1 * dwingfuel_wt_min_dgeom_fuel_vol in  (* L308 *)
  let dwingfuel_wt_min_drho_fuel := dwingfuel_wt_min_drho_fuel * sigmoidX1 wingfuel_wt_min 0 1 + wingfuel_wt_min *
      dSigmoidX1 wingfuel_wt_min 0 1 * dwingfuel_wt_min_drho_fuel in  (* L314 *)
  let max_fuel_avail_est := fuel_wt_des + extra_fuel_wt in  (* L328 *)
  let dmax_fuel_avail_est_dfuel_wt_des := 1 in  (* L329 *)
  let dmax_fuel_avail_est_dreq_fuel_wt := dextra_fuel_wt_dreq_fuel_wt in  (* L330 *)
  let dmax_fuel_avail_est_dmax_wingfuel_wt := dextra_fuel_wt_dmax_wingfuel_wt in  (* L331 *)
  let dmax_fuel_avail_est_dgross_wt_initial := 0 in  (* L332 *)
  let dmax_fuel_avail_est_dOEW := 0 in  (* L333 *)
  let max_fuel_avail_new := gross_wt_initial - OEW in  (* L335 *)
  let dmax_fuel_avail_new_dfuel_wt_des := 0 in  (* L336 *)
  let dmax_fuel_avail_new_dreq_fuel_wt := 0 in  (* L337 *)
  let dmax_fuel_avail_new_dmax_wingfuel_wt := 0 in  (* L338 *)
  let dmax_fuel_avail_new_dgross_wt_initial := 1 in  (* L339 *)
  let dmax_fuel_avail_new_dOEW := - 1 in  (* L340 *)
  let est_GTOW := OEW + fuel_wt_des + extra_fuel_wt in  (* L342 *)
  let Int1 := sigmoidX1 (gross_wt_initial - est_GTOW) 0 (1 / 110) in  (* L344 *)
  let Int2 := sigmoidX1 (est_GTOW - gross_wt_initial) 0 (1 / 110) in  (* L345 *)
  let dInt1_dfuel_wt_des := dSigmoidX1 (gross_wt_initial - est_GTOW) 0 (1 / 110) * (- 1 / 110) in  (* L348 *)
  let dInt1_dreq_fuel_wt := dSigmoidX1 (gross_wt_initial - est_GTOW) 0 (1 / 110) * - dextra_fuel_wt_dreq_fuel_wt / 100
      in  (* L351 *)
  let dInt1_dmax_wingfuel_wt := dSigmoidX1 (gross_wt_initial - est_GTOW) 0 (1 / 110) * -
      dmax_extra_fuel_wt_dmax_wingfuel_vol / 100 in  (* L356 *)
  let dInt1_dgross_wt_initial := dSigmoidX1 (gross_wt_initial - est_GTOW) 0 (1 / 110) / 110 in  (* L361 *)
  let dInt1_dOEW := dSigmoidX1 (gross_wt_initial - est_GTOW) 0 (1 / 110) * (- 1 / 110) in  (* L362 *)
  let dInt2_dfuel_wt_des := dSigmoidX1 (est_GTOW - gross_wt_initial) 0 (1 / 110) / 110 in  (* L364 *)
  let dInt2_dreq_fuel_wt := dSigmoidX1 (est_GTOW - gross_wt_initial) 0 (1 / 110) * dextra_fuel_wt_dreq_fuel_wt / 100
      in  (* L365 *)
  let dInt2_dmax_wingfuel_wt := dSigmoidX1 (est_GTOW - gross_wt_initial) 0 (1 / 110) *
      dmax_extra_fuel_wt_dmax_wingfuel_vol / 100 in  (* L370 *)
  let dInt2_dgross_wt_initial := dSigmoidX1 (est_GTOW - gross_wt_initial) 0 (1 / 110) * (- 1 / 110) in  (* L375 *)
  let dInt2_dOEW := dSigmoidX1 (est_GTOW - gross_wt_initial) 0 (1 / 110) / 110 in  (* L378 *)
  let dmax_fuel_avail_dfuel_wt_des := dmax_fuel_avail_est_dfuel_wt_des * Int1 + max_fuel_avail_est *
      dInt1_dfuel_wt_des + dmax_fuel_avail_new_dfuel_wt_des * Int2 + max_fuel_avail_new * dInt2_dfuel_wt_des in  (* L379 *)
  let dmax_fuel_avail_dreq_fuel_wt := dmax_fuel_avail_est_dreq_fuel_wt * Int1 + max_fuel_avail_est *
      dInt1_dreq_fuel_wt + dmax_fuel_avail_new_dreq_fuel_wt * Int2 + max_fuel_avail_new * dInt2_dreq_fuel_wt in  (* L385 *)
  let dmax_fuel_avail_dmax_wingfuel_wt := dmax_fuel_avail_est_dmax_wingfuel_wt * Int1 + max_fuel_avail_est *
      dInt1_dmax_wingfuel_wt + dmax_fuel_avail_new_dmax_wingfuel_wt * Int2 + max_fuel_avail_new *
      dInt2_dmax_wingfuel_wt in  (* L391 *)
  let dmax_fuel_avail_dgross_wt_initial := dmax_fuel_avail_est_dgross_wt_initial * Int1 + max_fuel_avail_est *
      dInt1_dgross_wt_initial + dmax_fuel_avail_new_dgross_wt_initial * Int2 + max_fuel_avail_new *
      dInt2_dgross_wt_initial in  (* L397 *)
  let dmax_fuel_avail_dOEW := dmax_fuel_avail_est_dOEW * Int1 + max_fuel_avail_est * dInt1_dOEW +
      dmax_fuel_avail_new_dOEW * Int2 + max_fuel_avail_new * dInt2_dOEW in  (* L403 *)
  let d_extra_fuel_volume__Fuel_WING_VOLUME_DESIGN := dextra_fuel_volume_ddesign_fuel_vol in  (* L432 *)
  let d_extra_fuel_volume__Fuel_WING_VOLUME_STRUCTURAL_MAX := dextra_fuel_volume_dmax_wingfuel_vol in  (* L435 *)
  let d_extra_fuel_volume__Fuel_WING_VOLUME_GEOMETRIC_MAX := dextra_fuel_volume_dgeom_fuel_vol in  (* L438 *)
  let d_max_extra_fuel_mass__Fuel_WING_VOLUME_DESIGN := dmax_extra_fuel_wt_ddesign_fuel_vol / GRAV_ENGLISH_LBM in  (* L442 *)
  let d_max_extra_fuel_mass__Fuel_WING_VOLUME_STRUCTURAL_MAX := dmax_extra_fuel_wt_dmax_wingfuel_vol /
      GRAV_ENGLISH_LBM in  (* L445 *)
  let d_max_extra_fuel_mass__Fuel_WING_VOLUME_GEOMETRIC_MAX := dmax_extra_fuel_wt_dgeom_fuel_vol / GRAV_ENGLISH_LBM in  (* L448 *)
  let d_max_extra_fuel_mass__Fuel_DENSITY := dmax_extra_fuel_wt_drho_fuel in  (* L452 *)
  let d_Fuel_AUXILIARY_FUEL_MASS_CAPACITY__fuel_mass_required := dextra_fuel_wt_dreq_fuel_wt in  (* L454 *)
  let d_Fuel_AUXILIARY_FUEL_MASS_CAPACITY__max_wingfuel_mass := dextra_fuel_wt_dmax_wingfuel_wt in  (* L457 *)
  let d_wingfuel_mass_min__fuel_mass_min := dwingfuel_wt_min_dfuel_wt_min in  (* L461 *)
  let d_wingfuel_mass_min__Fuel_WING_VOLUME_DESIGN := dwingfuel_wt_min_ddesign_fuel_vol / GRAV_ENGLISH_LBM in  (* L462 *)
  let d_wingfuel_mass_min__Fuel_WING_VOLUME_STRUCTURAL_MAX := dwingfuel_wt_min_dmax_wingfuel_vol / GRAV_ENGLISH_LBM in  (* L465 *)
  let d_wingfuel_mass_min__Fuel_WING_VOLUME_GEOMETRIC_MAX := dwingfuel_wt_min_dgeom_fuel_vol / GRAV_ENGLISH_LBM in  (* L468 *)
  let d_wingfuel_mass_min__Fuel_DENSITY := dwingfuel_wt_min_drho_fuel in  (* L471 *)
  let d_Fuel_MAX_CAPACITY_MASS__fuel_mass := dmax_fuel_avail_dfuel_wt_des in  (* L473 *)
  let d_Fuel_MAX_CAPACITY_MASS__fuel_mass_required := dmax_fuel_avail_dreq_fuel_wt in  (* L474 *)
  let d_Fuel_MAX_CAPACITY_MASS__max_wingfuel_mass := dmax_fuel_avail_dmax_wingfuel_wt in  (* L475 *)
  let d_Fuel_MAX_CAPACITY_MASS__Design_GROSS_MASS := dmax_fuel_avail_dgross_wt_initial in  (* L476 *)
  let d_Fuel_MAX_CAPACITY_MASS__OPERATING_MASS := dmax_fuel_avail_dOEW in  (* L479 *)
  [(v_extra_fuel_volume, Aircraft_Fuel_WING_VOLUME_DESIGN, d_extra_fuel_volume__Fuel_WING_VOLUME_DESIGN);
   (v_extra_fuel_volume, Aircraft_Fuel_WING_VOLUME_STRUCTURAL_MAX,
       d_extra_fuel_volume__Fuel_WING_VOLUME_STRUCTURAL_MAX);
   (v_extra_fuel_volume, Aircraft_Fuel_WING_VOLUME_GEOMETRIC_MAX,
       d_extra_fuel_volume__Fuel_WING_VOLUME_GEOMETRIC_MAX);
   (v_max_extra_fuel_mass, Aircraft_Fuel_WING_VOLUME_DESIGN, d_max_extra_fuel_mass__Fuel_WING_VOLUME_DESIGN);
   (v_max_extra_fuel_mass, Aircraft_Fuel_WING_VOLUME_STRUCTURAL_MAX,
       d_max_extra_fuel_mass__Fuel_WING_VOLUME_STRUCTURAL_MAX);
   (v_max_extra_fuel_mass, Aircraft_Fuel_WING_VOLUME_GEOMETRIC_MAX,
       d_max_extra_fuel_mass__Fuel_WING_VOLUME_GEOMETRIC_MAX);
   (v_max_extra_fuel_mass, Aircraft_Fuel_DENSITY, d_max_extra_fuel_mass__Fuel_DENSITY);
   (Aircraft_Fuel_AUXILIARY_FUEL_MASS_CAPACITY, v_fuel_mass_required,
       d_Fuel_AUXILIARY_FUEL_MASS_CAPACITY__fuel_mass_required);
   (Aircraft_Fuel_AUXILIARY_FUEL_MASS_CAPACITY, v_max_wingfuel_mass,
       d_Fuel_AUXILIARY_FUEL_MASS_CAPACITY__max_wingfuel_mass);
   (v_wingfuel_mass_min, v_fuel_mass_min, d_wingfuel_mass_min__fuel_mass_min);
   (v_wingfuel_mass_min, Aircraft_Fuel_WING_VOLUME_DESIGN, d_wingfuel_mass_min__Fuel_WING_VOLUME_DESIGN);
   (v_wingfuel_mass_min, Aircraft_Fuel_WING_VOLUME_STRUCTURAL_MAX,
       d_wingfuel_mass_min__Fuel_WING_VOLUME_STRUCTURAL_MAX);
   (v_wingfuel_mass_min, Aircraft_Fuel_WING_VOLUME_GEOMETRIC_MAX,
       d_wingfuel_mass_min__Fuel_WING_VOLUME_GEOMETRIC_MAX);
   (v_wingfuel_mass_min, Aircraft_Fuel_DENSITY, d_wingfuel_mass_min__Fuel_DENSITY);
   (Aircraft_Fuel_MAX_CAPACITY_MASS, v_fuel_mass, d_Fuel_MAX_CAPACITY_MASS__fuel_mass);
   (Aircraft_Fuel_MAX_CAPACITY_MASS, v_fuel_mass_required, d_Fuel_MAX_CAPACITY_MASS__fuel_mass_required);
   (Aircraft_Fuel_MAX_CAPACITY_MASS, v_max_wingfuel_mass, d_Fuel_MAX_CAPACITY_MASS__max_wingfuel_mass);
   (Aircraft_Fuel_MAX_CAPACITY_MASS, Aircraft_Design_GROSS_MASS, d_Fuel_MAX_CAPACITY_MASS__Design_GROSS_MASS);
   (Aircraft_Fuel_MAX_CAPACITY_MASS, Mission_OPERATING_MASS, d_Fuel_MAX_CAPACITY_MASS__OPERATING_MASS)].

(** Inputs, outputs and declared partials: /repo/aviary/subsystems/mass/gasp_based/fuel.py L29-107 *)
Definition BodyTankCalculationsSmooth (op : options) : comp := {|
  c_ins := [Aircraft_Fuel_WING_VOLUME_DESIGN;
            Aircraft_Fuel_WING_VOLUME_STRUCTURAL_MAX;
            v_fuel_mass_min;
            v_fuel_mass_required;
            v_max_wingfuel_mass;
            Aircraft_Fuel_WING_VOLUME_GEOMETRIC_MAX;
            Aircraft_Fuel_DENSITY;
            Aircraft_Design_GROSS_MASS;
            v_fuel_mass;
            Mission_OPERATING_MASS;
            Aircraft_Fuel_UNUSABLE_FUEL_MASS];
  c_outs := [Aircraft_Fuel_AUXILIARY_FUEL_MASS_CAPACITY;
             v_extra_fuel_volume;
             v_max_extra_fuel_mass;
             v_wingfuel_mass_min;
             Aircraft_Fuel_MAX_CAPACITY_MASS];
  c_decl := [(Aircraft_Fuel_AUXILIARY_FUEL_MASS_CAPACITY, v_fuel_mass_required, 0);
             (Aircraft_Fuel_AUXILIARY_FUEL_MASS_CAPACITY, v_max_wingfuel_mass, 0);
             (v_extra_fuel_volume, Aircraft_Fuel_WING_VOLUME_DESIGN, 0);
             (v_extra_fuel_volume, Aircraft_Fuel_WING_VOLUME_STRUCTURAL_MAX, 0);
             (v_extra_fuel_volume, Aircraft_Fuel_WING_VOLUME_GEOMETRIC_MAX, 0);
             (v_max_extra_fuel_mass, Aircraft_Fuel_WING_VOLUME_DESIGN, 0);
             (v_max_extra_fuel_mass, Aircraft_Fuel_WING_VOLUME_STRUCTURAL_MAX, 0);
             (v_max_extra_fuel_mass, Aircraft_Fuel_WING_VOLUME_GEOMETRIC_MAX, 0);
             (v_max_extra_fuel_mass, Aircraft_Fuel_DENSITY, 0);
             (v_wingfuel_mass_min, v_fuel_mass_min, 0);
             (v_wingfuel_mass_min, Aircraft_Fuel_WING_VOLUME_DESIGN, 0);
             (v_wingfuel_mass_min, Aircraft_Fuel_WING_VOLUME_STRUCTURAL_MAX, 0);
             (v_wingfuel_mass_min, Aircraft_Fuel_WING_VOLUME_GEOMETRIC_MAX, 0);
             (v_wingfuel_mass_min, Aircraft_Fuel_DENSITY, 0);
             (Aircraft_Fuel_MAX_CAPACITY_MASS, v_fuel_mass, 0);
             (Aircraft_Fuel_MAX_CAPACITY_MASS, v_fuel_mass_required, 0);
             (Aircraft_Fuel_MAX_CAPACITY_MASS, v_max_wingfuel_mass, 0);
             (Aircraft_Fuel_MAX_CAPACITY_MASS, Aircraft_Design_GROSS_MASS, 0);
             (Aircraft_Fuel_MAX_CAPACITY_MASS, Mission_OPERATING_MASS, 0);
             (Aircraft_Fuel_MAX_CAPACITY_MASS, Aircraft_Fuel_UNUSABLE_FUEL_MASS, 1)];
  c_run := BodyTankCalculationsSmooth_compute op; c_jac := BodyTankCalculationsSmooth_partials op |}.

(** FuelComponents.compute, /repo/aviary/subsystems/mass/gasp_based/fuel.py L584-623 (one engine type or one node) *)
Definition FuelComponentsSharp_compute (op : options) (e : env) : list (string * R) :=
  let smooth := ob op Aircraft_Design_SMOOTH_MASS_DISCONTINUITIES in  (* L585 *)
  let rho_fuel := e Aircraft_Fuel_DENSITY * GRAV_ENGLISH_LBM in  (* L587 *)
  let gross_wt_initial := e Aircraft_Design_GROSS_MASS * GRAV_ENGLISH_LBM in  (* L589 *)
  let req_fuel_wt := e v_fuel_mass_required * GRAV_ENGLISH_LBM in  (* L590 *)
  let geometric_fuel_vol := e Aircraft_Fuel_WING_VOLUME_GEOMETRIC_MAX in  (* L591 *)
  let fuel_margin := e Aircraft_Fuel_VOLUME_MARGIN in  (* L592 *)
  let OEW := e Mission_OPERATING_MASS * GRAV_ENGLISH_LBM in  (* L593 *)
  let total_fuel := e Aircraft_Fuel_MAX_CAPACITY_MASS in  (* L595 *)
  let unusable_fuel := e Aircraft_Fuel_UNUSABLE_FUEL_MASS in  (* L596 *)
  let max_fuel_avail := (total_fuel - unusable_fuel) * GRAV_ENGLISH_LBM in  (* L597 *)
  let OEM_wingfuel_wt := gross_wt_initial - OEW in  (* L599 *)
  let OEM_fuel_vol := OEM_wingfuel_wt / rho_fuel in  (* L601 *)
  let design_fuel_vol := (1 + fuel_margin / 100) * req_fuel_wt / rho_fuel in  (* L602 *)
  let volume_wingfuel_wt := geometric_fuel_vol * rho_fuel in  (* L604 *)
  let max_wingfuel_wt :=  (* L610 *)
    if ltb OEM_wingfuel_wt volume_wingfuel_wt then
      let max_wingfuel_wt := OEM_wingfuel_wt in  (* L611 *)
      max_wingfuel_wt
    else
      let max_wingfuel_wt := volume_wingfuel_wt in  (* L613 *)
      max_wingfuel_wt in
  let payload_wt_max_fuel := gross_wt_initial - OEW - max_fuel_avail in  (* L614 *)
  let max_wingfuel_vol := max_wingfuel_wt / rho_fuel in  (* L615 *)
  let o_OEM_wingfuel_mass := OEM_wingfuel_wt / GRAV_ENGLISH_LBM in  (* L617 *)
  let o_OEM_fuel_vol := OEM_fuel_vol in  (* L618 *)
  let o_Fuel_WING_VOLUME_DESIGN := design_fuel_vol in  (* L619 *)
  let o_payload_mass_max_fuel := payload_wt_max_fuel / GRAV_ENGLISH_LBM in  (* L620 *)
  let o_volume_wingfuel_mass := volume_wingfuel_wt / GRAV_ENGLISH_LBM in  (* L621 *)
  let o_max_wingfuel_mass := max_wingfuel_wt / GRAV_ENGLISH_LBM in  (* L622 *)
  let o_Fuel_WING_VOLUME_STRUCTURAL_MAX := max_wingfuel_vol in  (* L623 *)
  [(v_OEM_wingfuel_mass, o_OEM_wingfuel_mass);
   (v_OEM_fuel_vol, o_OEM_fuel_vol);
   (Aircraft_Fuel_WING_VOLUME_DESIGN, o_Fuel_WING_VOLUME_DESIGN);
   (v_payload_mass_max_fuel, o_payload_mass_max_fuel);
   (v_volume_wingfuel_mass, o_volume_wingfuel_mass);
   (v_max_wingfuel_mass, o_max_wingfuel_mass);
   (Aircraft_Fuel_WING_VOLUME_STRUCTURAL_MAX, o_Fuel_WING_VOLUME_STRUCTURAL_MAX)].

(** FuelComponents.compute_partials, /repo/aviary/subsystems/mass/gasp_based/fuel.py L625-779 *)
Definition FuelComponentsSharp_partials (op : options) (e : env) : list (string * string * R) :=
  let smooth := ob op Aircraft_Design_SMOOTH_MASS_DISCONTINUITIES in  (* L626 *)
  let rho_fuel := e Aircraft_Fuel_DENSITY * GRAV_ENGLISH_LBM in  (* L628 *)
  let gross_wt_initial := e Aircraft_Design_GROSS_MASS * GRAV_ENGLISH_LBM in  (* L629 *)
  let OEW := e Mission_OPERATING_MASS * GRAV_ENGLISH_LBM in  (* L630 *)
  let req_fuel_wt := e v_fuel_mass_required * GRAV_ENGLISH_LBM in  (* L631 *)
  let geometric_fuel_vol := e Aircraft_Fuel_WING_VOLUME_GEOMETRIC_MAX in  (* L632 *)
  let fuel_margin := e Aircraft_Fuel_VOLUME_MARGIN in  (* L633 *)
  let OEM_wingfuel_wt := gross_wt_initial - OEW in  (* L635 *)
  let volume_wingfuel_wt := geometric_fuel_vol * rho_fuel in  (* L636 *)
  let max_wingfuel_wt :=  (* L642 *)
    if ltb OEM_wingfuel_wt volume_wingfuel_wt then
      let max_wingfuel_wt := OEM_wingfuel_wt in  (* L643 *)
      max_wingfuel_wt
    else
      let max_wingfuel_wt := volume_wingfuel_wt in  (* L645 *)
      max_wingfuel_wt in
  let d_OEM_wingfuel_mass__Design_GROSS_MASS := 1 in  (* L647 *)
  let dOEMwingfuelWt_dGTOW := d_OEM_wingfuel_mass__Design_GROSS_MASS in  (* L647 *)
  let d_OEM_wingfuel_mass__OPERATING_MASS := - 1 in  (* L648 *)
  let dOEMwingfuelWt_dOEW := d_OEM_wingfuel_mass__OPERATING_MASS in  (* L648 *)
  let d_OEM_fuel_vol__Design_GROSS_MASS := 1 / rho_fuel * GRAV_ENGLISH_LBM in  (* L650 *)
  let d_OEM_fuel_vol__OPERATING_MASS := - 1 / rho_fuel * GRAV_ENGLISH_LBM in  (* L651 *)
  let d_OEM_fuel_vol__Fuel_DENSITY := - OEM_wingfuel_wt / rho_fuel ^ 2 * GRAV_ENGLISH_LBM in  (* L652 *)
  let d_Fuel_WING_VOLUME_DESIGN__fuel_mass_required := (1 + fuel_margin / 100) / rho_fuel * GRAV_ENGLISH_LBM in  (* L654 *)
  let d_Fuel_WING_VOLUME_DESIGN__Fuel_DENSITY := - (1 + fuel_margin / 100) * req_fuel_wt / rho_fuel ^ 2 *
      GRAV_ENGLISH_LBM in  (* L657 *)
  let d_Fuel_WING_VOLUME_DESIGN__Fuel_VOLUME_MARGIN := 1 / 100 * req_fuel_wt / rho_fuel in  (* L660 *)
  let d_volume_wingfuel_mass__Fuel_WING_VOLUME_GEOMETRIC_MAX := rho_fuel / GRAV_ENGLISH_LBM in  (* L664 *)
  let d_volume_wingfuel_mass__Fuel_DENSITY := geometric_fuel_vol in  (* L667 *)
  let '(d_max_wingfuel_mass__Design_GROSS_MASS, d_max_wingfuel_mass__OPERATING_MASS,
      d_max_wingfuel_mass__Fuel_WING_VOLUME_GEOMETRIC_MAX, d_max_wingfuel_mass__Fuel_DENSITY) :=  (* L714 *)
    if ltb OEM_wingfuel_wt volume_wingfuel_wt then
      let d_max_wingfuel_mass__Design_GROSS_MASS := d_OEM_wingfuel_mass__Design_GROSS_MASS in  (* L715 *)
      let d_max_wingfuel_mass__OPERATING_MASS := d_OEM_wingfuel_mass__OPERATING_MASS in  (* L718 *)
      let d_max_wingfuel_mass__Fuel_WING_VOLUME_GEOMETRIC_MAX := 0 in  (* L721 *)
      let d_max_wingfuel_mass__Fuel_DENSITY := 0 in  (* L722 *)
      (d_max_wingfuel_mass__Design_GROSS_MASS, d_max_wingfuel_mass__OPERATING_MASS,
          d_max_wingfuel_mass__Fuel_WING_VOLUME_GEOMETRIC_MAX, d_max_wingfuel_mass__Fuel_DENSITY)
    else
      let d_max_wingfuel_mass__Design_GROSS_MASS := 0 in  (* L724 *)
      let d_max_wingfuel_mass__OPERATING_MASS := 0 in  (* L725 *)
      let d_max_wingfuel_mass__Fuel_WING_VOLUME_GEOMETRIC_MAX :=
          d_volume_wingfuel_mass__Fuel_WING_VOLUME_GEOMETRIC_MAX in  (* L726 *)
      let d_max_wingfuel_mass__Fuel_DENSITY := d_volume_wingfuel_mass__Fuel_DENSITY in  (* L729 *)
      (d_max_wingfuel_mass__Design_GROSS_MASS, d_max_wingfuel_mass__OPERATING_MASS,
          d_max_wingfuel_mass__Fuel_WING_VOLUME_GEOMETRIC_MAX, d_max_wingfuel_mass__Fuel_DENSITY) in
  let '(d_Fuel_WING_VOLUME_STRUCTURAL_MAX__Design_GROSS_MASS, d_Fuel_WING_VOLUME_STRUCTURAL_MAX__OPERATING_MASS,
      d_Fuel_WING_VOLUME_STRUCTURAL_MAX__Fuel_WING_VOLUME_GEOMETRIC_MAX,
      d_Fuel_WING_VOLUME_STRUCTURAL_MAX__Fuel_DENSITY) :=  (* L747 *)
    if ltb OEM_wingfuel_wt volume_wingfuel_wt then
      let d_Fuel_WING_VOLUME_STRUCTURAL_MAX__Design_GROSS_MASS := d_OEM_wingfuel_mass__Design_GROSS_MASS / rho_fuel in  (* L748 *)
      let d_Fuel_WING_VOLUME_STRUCTURAL_MAX__OPERATING_MASS := d_OEM_wingfuel_mass__OPERATING_MASS / rho_fuel in  (* L751 *)
      let d_Fuel_WING_VOLUME_STRUCTURAL_MAX__Fuel_WING_VOLUME_GEOMETRIC_MAX := 0 in  (* L754 *)
      let d_Fuel_WING_VOLUME_STRUCTURAL_MAX__Fuel_DENSITY := - max_wingfuel_wt / rho_fuel ^ 2 in  (* L758 *)
      (d_Fuel_WING_VOLUME_STRUCTURAL_MAX__Design_GROSS_MASS, d_Fuel_WING_VOLUME_STRUCTURAL_MAX__OPERATING_MASS,
          d_Fuel_WING_VOLUME_STRUCTURAL_MAX__Fuel_WING_VOLUME_GEOMETRIC_MAX,
          d_Fuel_WING_VOLUME_STRUCTURAL_MAX__Fuel_DENSITY)
    else
      let d_Fuel_WING_VOLUME_STRUCTURAL_MAX__Design_GROSS_MASS := d_max_wingfuel_mass__Design_GROSS_MASS / rho_fuel in  (* L762 *)
      let d_Fuel_WING_VOLUME_STRUCTURAL_MAX__OPERATING_MASS := d_max_wingfuel_mass__OPERATING_MASS / rho_fuel in  (* L765 *)
      let d_Fuel_WING_VOLUME_STRUCTURAL_MAX__Fuel_WING_VOLUME_GEOMETRIC_MAX :=
          d_max_wingfuel_mass__Fuel_WING_VOLUME_GEOMETRIC_MAX / rho_fuel * GRAV_ENGLISH_LBM in  (* L768 *)
      let d_Fuel_WING_VOLUME_STRUCTURAL_MAX__Fuel_DENSITY := d_max_wingfuel_mass__Fuel_DENSITY / rho_fuel -
          max_wingfuel_wt / rho_fuel ^ 2 in  (* L776 *)
      (d_Fuel_WING_VOLUME_STRUCTURAL_MAX__Design_GROSS_MASS, d_Fuel_WING_VOLUME_STRUCTURAL_MAX__OPERATING_MASS,
          d_Fuel_WING_VOLUME_STRUCTURAL_MAX__Fuel_WING_VOLUME_GEOMETRIC_MAX,
          d_Fuel_WING_VOLUME_STRUCTURAL_MAX__Fuel_DENSITY) in
  [(v_OEM_wingfuel_mass, Aircraft_Design_GROSS_MASS, d_OEM_wingfuel_mass__Design_GROSS_MASS);
   (v_OEM_wingfuel_mass, Mission_OPERATING_MASS, d_OEM_wingfuel_mass__OPERATING_MASS);
   (v_OEM_fuel_vol, Aircraft_Design_GROSS_MASS, d_OEM_fuel_vol__Design_GROSS_MASS);
   (v_OEM_fuel_vol, Mission_OPERATING_MASS, d_OEM_fuel_vol__OPERATING_MASS);
   (v_OEM_fuel_vol, Aircraft_Fuel_DENSITY, d_OEM_fuel_vol__Fuel_DENSITY);
   (Aircraft_Fuel_WING_VOLUME_DESIGN, v_fuel_mass_required, d_Fuel_WING_VOLUME_DESIGN__fuel_mass_required);
   (Aircraft_Fuel_WING_VOLUME_DESIGN, Aircraft_Fuel_DENSITY, d_Fuel_WING_VOLUME_DESIGN__Fuel_DENSITY);
   (Aircraft_Fuel_WING_VOLUME_DESIGN, Aircraft_Fuel_VOLUME_MARGIN, d_Fuel_WING_VOLUME_DESIGN__Fuel_VOLUME_MARGIN);
   (v_volume_wingfuel_mass, Aircraft_Fuel_WING_VOLUME_GEOMETRIC_MAX,
       d_volume_wingfuel_mass__Fuel_WING_VOLUME_GEOMETRIC_MAX);
   (v_volume_wingfuel_mass, Aircraft_Fuel_DENSITY, d_volume_wingfuel_mass__Fuel_DENSITY);
   (v_max_wingfuel_mass, Aircraft_Design_GROSS_MASS, d_max_wingfuel_mass__Design_GROSS_MASS);
   (v_max_wingfuel_mass, Mission_OPERATING_MASS, d_max_wingfuel_mass__OPERATING_MASS);
   (v_max_wingfuel_mass, Aircraft_Fuel_WING_VOLUME_GEOMETRIC_MAX,
       d_max_wingfuel_mass__Fuel_WING_VOLUME_GEOMETRIC_MAX);
   (v_max_wingfuel_mass, Aircraft_Fuel_DENSITY, d_max_wingfuel_mass__Fuel_DENSITY);
   (Aircraft_Fuel_WING_VOLUME_STRUCTURAL_MAX, Aircraft_Design_GROSS_MASS,
       d_Fuel_WING_VOLUME_STRUCTURAL_MAX__Design_GROSS_MASS);
   (Aircraft_Fuel_WING_VOLUME_STRUCTURAL_MAX, Mission_OPERATING_MASS,
       d_Fuel_WING_VOLUME_STRUCTURAL_MAX__OPERATING_MASS);
   (Aircraft_Fuel_WING_VOLUME_STRUCTURAL_MAX, Aircraft_Fuel_WING_VOLUME_GEOMETRIC_MAX,
       d_Fuel_WING_VOLUME_STRUCTURAL_MAX__Fuel_WING_VOLUME_GEOMETRIC_MAX);
   (Aircraft_Fuel_WING_VOLUME_STRUCTURAL_MAX, Aircraft_Fuel_DENSITY,
       d_Fuel_WING_VOLUME_STRUCTURAL_MAX__Fuel_DENSITY)].

(** Inputs, outputs and declared partials: /repo/aviary/subsystems/mass/gasp_based/fuel.py L494-582 *)
Definition FuelComponentsSharp (op : options) : comp := {|
  c_ins := [Aircraft_Fuel_DENSITY;
            Aircraft_Design_GROSS_MASS;
            v_fuel_mass_required;
            Aircraft_Fuel_WING_VOLUME_GEOMETRIC_MAX;
            Aircraft_Fuel_VOLUME_MARGIN;
            Aircraft_Fuel_MAX_CAPACITY_MASS;
            Mission_OPERATING_MASS;
            Aircraft_Fuel_UNUSABLE_FUEL_MASS];
  c_outs := [v_OEM_wingfuel_mass;
             v_OEM_fuel_vol;
             Aircraft_Fuel_WING_VOLUME_DESIGN;
             v_payload_mass_max_fuel;
             v_volume_wingfuel_mass;
             v_max_wingfuel_mass;
             Aircraft_Fuel_WING_VOLUME_STRUCTURAL_MAX];
  c_decl := [(v_OEM_wingfuel_mass, Aircraft_Design_GROSS_MASS, 0);
             (v_OEM_wingfuel_mass, Mission_OPERATING_MASS, 0);
             (v_OEM_fuel_vol, Aircraft_Design_GROSS_MASS, 0);
             (v_OEM_fuel_vol, Mission_OPERATING_MASS, 0);
             (v_OEM_fuel_vol, Aircraft_Fuel_DENSITY, 0);
             (Aircraft_Fuel_WING_VOLUME_DESIGN, v_fuel_mass_required, 0);
             (Aircraft_Fuel_WING_VOLUME_DESIGN, Aircraft_Fuel_DENSITY, 0);
             (Aircraft_Fuel_WING_VOLUME_DESIGN, Aircraft_Fuel_VOLUME_MARGIN, 0);
             (v_payload_mass_max_fuel, Aircraft_Design_GROSS_MASS, 1);
             (v_payload_mass_max_fuel, Aircraft_Fuel_MAX_CAPACITY_MASS, - 1);
             (v_payload_mass_max_fuel, Mission_OPERATING_MASS, - 1);
             (v_payload_mass_max_fuel, Aircraft_Fuel_UNUSABLE_FUEL_MASS, 1);
             (v_volume_wingfuel_mass, Aircraft_Fuel_WING_VOLUME_GEOMETRIC_MAX, 0);
             (v_volume_wingfuel_mass, Aircraft_Fuel_DENSITY, 0);
             (v_max_wingfuel_mass, Aircraft_Design_GROSS_MASS, 0);
             (v_max_wingfuel_mass, Mission_OPERATING_MASS, 0);
             (v_max_wingfuel_mass, Aircraft_Fuel_WING_VOLUME_GEOMETRIC_MAX, 0);
             (v_max_wingfuel_mass, Aircraft_Fuel_DENSITY, 0);
             (Aircraft_Fuel_WING_VOLUME_STRUCTURAL_MAX, Aircraft_Design_GROSS_MASS, 0);
             (Aircraft_Fuel_WING_VOLUME_STRUCTURAL_MAX, Mission_OPERATING_MASS, 0);
             (Aircraft_Fuel_WING_VOLUME_STRUCTURAL_MAX, Aircraft_Fuel_WING_VOLUME_GEOMETRIC_MAX, 0);
             (Aircraft_Fuel_WING_VOLUME_STRUCTURAL_MAX, Aircraft_Fuel_DENSITY, 0)];
  c_run := FuelComponentsSharp_compute op; c_jac := FuelComponentsSharp_partials op |}.

(** FuelComponents.compute, /repo/aviary/subsystems/mass/gasp_based/fuel.py L584-623 (one engine type or one node) *)
Definition FuelComponentsSmooth_compute (op : options) (e : env) : list (string * R) :=
  let smooth := ob op Aircraft_Design_SMOOTH_MASS_DISCONTINUITIES in  (* L585 *)
  let rho_fuel := e Aircraft_Fuel_DENSITY * GRAV_ENGLISH_LBM in  (* L587 *)
  let gross_wt_initial := e Aircraft_Design_GROSS_MASS * GRAV_ENGLISH_LBM in  (* L589 *)
  let req_fuel_wt := e v_fuel_mass_required * GRAV_ENGLISH_LBM in  (* L590 *)
  let geometric_fuel_vol := e Aircraft_Fuel_WING_VOLUME_GEOMETRIC_MAX in  (* L591 *)
  let fuel_margin := e Aircraft_Fuel_VOLUME_MARGIN in  (* L592 *)
  let OEW := e Mission_OPERATING_MASS * GRAV_ENGLISH_LBM in  (* L593 *)
  let total_fuel := e Aircraft_Fuel_MAX_CAPACITY_MASS in  (* L595 *)
  let unusable_fuel := e Aircraft_Fuel_UNUSABLE_FUEL_MASS in  (* L596 *)
  let max_fuel_avail := (total_fuel - unusable_fuel) * GRAV_ENGLISH_LBM in  (* L597 *)
  let OEM_wingfuel_wt := gross_wt_initial - OEW in  (* L599 *)
  let OEM_fuel_vol := OEM_wingfuel_wt / rho_fuel in  (* L601 *)
  let design_fuel_vol := (1 + fuel_margin / 100) * req_fuel_wt / rho_fuel in  (* L602 *)
  let volume_wingfuel_wt := geometric_fuel_vol * rho_fuel in  (* L604 *)
  let max_wingfuel_wt := OEM_wingfuel_wt * sigmoidX1 (volume_wingfuel_wt - OEM_wingfuel_wt) 0 (1 / 95) +
      volume_wingfuel_wt * sigmoidX1 (OEM_wingfuel_wt - volume_wingfuel_wt) 0 (1 / 95) in  (* L606 *)
  let payload_wt_max_fuel := gross_wt_initial - OEW - max_fuel_avail in  (* L614 *)
  let max_wingfuel_vol := max_wingfuel_wt / rho_fuel in  (* L615 *)
  let o_OEM_wingfuel_mass := OEM_wingfuel_wt / GRAV_ENGLISH_LBM in  (* L617 *)
  let o_OEM_fuel_vol := OEM_fuel_vol in  (* L618 *)
  let o_Fuel_WING_VOLUME_DESIGN := design_fuel_vol in  (* L619 *)
  let o_payload_mass_max_fuel := payload_wt_max_fuel / GRAV_ENGLISH_LBM in  (* L620 *)
  let o_volume_wingfuel_mass := volume_wingfuel_wt / GRAV_ENGLISH_LBM in  (* L621 *)
  let o_max_wingfuel_mass := max_wingfuel_wt / GRAV_ENGLISH_LBM in  (* L622 *)
  let o_Fuel_WING_VOLUME_STRUCTURAL_MAX := max_wingfuel_vol in  (* L623 *)
  [(v_OEM_wingfuel_mass, o_OEM_wingfuel_mass);
   (v_OEM_fuel_vol, o_OEM_fuel_vol);
   (Aircraft_Fuel_WING_VOLUME_DESIGN, o_Fuel_WING_VOLUME_DESIGN);
   (v_payload_mass_max_fuel, o_payload_mass_max_fuel);
   (v_volume_wingfuel_mass, o_volume_wingfuel_mass);
   (v_max_wingfuel_mass, o_max_wingfuel_mass);
   (Aircraft_Fuel_WING_VOLUME_STRUCTURAL_MAX, o_Fuel_WING_VOLUME_STRUCTURAL_MAX)].

(** FuelComponents.compute_partials, /repo/aviary/subsystems/mass/gasp_based/fuel.py L625-779 *)
Definition FuelComponentsSmooth_partials (op : options) (e : env) : list (string * string * R) :=
  let smooth := ob op Aircraft_Design_SMOOTH_MASS_DISCONTINUITIES in  (* L626 *)
  let rho_fuel := e Aircraft_Fuel_DENSITY * GRAV_ENGLISH_LBM in  (* L628 *)
  let gross_wt_initial := e Aircraft_Design_GROSS_MASS * GRAV_ENGLISH_LBM in  (* L629 *)
  let OEW := e Mission_OPERATING_MASS * GRAV_ENGLISH_LBM in  (* L630 *)
  let req_fuel_wt := e v_fuel_mass_required * GRAV_ENGLISH_LBM in  (* L631 *)
  let geometric_fuel_vol := e Aircraft_Fuel_WING_VOLUME_GEOMETRIC_MAX in  (* L632 *)
  let fuel_margin := e Aircraft_Fuel_VOLUME_MARGIN in  (* L633 *)
  let OEM_wingfuel_wt := gross_wt_initial - OEW in  (* L635 *)
  let volume_wingfuel_wt := geometric_fuel_vol * rho_fuel in  (* L636 *)
  let max_wingfuel_wt := OEM_wingfuel_wt * sigmoidX1 (volume_wingfuel_wt - OEM_wingfuel_wt) 0 (1 / 95) +
      volume_wingfuel_wt * sigmoidX1 (OEM_wingfuel_wt - volume_wingfuel_wt) 0 (1 / 95) in  (* L638 *)
  let d_OEM_wingfuel_mass__Design_GROSS_MASS := 1 in  (* L647 *)
  let dOEMwingfuelWt_dGTOW := d_OEM_wingfuel_mass__Design_GROSS_MASS in  (* L647 *)
  let d_OEM_wingfuel_mass__OPERATING_MASS := - 1 in  (* L648 *)
  let dOEMwingfuelWt_dOEW := d_OEM_wingfuel_mass__OPERATING_MASS in  (* L648 *)
  let d_OEM_fuel_vol__Design_GROSS_MASS := 1 / rho_fuel * GRAV_ENGLISH_LBM in  (* L650 *)
  let d_OEM_fuel_vol__OPERATING_MASS := - 1 / rho_fuel * GRAV_ENGLISH_LBM in  (* L651 *)
  let d_OEM_fuel_vol__Fuel_DENSITY := - OEM_wingfuel_wt / rho_fuel ^ 2 * GRAV_ENGLISH_LBM in  (* L652 *)
  let d_Fuel_WING_VOLUME_DESIGN__fuel_mass_required := (1 + fuel_margin / 100) / rho_fuel * GRAV_ENGLISH_LBM in  (* L654 *)
  let d_Fuel_WING_VOLUME_DESIGN__Fuel_DENSITY := - (1 + fuel_margin / 100) * req_fuel_wt / rho_fuel ^ 2 *
      GRAV_ENGLISH_LBM in  (* L657 *)
  let d_Fuel_WING_VOLUME_DESIGN__Fuel_VOLUME_MARGIN := 1 / 100 * req_fuel_wt / rho_fuel in  (* L660 *)
  let d_volume_wingfuel_mass__Fuel_WING_VOLUME_GEOMETRIC_MAX := rho_fuel / GRAV_ENGLISH_LBM in  (* L664 *)
  let d_volume_wingfuel_mass__Fuel_DENSITY := geometric_fuel_vol in  (* L667 *)
  let dMaxWFWt_dGTOW := OEM_wingfuel_wt * dSigmoidX1 (volume_wingfuel_wt - OEM_wingfuel_wt) 0 (1 / 95) *
      dOEMwingfuelWt_dGTOW + dOEMwingfuelWt_dGTOW * sigmoidX1 (volume_wingfuel_wt - OEM_wingfuel_wt) 0 (1 / 95) +
      volume_wingfuel_wt * dSigmoidX1 (OEM_wingfuel_wt - volume_wingfuel_wt) 0 (1 / 95) * dOEMwingfuelWt_dGTOW in  (* L670 *)
  let dMaxWFWt_dOEW := OEM_wingfuel_wt * dSigmoidX1 (volume_wingfuel_wt - OEM_wingfuel_wt) 0 (1 / 95) *
      dOEMwingfuelWt_dOEW + dOEMwingfuelWt_dOEW * sigmoidX1 (volume_wingfuel_wt - OEM_wingfuel_wt) 0 (1 / 95) +
      volume_wingfuel_wt * dSigmoidX1 (OEM_wingfuel_wt - volume_wingfuel_wt) 0 (1 / 95) * dOEMwingfuelWt_dOEW in  (* L679 *)
  let dMaxWFWt_dGeomFuelVol := OEM_wingfuel_wt * dSigmoidX1 (volume_wingfuel_wt - OEM_wingfuel_wt) 0 (1 / 95) *
      rho_fuel + volume_wingfuel_wt * dSigmoidX1 (OEM_wingfuel_wt - volume_wingfuel_wt) 0 (1 / 95) * rho_fuel +
      rho_fuel * sigmoidX1 (OEM_wingfuel_wt - volume_wingfuel_wt) 0 (1 / 95) in  (* L688 *)
  let dMaxWFWt_dRhoFuel := OEM_wingfuel_wt * dSigmoidX1 (volume_wingfuel_wt - OEM_wingfuel_wt) 0 (1 / 95) *
      geometric_fuel_vol + volume_wingfuel_wt * dSigmoidX1 (OEM_wingfuel_wt - volume_wingfuel_wt) 0 (1 / 95) *
      geometric_fuel_vol + geometric_fuel_vol * sigmoidX1 (OEM_wingfuel_wt - volume_wingfuel_wt) 0 (1 / 95) in  (* L697 *)
  let d_max_wingfuel_mass__Design_GROSS_MASS := dMaxWFWt_dGTOW in  (* L707 *)
  let d_max_wingfuel_mass__OPERATING_MASS := dMaxWFWt_dOEW in  (* L708 *)
  let d_max_wingfuel_mass__Fuel_WING_VOLUME_GEOMETRIC_MAX := dMaxWFWt_dGeomFuelVol / GRAV_ENGLISH_LBM in  (* L709 *)
  let d_max_wingfuel_mass__Fuel_DENSITY := dMaxWFWt_dRhoFuel in  (* L712 *)
  let d_Fuel_WING_VOLUME_STRUCTURAL_MAX__Design_GROSS_MASS := dMaxWFWt_dGTOW / rho_fuel in  (* L734 *)
  let d_Fuel_WING_VOLUME_STRUCTURAL_MAX__OPERATING_MASS := dMaxWFWt_dOEW / rho_fuel in  (* L737 *)
  let d_Fuel_WING_VOLUME_STRUCTURAL_MAX__Fuel_WING_VOLUME_GEOMETRIC_MAX := dMaxWFWt_dGeomFuelVol / rho_fuel in  (* L740 *)
  let d_Fuel_WING_VOLUME_STRUCTURAL_MAX__Fuel_DENSITY := dMaxWFWt_dRhoFuel / rho_fuel - max_wingfuel_wt / rho_fuel ^ 2
      in  (* L743 *)
  [(v_OEM_wingfuel_mass, Aircraft_Design_GROSS_MASS, d_OEM_wingfuel_mass__Design_GROSS_MASS);
   (v_OEM_wingfuel_mass, Mission_OPERATING_MASS, d_OEM_wingfuel_mass__OPERATING_MASS);
   (v_OEM_fuel_vol, Aircraft_Design_GROSS_MASS, d_OEM_fuel_vol__Design_GROSS_MASS);
   (v_OEM_fuel_vol, Mission_OPERATING_MASS, d_OEM_fuel_vol__OPERATING_MASS);
   (v_OEM_fuel_vol, Aircraft_Fuel_DENSITY, d_OEM_fuel_vol__Fuel_DENSITY);
   (Aircraft_Fuel_WING_VOLUME_DESIGN, v_fuel_mass_required, d_Fuel_WING_VOLUME_DESIGN__fuel_mass_required);
   (Aircraft_Fuel_WING_VOLUME_DESIGN, Aircraft_Fuel_DENSITY, d_Fuel_WING_VOLUME_DESIGN__Fuel_DENSITY);
   (Aircraft_Fuel_WING_VOLUME_DESIGN, Aircraft_Fuel_VOLUME_MARGIN, d_Fuel_WING_VOLUME_DESIGN__Fuel_VOLUME_MARGIN);
   (v_volume_wingfuel_mass, Aircraft_Fuel_WING_VOLUME_GEOMETRIC_MAX,
       d_volume_wingfuel_mass__Fuel_WING_VOLUME_GEOMETRIC_MAX);
   (v_volume_wingfuel_mass, Aircraft_Fuel_DENSITY, d_volume_wingfuel_mass__Fuel_DENSITY);
   (v_max_wingfuel_mass, Aircraft_Design_GROSS_MASS, d_max_wingfuel_mass__Design_GROSS_MASS);
   (v_max_wingfuel_mass, Mission_OPERATING_MASS, d_max_wingfuel_mass__OPERATING_MASS);
   (v_max_wingfuel_mass, Aircraft_Fuel_WING_VOLUME_GEOMETRIC_MAX,
       d_max_wingfuel_mass__Fuel_WING_VOLUME_GEOMETRIC_MAX);
   (v_max_wingfuel_mass, Aircraft_Fuel_DENSITY, d_max_wingfuel_mass__Fuel_DENSITY);
   (Aircraft_Fuel_WING_VOLUME_STRUCTURAL_MAX, Aircraft_Design_GROSS_MASS,
       d_Fuel_WING_VOLUME_STRUCTURAL_MAX__Design_GROSS_MASS);
   (Aircraft_Fuel_WING_VOLUME_STRUCTURAL_MAX, Mission_OPERATING_MASS,
       d_Fuel_WING_VOLUME_STRUCTURAL_MAX__OPERATING_MASS);
   (Aircraft_Fuel_WING_VOLUME_STRUCTURAL_MAX, Aircraft_Fuel_WING_VOLUME_GEOMETRIC_MAX,
       d_Fuel_WING_VOLUME_STRUCTURAL_MAX__Fuel_WING_VOLUME_GEOMETRIC_MAX);
   (Aircraft_Fuel_WING_VOLUME_STRUCTURAL_MAX, Aircraft_Fuel_DENSITY,
       d_Fuel_WING_VOLUME_STRUCTURAL_MAX__Fuel_DENSITY)].

(** Inputs, outputs and declared partials: /repo/aviary/subsystems/mass/gasp_based/fuel.py L494-582 *)
Definition FuelComponentsSmooth (op : options) : comp := {|
  c_ins := [Aircraft_Fuel_DENSITY;
            Aircraft_Design_GROSS_MASS;
            v_fuel_mass_required;
            Aircraft_Fuel_WING_VOLUME_GEOMETRIC_MAX;
            Aircraft_Fuel_VOLUME_MARGIN;
            Aircraft_Fuel_MAX_CAPACITY_MASS;
            Mission_OPERATING_MASS;
            Aircraft_Fuel_UNUSABLE_FUEL_MASS];
  c_outs := [v_OEM_wingfuel_mass;
             v_OEM_fuel_vol;
             Aircraft_Fuel_WING_VOLUME_DESIGN;
             v_payload_mass_max_fuel;
             v_volume_wingfuel_mass;
             v_max_wingfuel_mass;
             Aircraft_Fuel_WING_VOLUME_STRUCTURAL_MAX];
  c_decl := [(v_OEM_wingfuel_mass, Aircraft_Design_GROSS_MASS, 0);
             (v_OEM_wingfuel_mass, Mission_OPERATING_MASS, 0);
             (v_OEM_fuel_vol, Aircraft_Design_GROSS_MASS, 0);
             (v_OEM_fuel_vol, Mission_OPERATING_MASS, 0);
             (v_OEM_fuel_vol, Aircraft_Fuel_DENSITY, 0);
             (Aircraft_Fuel_WING_VOLUME_DESIGN, v_fuel_mass_required, 0);
             (Aircraft_Fuel_WING_VOLUME_DESIGN, Aircraft_Fuel_DENSITY, 0);
             (Aircraft_Fuel_WING_VOLUME_DESIGN, Aircraft_Fuel_VOLUME_MARGIN, 0);
             (v_payload_mass_max_fuel, Aircraft_Design_GROSS_MASS, 1);
             (v_payload_mass_max_fuel, Aircraft_Fuel_MAX_CAPACITY_MASS, - 1);
             (v_payload_mass_max_fuel, Mission_OPERATING_MASS, - 1);
             (v_payload_mass_max_fuel, Aircraft_Fuel_UNUSABLE_FUEL_MASS, 1);
             (v_volume_wingfuel_mass, Aircraft_Fuel_WING_VOLUME_GEOMETRIC_MAX, 0);
             (v_volume_wingfuel_mass, Aircraft_Fuel_DENSITY, 0);
             (v_max_wingfuel_mass, Aircraft_Design_GROSS_MASS, 0);
             (v_max_wingfuel_mass, Mission_OPERATING_MASS, 0);
             (v_max_wingfuel_mass, Aircraft_Fuel_WING_VOLUME_GEOMETRIC_MAX, 0);
             (v_max_wingfuel_mass, Aircraft_Fuel_DENSITY, 0);
             (Aircraft_Fuel_WING_VOLUME_STRUCTURAL_MAX, Aircraft_Design_GROSS_MASS, 0);
             (Aircraft_Fuel_WING_VOLUME_STRUCTURAL_MAX, Mission_OPERATING_MASS, 0);
             (Aircraft_Fuel_WING_VOLUME_STRUCTURAL_MAX, Aircraft_Fuel_WING_VOLUME_GEOMETRIC_MAX, 0);
             (Aircraft_Fuel_WING_VOLUME_STRUCTURAL_MAX, Aircraft_Fuel_DENSITY, 0)];
  c_run := FuelComponentsSmooth_compute op; c_jac := FuelComponentsSmooth_partials op |}.

(** FuelSysAndFullFuselageMass.compute, /repo/aviary/subsystems/mass/gasp_based/fuel.py L829-850 (one engine type or one node) *)
Definition FuelSysAndFullFuselageMass_compute (op : options) (e : env) : list (string * R) :=
  let gross_wt_initial := e Aircraft_Design_GROSS_MASS * GRAV_ENGLISH_LBM in  (* L830 *)
  let total_wing_wt := e Aircraft_Wing_MASS * GRAV_ENGLISH_LBM in  (* L831 *)
  let wing_mounted_wt := e v_wing_mounted_mass * GRAV_ENGLISH_LBM in  (* L832 *)
  let CK21 := e Aircraft_Fuel_FUEL_SYSTEM_MASS_SCALER in  (* L833 *)
  let c_mass_trend_fuel_sys := e Aircraft_Fuel_FUEL_SYSTEM_MASS_COEFFICIENT in  (* L834 *)
  let rho_fuel := e Aircraft_Fuel_DENSITY * GRAV_ENGLISH_LBM in  (* L835 *)
  let fuel_wt_des := e v_fuel_mass * GRAV_ENGLISH_LBM in  (* L836 *)
  let fuel_margin := e Aircraft_Fuel_VOLUME_MARGIN in  (* L837 *)
  let wingfuel_wt_min := e v_wingfuel_mass_min * GRAV_ENGLISH_LBM in  (* L838 *)
  let o_Fuel_FUEL_SYSTEM_MASS := CK21 * (6687 / 1000 / rho_fuel) * c_mass_trend_fuel_sys * fuel_wt_des * (1 +
      fuel_margin / 100) / GRAV_ENGLISH_LBM in  (* L840 *)
  let o_fus_mass_full := (gross_wt_initial - total_wing_wt - wingfuel_wt_min - wing_mounted_wt) / GRAV_ENGLISH_LBM in  (* L848 *)
  [(Aircraft_Fuel_FUEL_SYSTEM_MASS, o_Fuel_FUEL_SYSTEM_MASS);
   (v_fus_mass_full, o_fus_mass_full)].

(** FuelSysAndFullFuselageMass.compute_partials, /repo/aviary/subsystems/mass/gasp_based/fuel.py L852-891 *)
Definition FuelSysAndFullFuselageMass_partials (op : options) (e : env) : list (string * string * R) :=
  let CK21 := e Aircraft_Fuel_FUEL_SYSTEM_MASS_SCALER in  (* L853 *)
  let c_mass_trend_fuel_sys := e Aircraft_Fuel_FUEL_SYSTEM_MASS_COEFFICIENT in  (* L854 *)
  let rho_fuel := e Aircraft_Fuel_DENSITY * GRAV_ENGLISH_LBM in  (* L855 *)
  let fuel_wt_des := e v_fuel_mass * GRAV_ENGLISH_LBM in  (* L856 *)
  let fuel_margin := e Aircraft_Fuel_VOLUME_MARGIN in  (* L857 *)
  let d_Fuel_FUEL_SYSTEM_MASS__Fuel_FUEL_SYSTEM_MASS_SCALER := 6687 / 1000 / rho_fuel * c_mass_trend_fuel_sys *
      fuel_wt_des * (1 + fuel_margin / 100) / GRAV_ENGLISH_LBM in  (* L859 *)
  let d_Fuel_FUEL_SYSTEM_MASS__Fuel_DENSITY := - CK21 * (6687 / 1000 / rho_fuel ^ 2) * c_mass_trend_fuel_sys *
      fuel_wt_des * (1 + fuel_margin / 100) in  (* L866 *)
  let d_Fuel_FUEL_SYSTEM_MASS__Fuel_FUEL_SYSTEM_MASS_COEFFICIENT := CK21 * (6687 / 1000 / rho_fuel) * fuel_wt_des * (1
      + fuel_margin / 100) / GRAV_ENGLISH_LBM in  (* L873 *)
  let d_Fuel_FUEL_SYSTEM_MASS__fuel_mass := CK21 * (6687 / 1000 / rho_fuel) * c_mass_trend_fuel_sys * (1 + fuel_margin
      / 100) in  (* L876 *)
  let d_Fuel_FUEL_SYSTEM_MASS__Fuel_VOLUME_MARGIN := CK21 * (6687 / 1000 / rho_fuel) * c_mass_trend_fuel_sys *
      fuel_wt_des * (1 / 100) / GRAV_ENGLISH_LBM in  (* L879 *)
  let d_fus_mass_full__Design_GROSS_MASS := 1 in  (* L888 *)
  let d_fus_mass_full__Wing_MASS := - 1 in  (* L889 *)
  let d_fus_mass_full__wingfuel_mass_min := - 1 in  (* L890 *)
  let d_fus_mass_full__wing_mounted_mass := - 1 in  (* L891 *)
  [(Aircraft_Fuel_FUEL_SYSTEM_MASS, Aircraft_Fuel_FUEL_SYSTEM_MASS_SCALER,
      d_Fuel_FUEL_SYSTEM_MASS__Fuel_FUEL_SYSTEM_MASS_SCALER);
   (Aircraft_Fuel_FUEL_SYSTEM_MASS, Aircraft_Fuel_DENSITY, d_Fuel_FUEL_SYSTEM_MASS__Fuel_DENSITY);
   (Aircraft_Fuel_FUEL_SYSTEM_MASS, Aircraft_Fuel_FUEL_SYSTEM_MASS_COEFFICIENT,
       d_Fuel_FUEL_SYSTEM_MASS__Fuel_FUEL_SYSTEM_MASS_COEFFICIENT);
   (Aircraft_Fuel_FUEL_SYSTEM_MASS, v_fuel_mass, d_Fuel_FUEL_SYSTEM_MASS__fuel_mass);
   (Aircraft_Fuel_FUEL_SYSTEM_MASS, Aircraft_Fuel_VOLUME_MARGIN, d_Fuel_FUEL_SYSTEM_MASS__Fuel_VOLUME_MARGIN);
   (v_fus_mass_full, Aircraft_Design_GROSS_MASS, d_fus_mass_full__Design_GROSS_MASS);
   (v_fus_mass_full, Aircraft_Wing_MASS, d_fus_mass_full__Wing_MASS);
   (v_fus_mass_full, v_wingfuel_mass_min, d_fus_mass_full__wingfuel_mass_min);
   (v_fus_mass_full, v_wing_mounted_mass, d_fus_mass_full__wing_mounted_mass)].

(** Inputs, outputs and declared partials: /repo/aviary/subsystems/mass/gasp_based/fuel.py L785-827 *)
Definition FuelSysAndFullFuselageMass (op : options) : comp := {|
  c_ins := [Aircraft_Design_GROSS_MASS;
            Aircraft_Wing_MASS;
            v_wing_mounted_mass;
            Aircraft_Fuel_FUEL_SYSTEM_MASS_SCALER;
            Aircraft_Fuel_FUEL_SYSTEM_MASS_COEFFICIENT;
            Aircraft_Fuel_DENSITY;
            v_fuel_mass;
            Aircraft_Fuel_VOLUME_MARGIN;
            v_wingfuel_mass_min];
  c_outs := [v_fus_mass_full;
             Aircraft_Fuel_FUEL_SYSTEM_MASS];
  c_decl := [(Aircraft_Fuel_FUEL_SYSTEM_MASS, Aircraft_Fuel_FUEL_SYSTEM_MASS_SCALER, 0);
             (Aircraft_Fuel_FUEL_SYSTEM_MASS, Aircraft_Fuel_DENSITY, 0);
             (Aircraft_Fuel_FUEL_SYSTEM_MASS, Aircraft_Fuel_FUEL_SYSTEM_MASS_COEFFICIENT, 0);
             (Aircraft_Fuel_FUEL_SYSTEM_MASS, v_fuel_mass, 0);
             (Aircraft_Fuel_FUEL_SYSTEM_MASS, Aircraft_Fuel_VOLUME_MARGIN, 0);
             (v_fus_mass_full, Aircraft_Design_GROSS_MASS, 0);
             (v_fus_mass_full, Aircraft_Wing_MASS, 0);
             (v_fus_mass_full, v_wingfuel_mass_min, 0);
             (v_fus_mass_full, v_wing_mounted_mass, 0)];
  c_run := FuelSysAndFullFuselageMass_compute op; c_jac := FuelSysAndFullFuselageMass_partials op |}.

(** FuselageMass.compute, /repo/aviary/subsystems/mass/gasp_based/fuel.py L943-971 (one engine type or one node) *)
Definition FuselageMass_compute (op : options) (e : env) : list (string * R) :=
  let CK11 := e Aircraft_Fuselage_MASS_SCALER in  (* L944 *)
  let fus_wt_full := e v_fus_mass_full * GRAV_ENGLISH_LBM in  (* L945 *)
  let c_fuselage := e Aircraft_Fuselage_MASS_COEFFICIENT in  (* L946 *)
  let fus_SA := e Aircraft_Fuselage_WETTED_AREA in  (* L947 *)
  let cabin_width := e Aircraft_Fuselage_AVG_DIAMETER in  (* L948 *)
  let cabin_len_tailboom := e Aircraft_TailBoom_LENGTH in  (* L949 *)
  let pylon_len := e v_pylon_len in  (* L950 *)
  let min_dive_vel := e v_min_dive_vel in  (* L951 *)
  let p_diff_fus := e Aircraft_Fuselage_PRESSURE_DIFFERENTIAL in  (* L952 *)
  let ULF := e Aircraft_Wing_ULTIMATE_LOAD_FACTOR in  (* L953 *)
  let WAT := e v_MAT * GRAV_ENGLISH_LBM in  (* L954 *)
  let fus_wt := CK11 * (c_fuselage * ((fus_wt_full / 10000) ** (7 / 10) * (fus_SA / 1000) * cabin_width *
      (cabin_len_tailboom + pylon_len) ** (5 / 10) * log10 min_dive_vel * (p_diff_fus + 1) ** (2 / 10) * ULF ** (3 /
      10)) ** (508 / 1000) + WAT) in  (* L956 *)
  let o_Fuselage_MASS := fus_wt / GRAV_ENGLISH_LBM in  (* L971 *)
  [(Aircraft_Fuselage_MASS, o_Fuselage_MASS)].

(** FuselageMass.compute_partials, /repo/aviary/subsystems/mass/gasp_based/fuel.py L973-1140 *)
Definition FuselageMass_partials (op : options) (e : env) : list (string * string * R) :=
  let CK11 := e Aircraft_Fuselage_MASS_SCALER in  (* L974 *)
  let fus_wt_full := e v_fus_mass_full * GRAV_ENGLISH_LBM in  (* L975 *)
  let c_fuselage := e Aircraft_Fuselage_MASS_COEFFICIENT in  (* L976 *)
  let fus_SA := e Aircraft_Fuselage_WETTED_AREA in  (* L977 *)
  let cabin_width := e Aircraft_Fuselage_AVG_DIAMETER in  (* L978 *)
  let cabin_len_tailboom := e Aircraft_TailBoom_LENGTH in  (* L979 *)
  let pylon_len := e v_pylon_len in  (* L980 *)
  let min_dive_vel := e v_min_dive_vel in  (* L981 *)
  let p_diff_fus := e Aircraft_Fuselage_PRESSURE_DIFFERENTIAL in  (* L982 *)
  let ULF := e Aircraft_Wing_ULTIMATE_LOAD_FACTOR in  (* L983 *)
  let WAT := e v_MAT * GRAV_ENGLISH_LBM in  (* L984 *)
  let fus_wt := CK11 * (c_fuselage * ((fus_wt_full / 10000) ** (7 / 10) * (fus_SA / 1000) * cabin_width *
      (cabin_len_tailboom + pylon_len) ** (5 / 10) * log10 min_dive_vel * (p_diff_fus + 1) ** (2 / 10) * ULF ** (3 /
      10)) ** (508 / 1000) + WAT) in  (* L986 *)
  let x := CK11 * (508 / 1000) * ((fus_wt_full / 10000) ** (7 / 10) * (fus_SA / 1000) * cabin_width *
      (cabin_len_tailboom + pylon_len) ** (5 / 10) * log10 min_dive_vel * (p_diff_fus + 1) ** (2 / 10) * ULF ** (3 /
      10)) ** (508 / 1000 - 1) in  (* L1001 *)
  let dFusWt_dCFus := CK11 * ((fus_wt_full / 10000) ** (7 / 10) * (fus_SA / 1000) * cabin_width * (cabin_len_tailboom
      + pylon_len) ** (5 / 10) * log10 min_dive_vel * (p_diff_fus + 1) ** (2 / 10) * ULF ** (3 / 10)) ** (508 / 1000)
      in  (* L1015 *)
  let dFusWt_dFusWtFull := c_fuselage * x * (7 / 10) * (fus_wt_full / 10000) ** (7 / 10 - 1) * (1 / 10000) * (fus_SA /
      1000) * cabin_width * (cabin_len_tailboom + pylon_len) ** (5 / 10) * log10 min_dive_vel * (p_diff_fus + 1) ** (2
      / 10) * ULF ** (3 / 10) in  (* L1028 *)
  let dFusWt_dFusSA := c_fuselage * x * (fus_wt_full / 10000) ** (7 / 10) * (1 / 1000) * cabin_width *
      (cabin_len_tailboom + pylon_len) ** (5 / 10) * log10 min_dive_vel * (p_diff_fus + 1) ** (2 / 10) * ULF ** (3 /
      10) in  (* L1041 *)
  let dFusWt_dCabWidth := c_fuselage * x * (fus_wt_full / 10000) ** (7 / 10) * (fus_SA / 1000) * (cabin_len_tailboom +
      pylon_len) ** (5 / 10) * log10 min_dive_vel * (p_diff_fus + 1) ** (2 / 10) * ULF ** (3 / 10) in  (* L1052 *)
  let dFusWt_dCabLenBoom := c_fuselage * x * (fus_wt_full / 10000) ** (7 / 10) * (fus_SA / 1000) * cabin_width * (5 /
      10) * (cabin_len_tailboom + pylon_len) ** (- 5 / 10) * log10 min_dive_vel * (p_diff_fus + 1) ** (2 / 10) * ULF
      ** (3 / 10) in  (* L1062 *)
  let dFusWt_dPylonLen := c_fuselage * x * (fus_wt_full / 10000) ** (7 / 10) * (fus_SA / 1000) * cabin_width * (5 /
      10) * (cabin_len_tailboom + pylon_len) ** (- 5 / 10) * log10 min_dive_vel * (p_diff_fus + 1) ** (2 / 10) * ULF
      ** (3 / 10) in  (* L1074 *)
  let dFusWt_dMinDiveVel := c_fuselage * x * (fus_wt_full / 10000) ** (7 / 10) * (fus_SA / 1000) * cabin_width *
      (cabin_len_tailboom + pylon_len) ** (5 / 10) * 1 / (min_dive_vel * ln 10) * (p_diff_fus + 1) ** (2 / 10) * ULF
      ** (3 / 10) in  (* L1086 *)
  let dFusWt_dPdiffFus := c_fuselage * x * (fus_wt_full / 10000) ** (7 / 10) * (fus_SA / 1000) * cabin_width *
      (cabin_len_tailboom + pylon_len) ** (5 / 10) * log10 min_dive_vel * (2 / 10) * (p_diff_fus + 1) ** (2 / 10 - 1)
      * ULF ** (3 / 10) in  (* L1098 *)
  let dFusWt_dULF := c_fuselage * x * (fus_wt_full / 10000) ** (7 / 10) * (fus_SA / 1000) * cabin_width *
      (cabin_len_tailboom + pylon_len) ** (5 / 10) * log10 min_dive_vel * (p_diff_fus + 1) ** (2 / 10) * (3 / 10) *
      ULF ** (3 / 10 - 1) in  (* L1110 *)
  let d_Fuselage_MASS__Fuselage_MASS_SCALER := fus_wt / CK11 / GRAV_ENGLISH_LBM in  (* L1122 *)
  let d_Fuselage_MASS__Fuselage_MASS_COEFFICIENT := dFusWt_dCFus / GRAV_ENGLISH_LBM in  (* L1123 *)
  let d_Fuselage_MASS__fus_mass_full := dFusWt_dFusWtFull in  (* L1126 *)
  let d_Fuselage_MASS__Fuselage_WETTED_AREA := dFusWt_dFusSA / GRAV_ENGLISH_LBM in  (* L1127 *)
  let d_Fuselage_MASS__Fuselage_AVG_DIAMETER := dFusWt_dCabWidth / GRAV_ENGLISH_LBM in  (* L1128 *)
  let d_Fuselage_MASS__TailBoom_LENGTH := dFusWt_dCabLenBoom / GRAV_ENGLISH_LBM in  (* L1131 *)
  let d_Fuselage_MASS__pylon_len := dFusWt_dPylonLen / GRAV_ENGLISH_LBM in  (* L1132 *)
  let d_Fuselage_MASS__min_dive_vel := dFusWt_dMinDiveVel / GRAV_ENGLISH_LBM in  (* L1133 *)
  let d_Fuselage_MASS__Fuselage_PRESSURE_DIFFERENTIAL := dFusWt_dPdiffFus / GRAV_ENGLISH_LBM in  (* L1134 *)
  let d_Fuselage_MASS__Wing_ULTIMATE_LOAD_FACTOR := dFusWt_dULF / GRAV_ENGLISH_LBM in  (* L1137 *)
  let d_Fuselage_MASS__MAT := 1 in  (* L1140 *)
  [(Aircraft_Fuselage_MASS, Aircraft_Fuselage_MASS_SCALER, d_Fuselage_MASS__Fuselage_MASS_SCALER);
   (Aircraft_Fuselage_MASS, Aircraft_Fuselage_MASS_COEFFICIENT, d_Fuselage_MASS__Fuselage_MASS_COEFFICIENT);
   (Aircraft_Fuselage_MASS, v_fus_mass_full, d_Fuselage_MASS__fus_mass_full);
   (Aircraft_Fuselage_MASS, Aircraft_Fuselage_WETTED_AREA, d_Fuselage_MASS__Fuselage_WETTED_AREA);
   (Aircraft_Fuselage_MASS, Aircraft_Fuselage_AVG_DIAMETER, d_Fuselage_MASS__Fuselage_AVG_DIAMETER);
   (Aircraft_Fuselage_MASS, Aircraft_TailBoom_LENGTH, d_Fuselage_MASS__TailBoom_LENGTH);
   (Aircraft_Fuselage_MASS, v_pylon_len, d_Fuselage_MASS__pylon_len);
   (Aircraft_Fuselage_MASS, v_min_dive_vel, d_Fuselage_MASS__min_dive_vel);
   (Aircraft_Fuselage_MASS, Aircraft_Fuselage_PRESSURE_DIFFERENTIAL, d_Fuselage_MASS__Fuselage_PRESSURE_DIFFERENTIAL);
   (Aircraft_Fuselage_MASS, Aircraft_Wing_ULTIMATE_LOAD_FACTOR, d_Fuselage_MASS__Wing_ULTIMATE_LOAD_FACTOR);
   (Aircraft_Fuselage_MASS, v_MAT, d_Fuselage_MASS__MAT)].

(** Inputs, outputs and declared partials: /repo/aviary/subsystems/mass/gasp_based/fuel.py L897-941 *)
Definition FuselageMass (op : options) : comp := {|
  c_ins := [v_fus_mass_full;
            Aircraft_Fuselage_MASS_SCALER;
            Aircraft_Fuselage_MASS_COEFFICIENT;
            Aircraft_Fuselage_WETTED_AREA;
            Aircraft_Fuselage_AVG_DIAMETER;
            Aircraft_TailBoom_LENGTH;
            v_pylon_len;
            v_min_dive_vel;
            Aircraft_Fuselage_PRESSURE_DIFFERENTIAL;
            Aircraft_Wing_ULTIMATE_LOAD_FACTOR;
            v_MAT];
  c_outs := [Aircraft_Fuselage_MASS];
  c_decl := [(Aircraft_Fuselage_MASS, Aircraft_Fuselage_MASS_SCALER, 0);
             (Aircraft_Fuselage_MASS, Aircraft_Fuselage_MASS_COEFFICIENT, 0);
             (Aircraft_Fuselage_MASS, v_fus_mass_full, 0);
             (Aircraft_Fuselage_MASS, Aircraft_Fuselage_WETTED_AREA, 0);
             (Aircraft_Fuselage_MASS, Aircraft_Fuselage_AVG_DIAMETER, 0);
             (Aircraft_Fuselage_MASS, Aircraft_TailBoom_LENGTH, 0);
             (Aircraft_Fuselage_MASS, v_pylon_len, 0);
             (Aircraft_Fuselage_MASS, v_min_dive_vel, 0);
             (Aircraft_Fuselage_MASS, Aircraft_Fuselage_PRESSURE_DIFFERENTIAL, 0);
             (Aircraft_Fuselage_MASS, Aircraft_Wing_ULTIMATE_LOAD_FACTOR, 0);
             (Aircraft_Fuselage_MASS, v_MAT, 0)];
  c_run := FuselageMass_compute op; c_jac := FuselageMass_partials op |}.

(** BWBFuselageMass.compute, /repo/aviary/subsystems/mass/gasp_based/fuel.py L1176-1189 (one engine type or one node) *)
Definition BWBFuselageMass_compute (op : options) (e : env) : list (string * R) :=
  let c_fuselage := e Aircraft_Fuselage_MASS_COEFFICIENT in  (* L1177 *)
  let gross_wt_initial := e Aircraft_Design_GROSS_MASS * GRAV_ENGLISH_LBM in  (* L1178 *)
  let area_cabin := e Aircraft_Fuselage_CABIN_AREA in  (* L1179 *)
  let area_aft_to_total := e Aircraft_Fuselage_WETTED_AREA_RATIO_AFTBODY_TO_TOTAL in  (* L1180 *)
  let uwt_aft := e Aircraft_Fuselage_AFTBODY_MASS_PER_UNIT_AREA * GRAV_ENGLISH_LBM in  (* L1181 *)
  let fus_SA := e Aircraft_Fuselage_WETTED_AREA in  (* L1182 *)
  let CK11 := e Aircraft_Fuselage_MASS_SCALER in  (* L1183 *)
  let fus_wt_fb := c_fuselage * (18 / 10) * gross_wt_initial ** (167 / 1000) * area_cabin ** (106 / 100) in  (* L1185 *)
  let fus_wt_ab := c_fuselage * fus_SA * area_aft_to_total * uwt_aft in  (* L1186 *)
  let fus_wt := fus_wt_fb + fus_wt_ab in  (* L1187 *)
  let o_Fuselage_MASS := CK11 * fus_wt / GRAV_ENGLISH_LBM in  (* L1189 *)
  [(Aircraft_Fuselage_MASS, o_Fuselage_MASS)].

(** BWBFuselageMass.compute_partials, /repo/aviary/subsystems/mass/gasp_based/fuel.py L1191-1224 *)
Definition BWBFuselageMass_partials (op : options) (e : env) : list (string * string * R) :=
  let c_fuselage := e Aircraft_Fuselage_MASS_COEFFICIENT in  (* L1192 *)
  let gross_wt_initial := e Aircraft_Design_GROSS_MASS * GRAV_ENGLISH_LBM in  (* L1193 *)
  let area_cabin := e Aircraft_Fuselage_CABIN_AREA in  (* L1194 *)
  let area_aft_to_total := e Aircraft_Fuselage_WETTED_AREA_RATIO_AFTBODY_TO_TOTAL in  (* L1195 *)
  let uwt_aft := e Aircraft_Fuselage_AFTBODY_MASS_PER_UNIT_AREA * GRAV_ENGLISH_LBM in  (* L1196 *)
  let fus_SA := e Aircraft_Fuselage_WETTED_AREA in  (* L1197 *)
  let dFusWt_dc_fuselage := (18 / 10 * gross_wt_initial ** (167 / 1000) * area_cabin ** (106 / 100) + fus_SA *
      area_aft_to_total * uwt_aft) / GRAV_ENGLISH_LBM in  (* L1199 *)
  let dFusWt_dgross_wt_initial := 167 / 1000 * c_fuselage * (18 / 10) * gross_wt_initial ** (- 833 / 1000) *
      area_cabin ** (106 / 100) in  (* L1203 *)
  let dFusWt_darea_cabin := 106 / 100 * c_fuselage * (18 / 10) * gross_wt_initial ** (167 / 1000) * area_cabin ** (6 /
      100) / GRAV_ENGLISH_LBM in  (* L1206 *)
  let dFusWt_darea_aft_to_total := c_fuselage * fus_SA * uwt_aft / GRAV_ENGLISH_LBM in  (* L1209 *)
  let dFusWt_duwt_aft := c_fuselage * fus_SA * area_aft_to_total in  (* L1210 *)
  let dFusWt_dfus_SA := c_fuselage * area_aft_to_total * uwt_aft / GRAV_ENGLISH_LBM in  (* L1211 *)
  let d_Fuselage_MASS__Fuselage_MASS_COEFFICIENT := dFusWt_dc_fuselage in  (* L1213 *)
  let d_Fuselage_MASS__Design_GROSS_MASS := dFusWt_dgross_wt_initial in  (* L1214 *)
  let d_Fuselage_MASS__Fuselage_CABIN_AREA := dFusWt_darea_cabin in  (* L1215 *)
  let d_Fuselage_MASS__Fuselage_WETTED_AREA_RATIO_AFTBODY_TO_TOTAL := dFusWt_darea_aft_to_total in  (* L1216 *)
  let d_Fuselage_MASS__Fuselage_AFTBODY_MASS_PER_UNIT_AREA := dFusWt_duwt_aft in  (* L1219 *)
  let d_Fuselage_MASS__Fuselage_WETTED_AREA := dFusWt_dfus_SA in  (* L1220 *)
  let d_Fuselage_MASS__Fuselage_MASS_SCALER := (c_fuselage * (18 / 10) * gross_wt_initial ** (167 / 1000) * area_cabin
      ** (106 / 100) + c_fuselage * fus_SA * area_aft_to_total * uwt_aft) / GRAV_ENGLISH_LBM in  (* L1221 *)
  [(Aircraft_Fuselage_MASS, Aircraft_Fuselage_MASS_COEFFICIENT, d_Fuselage_MASS__Fuselage_MASS_COEFFICIENT);
   (Aircraft_Fuselage_MASS, Aircraft_Design_GROSS_MASS, d_Fuselage_MASS__Design_GROSS_MASS);
   (Aircraft_Fuselage_MASS, Aircraft_Fuselage_CABIN_AREA, d_Fuselage_MASS__Fuselage_CABIN_AREA);
   (Aircraft_Fuselage_MASS, Aircraft_Fuselage_WETTED_AREA_RATIO_AFTBODY_TO_TOTAL,
       d_Fuselage_MASS__Fuselage_WETTED_AREA_RATIO_AFTBODY_TO_TOTAL);
   (Aircraft_Fuselage_MASS, Aircraft_Fuselage_AFTBODY_MASS_PER_UNIT_AREA,
       d_Fuselage_MASS__Fuselage_AFTBODY_MASS_PER_UNIT_AREA);
   (Aircraft_Fuselage_MASS, Aircraft_Fuselage_WETTED_AREA, d_Fuselage_MASS__Fuselage_WETTED_AREA);
   (Aircraft_Fuselage_MASS, Aircraft_Fuselage_MASS_SCALER, d_Fuselage_MASS__Fuselage_MASS_SCALER)].

(** Inputs, outputs and declared partials: /repo/aviary/subsystems/mass/gasp_based/fuel.py L1149-1174 *)
Definition BWBFuselageMass (op : options) : comp := {|
  c_ins := [Aircraft_Fuselage_CABIN_AREA;
            Aircraft_Fuselage_MASS_COEFFICIENT;
            Aircraft_Design_GROSS_MASS;
            Aircraft_Fuselage_WETTED_AREA_RATIO_AFTBODY_TO_TOTAL;
            Aircraft_Fuselage_AFTBODY_MASS_PER_UNIT_AREA;
            Aircraft_Fuselage_WETTED_AREA;
            Aircraft_Fuselage_MASS_SCALER];
  c_outs := [Aircraft_Fuselage_MASS];
  c_decl := [(Aircraft_Fuselage_MASS, Aircraft_Fuselage_CABIN_AREA, 0);
             (Aircraft_Fuselage_MASS, Aircraft_Fuselage_WETTED_AREA, 0);
             (Aircraft_Fuselage_MASS, Aircraft_Fuselage_MASS_COEFFICIENT, 0);
             (Aircraft_Fuselage_MASS, Aircraft_Design_GROSS_MASS, 0);
             (Aircraft_Fuselage_MASS, Aircraft_Fuselage_WETTED_AREA_RATIO_AFTBODY_TO_TOTAL, 0);
             (Aircraft_Fuselage_MASS, Aircraft_Fuselage_AFTBODY_MASS_PER_UNIT_AREA, 0);
             (Aircraft_Fuselage_MASS, Aircraft_Fuselage_MASS_SCALER, 0)];
  c_run := BWBFuselageMass_compute op; c_jac := BWBFuselageMass_partials op |}.

(** FuelMass.compute, /repo/aviary/subsystems/mass/gasp_based/fuel.py L1291-1309 (one engine type or one node) *)
Definition FuelMass_compute (op : options) (e : env) : list (string * R) :=
  let fuel_sys_wt := e Aircraft_Fuel_FUEL_SYSTEM_MASS * GRAV_ENGLISH_LBM in  (* L1292 *)
  let gross_wt_initial := e Aircraft_Design_GROSS_MASS * GRAV_ENGLISH_LBM in  (* L1293 *)
  let OEW := e Mission_OPERATING_MASS * GRAV_ENGLISH_LBM in  (* L1294 *)
  let payload_wt_des := e v_payload_mass_des * GRAV_ENGLISH_LBM in  (* L1295 *)
  let CK21 := e Aircraft_Fuel_FUEL_SYSTEM_MASS_SCALER in  (* L1296 *)
  let c_mass_trend_fuel_sys := e Aircraft_Fuel_FUEL_SYSTEM_MASS_COEFFICIENT in  (* L1297 *)
  let rho_fuel := e Aircraft_Fuel_DENSITY * GRAV_ENGLISH_LBM in  (* L1298 *)
  let payload_wt_max := e v_payload_mass_max * GRAV_ENGLISH_LBM in  (* L1299 *)
  let fuel_margin := e Aircraft_Fuel_VOLUME_MARGIN in  (* L1300 *)
  let o_fuel_mass := (gross_wt_initial - OEW + fuel_sys_wt - payload_wt_des) / (1 + CK21 * c_mass_trend_fuel_sys * (1
      + fuel_margin / 100) * (6687 / 1000) / rho_fuel) / GRAV_ENGLISH_LBM in  (* L1303 *)
  let o_fuel_mass_required := (gross_wt_initial - OEW - payload_wt_des) / GRAV_ENGLISH_LBM in  (* L1308 *)
  let o_fuel_mass_min := (gross_wt_initial - OEW - payload_wt_max) / GRAV_ENGLISH_LBM in  (* L1309 *)
  [(v_fuel_mass, o_fuel_mass);
   (v_fuel_mass_required, o_fuel_mass_required);
   (v_fuel_mass_min, o_fuel_mass_min)].

(** FuelMass.compute_partials, /repo/aviary/subsystems/mass/gasp_based/fuel.py L1311-1365 *)
Definition FuelMass_partials (op : options) (e : env) : list (string * string * R) :=
  let fuel_sys_wt := e Aircraft_Fuel_FUEL_SYSTEM_MASS * GRAV_ENGLISH_LBM in  (* L1312 *)
  let gross_wt_initial := e Aircraft_Design_GROSS_MASS * GRAV_ENGLISH_LBM in  (* L1313 *)
  let OEW := e Mission_OPERATING_MASS * GRAV_ENGLISH_LBM in  (* L1314 *)
  let payload_wt_des := e v_payload_mass_des * GRAV_ENGLISH_LBM in  (* L1315 *)
  let CK21 := e Aircraft_Fuel_FUEL_SYSTEM_MASS_SCALER in  (* L1316 *)
  let c_mass_trend_fuel_sys := e Aircraft_Fuel_FUEL_SYSTEM_MASS_COEFFICIENT in  (* L1317 *)
  let rho_fuel := e Aircraft_Fuel_DENSITY * GRAV_ENGLISH_LBM in  (* L1318 *)
  let fuel_margin := e Aircraft_Fuel_VOLUME_MARGIN in  (* L1319 *)
  let d_fuel_mass__Design_GROSS_MASS := 1 / (1 + CK21 * c_mass_trend_fuel_sys * (1 + fuel_margin / 100) * (6687 /
      1000) / rho_fuel) in  (* L1321 *)
  let d_fuel_mass__OPERATING_MASS := - 1 / (1 + CK21 * c_mass_trend_fuel_sys * (1 + fuel_margin / 100) * (6687 / 1000)
      / rho_fuel) in  (* L1324 *)
  let d_fuel_mass__payload_mass_des := - 1 / (1 + CK21 * c_mass_trend_fuel_sys * (1 + fuel_margin / 100) * (6687 /
      1000) / rho_fuel) in  (* L1327 *)
  let d_fuel_mass__Fuel_FUEL_SYSTEM_MASS := 1 / (1 + CK21 * c_mass_trend_fuel_sys * (1 + fuel_margin / 100) * (6687 /
      1000) / rho_fuel) in  (* L1330 *)
  let d_fuel_mass__Fuel_FUEL_SYSTEM_MASS_SCALER := - (gross_wt_initial - OEW + fuel_sys_wt - payload_wt_des) / (1 +
      CK21 * c_mass_trend_fuel_sys * (1 + fuel_margin / 100) * (6687 / 1000) / rho_fuel) ^ 2 * c_mass_trend_fuel_sys *
      (1 + fuel_margin / 100) * (6687 / 1000) / rho_fuel / GRAV_ENGLISH_LBM in  (* L1333 *)
  let d_fuel_mass__Fuel_FUEL_SYSTEM_MASS_COEFFICIENT := - (gross_wt_initial - OEW + fuel_sys_wt - payload_wt_des) / (1
      + CK21 * c_mass_trend_fuel_sys * (1 + fuel_margin / 100) * (6687 / 1000) / rho_fuel) ^ 2 * CK21 * (1 +
      fuel_margin / 100) * (6687 / 1000) / rho_fuel / GRAV_ENGLISH_LBM in  (* L1342 *)
  let d_fuel_mass__Fuel_DENSITY := - (gross_wt_initial - OEW + fuel_sys_wt - payload_wt_des) / (1 + CK21 *
      c_mass_trend_fuel_sys * (1 + fuel_margin / 100) * (6687 / 1000) / rho_fuel) ^ 2 * (- CK21 *
      c_mass_trend_fuel_sys * (1 + fuel_margin / 100) * (6687 / 1000) / rho_fuel ^ 2) in  (* L1351 *)
  let d_fuel_mass__Fuel_VOLUME_MARGIN := - (gross_wt_initial - OEW + fuel_sys_wt - payload_wt_des) / (1 + CK21 *
      c_mass_trend_fuel_sys * (1 + fuel_margin / 100) * (6687 / 1000) / rho_fuel) ^ 2 * CK21 * c_mass_trend_fuel_sys *
      (1 / 100) * (6687 / 1000) / rho_fuel / GRAV_ENGLISH_LBM in  (* L1356 *)
  [(v_fuel_mass, Aircraft_Design_GROSS_MASS, d_fuel_mass__Design_GROSS_MASS);
   (v_fuel_mass, Mission_OPERATING_MASS, d_fuel_mass__OPERATING_MASS);
   (v_fuel_mass, v_payload_mass_des, d_fuel_mass__payload_mass_des);
   (v_fuel_mass, Aircraft_Fuel_FUEL_SYSTEM_MASS, d_fuel_mass__Fuel_FUEL_SYSTEM_MASS);
   (v_fuel_mass, Aircraft_Fuel_FUEL_SYSTEM_MASS_SCALER, d_fuel_mass__Fuel_FUEL_SYSTEM_MASS_SCALER);
   (v_fuel_mass, Aircraft_Fuel_FUEL_SYSTEM_MASS_COEFFICIENT, d_fuel_mass__Fuel_FUEL_SYSTEM_MASS_COEFFICIENT);
   (v_fuel_mass, Aircraft_Fuel_DENSITY, d_fuel_mass__Fuel_DENSITY);
   (v_fuel_mass, Aircraft_Fuel_VOLUME_MARGIN, d_fuel_mass__Fuel_VOLUME_MARGIN)].

(** Inputs, outputs and declared partials: /repo/aviary/subsystems/mass/gasp_based/fuel.py L1233-1289 *)
Definition FuelMass (op : options) : comp := {|
  c_ins := [Aircraft_Fuel_FUEL_SYSTEM_MASS;
            Aircraft_Design_GROSS_MASS;
            Mission_OPERATING_MASS;
            v_payload_mass_des;
            Aircraft_Fuel_FUEL_SYSTEM_MASS_SCALER;
            Aircraft_Fuel_FUEL_SYSTEM_MASS_COEFFICIENT;
            Aircraft_Fuel_DENSITY;
            v_payload_mass_max;
            Aircraft_Fuel_VOLUME_MARGIN];
  c_outs := [v_fuel_mass;
             v_fuel_mass_required;
             v_fuel_mass_min];
  c_decl := [(v_fuel_mass, Aircraft_Design_GROSS_MASS, 0);
             (v_fuel_mass, Mission_OPERATING_MASS, 0);
             (v_fuel_mass, v_payload_mass_des, 0);
             (v_fuel_mass, Aircraft_Fuel_FUEL_SYSTEM_MASS_SCALER, 0);
             (v_fuel_mass, Aircraft_Fuel_FUEL_SYSTEM_MASS_COEFFICIENT, 0);
             (v_fuel_mass, Aircraft_Fuel_DENSITY, 0);
             (v_fuel_mass, Aircraft_Fuel_VOLUME_MARGIN, 0);
             (v_fuel_mass, Aircraft_Fuel_FUEL_SYSTEM_MASS, 0);
             (v_fuel_mass_required, Aircraft_Design_GROSS_MASS, 1);
             (v_fuel_mass_required, Mission_OPERATING_MASS, - 1);
             (v_fuel_mass_required, v_payload_mass_des, - 1);
             (v_fuel_mass_min, Aircraft_Design_GROSS_MASS, 1);
             (v_fuel_mass_min, Mission_OPERATING_MASS, - 1);
             (v_fuel_mass_min, v_payload_mass_max, - 1)];
  c_run := FuelMass_compute op; c_jac := FuelMass_partials op |}.
