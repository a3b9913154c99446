(** Load speeds of a light blended wing body against those of a tube and wing aircraft: claim C62. *)
From Coq Require Import Reals Lra Lia.
From Coquelicot Require Import Coquelicot.
From Verif Require Import Base Calc MathModel MathProofs Comp CompMore CompFun GLoadModel GLoadProps.
Local Open Scope R_scope.

Lemma eqb_same a : eqb a a = true.
Proof. unfold eqb. now destruct (Req_EM_T a a). Qed.
Lemma eqb_other a b : a <> b -> eqb a b = false.
Proof. unfold eqb. now destruct (Req_EM_T a b). Qed.
Lemma eqb_01 : eqb 0 1 = false.
Proof. apply eqb_other. lra. Qed.
Lemma eqb_02 : eqb 0 2 = false.
Proof. apply eqb_other. lra. Qed.
Lemma eqb_10 : eqb 1 0 = false.
Proof. apply eqb_other. lra. Qed.
Lemma eqb_12 : eqb 1 2 = false.
Proof. apply eqb_other. lra. Qed.
Lemma eqb_20 : eqb 2 0 = false.
Proof. apply eqb_other. lra. Qed.
Lemma eqb_21 : eqb 2 1 = false.
Proof. apply eqb_other. lra. Qed.
Lemma leb_01 : leb 0 1 = true.
Proof. apply leb_intro. lra. Qed.
Lemma leb_11 : leb 1 1 = true.
Proof. apply leb_intro. lra. Qed.
Lemma leb_21 : leb 2 1 = false.
Proof. apply leb_intro_false. lra. Qed.
Ltac same_speeds := intros K I; cbn in K, I; unfold Aircraft_Design_PART25_STRUCTURAL_CATEGORY in K;
  repeat destruct I as [<-|I]; try easy; red_comp; repeat destruct K as [K|K]; try easy; rewrite <- K;
  rewrite ?eqb_same, ?eqb_01, ?eqb_02, ?eqb_10, ?eqb_12, ?eqb_20, ?eqb_21, ?leb_01, ?leb_11, ?leb_21; reflexivity.

(** In the categories 0, 1 and 2 the two classes compute the same speeds, the blended wing body with gross mass over exposed area as wing loading. *)
Theorem C62_bwb_light_speeds op e o : In (on op Aircraft_Design_PART25_STRUCTURAL_CATEGORY) [0; 1; 2] -> In o [v_max_airspeed; v_vel_c; v_max_maneuver_factor; v_min_dive_vel] ->
  out (BWBLoadSpeedsLightSharp op) e o =
  out (LoadSpeedsLightSharp op) (upd e Aircraft_Design_WING_LOADING (e Aircraft_Design_GROSS_MASS / e Aircraft_Wing_EXPOSED_AREA)) o.
Proof. same_speeds. Qed.
Print Assumptions C62_bwb_light_speeds.

Theorem C62_bwb_light_speeds_smooth op e o : In (on op Aircraft_Design_PART25_STRUCTURAL_CATEGORY) [0; 1; 2] -> In o [v_max_airspeed; v_vel_c; v_max_maneuver_factor; v_min_dive_vel] ->
  out (BWBLoadSpeedsLightSmooth op) e o =
  out (LoadSpeedsLightSmooth op) (upd e Aircraft_Design_WING_LOADING (e Aircraft_Design_GROSS_MASS / e Aircraft_Wing_EXPOSED_AREA)) o.
Proof. same_speeds. Qed.
Print Assumptions C62_bwb_light_speeds_smooth.

Example C62_witness_bwb_light_max_airspeed : out (BWBLoadSpeedsLightSharp unit_options) (given [(Aircraft_Design_MAX_STRUCTURAL_SPEED, 115)]) v_max_airspeed = 85.
Proof. given_start. replace (1 / 1) with 1 by lra. rewrite ?pw_1. branches; decided; lra. Qed.
Example C62_witness_bwb_light_vel_c : out (BWBLoadSpeedsLightSharp unit_options) (given [(Aircraft_Design_MAX_STRUCTURAL_SPEED, 115)]) v_vel_c = 33.
Proof. given_start. replace (1 / 1) with 1 by lra. rewrite ?pw_1. branches; decided; lra. Qed.
