(** Properties of GASP design loads and fuel masses: claim C62. *)
From Coq Require Import Reals Lra Lia.
From Coquelicot Require Import Coquelicot.
From Verif Require Import Base Calc MathModel MathProofs Comp CompMore CompFun GLoadModel.
Local Open Scope R_scope.
Lemma log10_pos x : 1 < x -> 0 < log10 x.
Proof.
  intro H. Transparent log10. unfold log10. apply Rdiv_lt_0_compat; [|exact ln10_pos].
  rewrite <- ln_1. apply ln_increasing; lra.
Qed.
Opaque log10.
Lemma log10_10 : log10 10 = 1.
Proof. Transparent log10. unfold log10. field. pose proof ln10_pos. lra. Opaque log10. Qed.
Lemma scaled_iff c e o i k :
  is_derive (fun t => out c (upd e i t) o) (e i) (k * jac c e o i) -> (exact_at c e o i <-> k = 1 \/ jac c e o i = 0).
Proof.
  intro S. unfold exact_at. split.
  - intro E. apply is_derive_unique in E. apply is_derive_unique in S. rewrite E in S.
    destruct (Req_dec (jac c e o i) 0) as [Z|Z]; [now right|left].
    apply (Rmult_eq_reg_r (jac c e o i)); [|exact Z]. rewrite Rmult_1_l. now symmetry.
  - intro E. eapply is_derive_eq; [exact S|]. destruct E as [-> | ->]; [apply Rmult_1_l | apply Rmult_0_r].
Qed.

(** An environment with the listed values and 1 elsewhere. *)
Definition given (l : list (string * R)) : env := fun n => fold_right (fun p r => if String.eqb n (fst p) then snd p else r) 1 l.
Ltac given_start := red_comp; cbv [given fold_right fst snd String.eqb Ascii.eqb Bool.eqb on ob oe unit_options].
Ltac decide_one := match goal with
  | |- context [ltb ?a ?b] => first [rewrite (ltb_intro_false a b) by lra | rewrite (ltb_intro a b) by lra]
  | |- context [leb ?a ?b] => first [rewrite (leb_intro_false a b) by lra | rewrite (leb_intro a b) by lra] end.
Ltac given_value := red_comp; cbv [given fold_right fst snd String.eqb Ascii.eqb Bool.eqb on ob oe unit_options]; rewrite ?pw_1, ?sqrt_1; branches; decided; try lra; try (field; lra).

(** The partial with respect to the additional mass lacks the scaler (fuel.py L1140). *)
Definition fuselage_domain (e : env) : Prop := positive [Aircraft_Fuselage_MASS_SCALER; Aircraft_Fuselage_MASS_COEFFICIENT; v_fus_mass_full; Aircraft_Fuselage_WETTED_AREA; Aircraft_Fuselage_AVG_DIAMETER; Aircraft_TailBoom_LENGTH; v_pylon_len; Aircraft_Fuselage_PRESSURE_DIFFERENTIAL; Aircraft_Wing_ULTIMATE_LOAD_FACTOR] e /\ 1 < e v_min_dive_vel.
Theorem C62_FuselageMass op : exact_except (FuselageMass op) fuselage_domain [(Aircraft_Fuselage_MASS, v_MAT)].
Proof.
  except_start; exact_prepare; match goal with H : 1 < ?v |- _ => assert (0 < v) by lra; pose proof (log10_pos v H) end; pose proof ln10_pos.
  all: derive_goal; try solve [pw_field].
Qed.
Print Assumptions C62_FuselageMass.
Theorem C62_fuselage_scaler op e : exact_at (FuselageMass op) e Aircraft_Fuselage_MASS v_MAT <-> e Aircraft_Fuselage_MASS_SCALER = 1.
Proof.
  assert (S : is_derive (fun t => out (FuselageMass op) (upd e v_MAT t) Aircraft_Fuselage_MASS) (e v_MAT) (e Aircraft_Fuselage_MASS_SCALER * jac (FuselageMass op) e Aircraft_Fuselage_MASS v_MAT)).
  { red_comp. match goal with |- context [pw ?a ?x] => generalize (pw a x) end. intros. auto_derive; [exact I|]. match goal with |- ?a = ?b => change (@eq R a b) end. field. }
  rewrite (scaled_iff _ _ _ _ _ S). replace (jac (FuselageMass op) e Aircraft_Fuselage_MASS v_MAT) with 1 by (red_comp; reflexivity). lra.
Qed.
Print Assumptions C62_fuselage_scaler.

Example C62_witness_FuselageMass : out (FuselageMass unit_options) (given [(Aircraft_Fuselage_MASS_SCALER, 2); (v_fus_mass_full, 10000); (Aircraft_Fuselage_WETTED_AREA, 1000); (Aircraft_TailBoom_LENGTH, 1 / 2); (v_pylon_len, 1 / 2); (v_min_dive_vel, 10); (Aircraft_Fuselage_PRESSURE_DIFFERENTIAL, 0)]) Aircraft_Fuselage_MASS = 4.
Proof. red_comp; cbv [given fold_right fst snd String.eqb Ascii.eqb Bool.eqb]. replace (10000 * 1 / 10000) with 1 by field. replace (1000 / 1000) with 1 by field. replace (1 / 2 + 1 / 2) with 1 by field. rewrite Rplus_0_l. replace (log10 10) with 1 by (symmetry; exact log10_10). rewrite !pw_1, !Rmult_1_l, pw_1. field. Qed.
Example C62_witness_fuselage_domain : fuselage_domain (given [(v_min_dive_vel, 2)]).
Proof. unfold fuselage_domain. cbn. lra. Qed.

Definition bwb_unscaled := [Aircraft_Fuselage_CABIN_AREA; Aircraft_Fuselage_MASS_COEFFICIENT; Aircraft_Design_GROSS_MASS; Aircraft_Fuselage_WETTED_AREA_RATIO_AFTBODY_TO_TOTAL; Aircraft_Fuselage_AFTBODY_MASS_PER_UNIT_AREA; Aircraft_Fuselage_WETTED_AREA].
Lemma bwb_scaled op e i : positive [Aircraft_Fuselage_CABIN_AREA; Aircraft_Design_GROSS_MASS] e -> In i bwb_unscaled ->
  is_derive (fun t => out (BWBFuselageMass op) (upd e i t) Aircraft_Fuselage_MASS) (e i)
    (e Aircraft_Fuselage_MASS_SCALER * jac (BWBFuselageMass op) e Aircraft_Fuselage_MASS i).
Proof.
  intros D Hi. split_in Hi; subst i.
  all: match goal with |- is_derive (fun t => out ?c (upd ?e _ t) _) _ _ => revert D; let l := eval hnf in (c_ins c) in table e l; intro D; red_comp_in D end; red_comp; conjuncts; derive_goal; first [pw_field | half_field | idtac].
Qed.
Theorem C62_BWBFuselageMass op : exact_except (BWBFuselageMass op) (positive [Aircraft_Fuselage_CABIN_AREA; Aircraft_Design_GROSS_MASS]) (map (fun i => (Aircraft_Fuselage_MASS, i)) bwb_unscaled).
Proof. except_start; more_goals. Qed.
Print Assumptions C62_BWBFuselageMass.
(** The other partials lack the scaler. *)
Theorem C62_bwb_fuselage_scaler op e i : positive [Aircraft_Fuselage_CABIN_AREA; Aircraft_Design_GROSS_MASS] e -> In i bwb_unscaled ->
  (exact_at (BWBFuselageMass op) e Aircraft_Fuselage_MASS i <-> e Aircraft_Fuselage_MASS_SCALER = 1 \/ jac (BWBFuselageMass op) e Aircraft_Fuselage_MASS i = 0).
Proof. intros D Hi. exact (scaled_iff _ _ _ _ _ (bwb_scaled op e i D Hi)). Qed.
Print Assumptions C62_bwb_fuselage_scaler.

Example C62_witness_BWBFuselageMass : out (BWBFuselageMass unit_options) (fun _ => 1) Aircraft_Fuselage_MASS = 14 / 5.
Proof. unit_value. Qed.

Theorem C62_FuelSysAndFullFuselageMass op : exact_partials (FuelSysAndFullFuselageMass op) (positive [Aircraft_Fuel_DENSITY]).
Proof. exact_start; more_goals. Qed.
Print Assumptions C62_FuelSysAndFullFuselageMass.

Example C62_witness_fus_mass_full : out (FuelSysAndFullFuselageMass unit_options) (fun _ => 1) v_fus_mass_full = -2.
Proof. unit_value. Qed.
Example C62_witness_fuel_system_mass : out (FuelSysAndFullFuselageMass unit_options) (fun _ => 1) Aircraft_Fuel_FUEL_SYSTEM_MASS = 675387 / 100000.
Proof. unit_value. Qed.

Theorem C62_FuelMass op : exact_partials (FuelMass op) (positive [Aircraft_Fuel_DENSITY; Aircraft_Fuel_FUEL_SYSTEM_MASS_SCALER; Aircraft_Fuel_FUEL_SYSTEM_MASS_COEFFICIENT; Aircraft_Fuel_VOLUME_MARGIN]).
Proof. exact_start; more_goals. Qed.
Print Assumptions C62_FuelMass.

Example C62_witness_FuelMass_fuel_mass : out (FuelMass unit_options) (given [(Aircraft_Design_GROSS_MASS, 10)]) v_fuel_mass = 900000 / 775387.
Proof. given_value. Qed.
Example C62_witness_FuelMass_fuel_mass_required : out (FuelMass unit_options) (given [(Aircraft_Design_GROSS_MASS, 10)]) v_fuel_mass_required = 8.
Proof. given_value. Qed.
Example C62_witness_FuelMass_fuel_mass_min : out (FuelMass unit_options) (given [(Aircraft_Design_GROSS_MASS, 10)]) v_fuel_mass_min = 8.
Proof. given_value. Qed.

(** With the mass of the fuel system of FuelSysAndFullFuselageMass for the same fuel, the design fuel is the fuel that is left. *)
Theorem C62_fuel_balance op e : positive [Aircraft_Fuel_DENSITY; Aircraft_Fuel_FUEL_SYSTEM_MASS_SCALER; Aircraft_Fuel_FUEL_SYSTEM_MASS_COEFFICIENT; Aircraft_Fuel_VOLUME_MARGIN] e ->
  e v_fuel_mass = out (FuelMass op) e v_fuel_mass ->
  (e Aircraft_Fuel_FUEL_SYSTEM_MASS = out (FuelSysAndFullFuselageMass op) e Aircraft_Fuel_FUEL_SYSTEM_MASS <->
   out (FuelMass op) e v_fuel_mass = out (FuelMass op) e v_fuel_mass_required).
Proof.
  intros D. red_comp_in D. destruct D as (R & S & C & M). red_comp.
  set (k := e "aircraft:fuel:fuel_system_mass_scaler" * e "aircraft:fuel:fuel_system_mass_coefficient" *
    (1 + e "aircraft:fuel:volume_margin" / 100) * (6687 / 1000) / (e "aircraft:fuel:density" * 1)).
  assert (K : 0 < k) by (unfold k; pos).
  replace (e "aircraft:fuel:fuel_system_mass_scaler" * (6687 / 1000 / (e "aircraft:fuel:density" * 1)) *
    e "aircraft:fuel:fuel_system_mass_coefficient" * (e "fuel_mass" * 1) * (1 + e "aircraft:fuel:volume_margin" / 100) / 1)
    with (k * e "fuel_mass") by (unfold k; field; lra).
  clearbody k. intro F. rewrite <- F.
  apply (f_equal (fun x => x * (1 + k))) in F. field_simplify in F; [|lra]. split; intro H; nra.
Qed.
Print Assumptions C62_fuel_balance.

Example C62_witness_fuel_balance : let e := given [(Aircraft_Design_GROSS_MASS, 3); (Aircraft_Fuel_FUEL_SYSTEM_MASS, 675387 / 100000)] in
  e v_fuel_mass = out (FuelMass unit_options) e v_fuel_mass /\ e Aircraft_Fuel_FUEL_SYSTEM_MASS = out (FuelSysAndFullFuselageMass unit_options) e Aircraft_Fuel_FUEL_SYSTEM_MASS.
Proof. cbv zeta. split; given_value. Qed.

Theorem C62_FuelComponentsSharp op : exact_partials (FuelComponentsSharp op) (fun e => positive [Aircraft_Fuel_DENSITY] e /\ e Aircraft_Fuel_WING_VOLUME_GEOMETRIC_MAX * e Aircraft_Fuel_DENSITY <> e Aircraft_Design_GROSS_MASS - e Mission_OPERATING_MASS).
Proof. exact_start; more_goals. Qed.
Print Assumptions C62_FuelComponentsSharp.

Example C62_witness_FuelComponentsSharp_OEM_wingfuel_mass : out (FuelComponentsSharp unit_options) (given [(Aircraft_Design_GROSS_MASS, 3 / 2)]) v_OEM_wingfuel_mass = 1 / 2.
Proof. given_value. Qed.
Example C62_witness_FuelComponentsSharp_OEM_fuel_vol : out (FuelComponentsSharp unit_options) (given [(Aircraft_Design_GROSS_MASS, 3 / 2)]) v_OEM_fuel_vol = 1 / 2.
Proof. given_value. Qed.
Example C62_witness_FuelComponentsSharp_Fuel_WING_VOLUME_DESIGN : out (FuelComponentsSharp unit_options) (given [(Aircraft_Design_GROSS_MASS, 3 / 2)]) Aircraft_Fuel_WING_VOLUME_DESIGN = 101 / 100.
Proof. given_value. Qed.
Example C62_witness_FuelComponentsSharp_payload_mass_max_fuel : out (FuelComponentsSharp unit_options) (given [(Aircraft_Design_GROSS_MASS, 3 / 2)]) v_payload_mass_max_fuel = 1 / 2.
Proof. given_value. Qed.
Example C62_witness_FuelComponentsSharp_volume_wingfuel_mass : out (FuelComponentsSharp unit_options) (given [(Aircraft_Design_GROSS_MASS, 3 / 2)]) v_volume_wingfuel_mass = 1.
Proof. given_value. Qed.
Example C62_witness_FuelComponentsSharp_max_wingfuel_mass : out (FuelComponentsSharp unit_options) (given [(Aircraft_Design_GROSS_MASS, 3 / 2)]) v_max_wingfuel_mass = 1 / 2.
Proof. given_value. Qed.
Example C62_witness_FuelComponentsSharp_Fuel_WING_VOLUME_STRUCTURAL_MAX : out (FuelComponentsSharp unit_options) (given [(Aircraft_Design_GROSS_MASS, 3 / 2)]) Aircraft_Fuel_WING_VOLUME_STRUCTURAL_MAX = 1 / 2.
Proof. given_value. Qed.

(** The wing fuel is limited by the volume and by the mass at take off. *)
Theorem C62_wing_fuel_limit op e : 0 < e Aircraft_Fuel_DENSITY ->
  let c := FuelComponentsSharp op in
  out c e v_max_wingfuel_mass = Rmin (e Aircraft_Fuel_WING_VOLUME_GEOMETRIC_MAX * e Aircraft_Fuel_DENSITY) (e Aircraft_Design_GROSS_MASS - e Mission_OPERATING_MASS) /\
  out c e Aircraft_Fuel_WING_VOLUME_STRUCTURAL_MAX * e Aircraft_Fuel_DENSITY = out c e v_max_wingfuel_mass /\
  out c e Aircraft_Fuel_WING_VOLUME_STRUCTURAL_MAX <= e Aircraft_Fuel_WING_VOLUME_GEOMETRIC_MAX.
Proof.
  intros D c. unfold c. red_comp_in D. red_comp. branches; unfold Rmin; destruct (Rle_dec _ _); repeat split; try (field; lra); try lra.
  all: apply Rle_div_l; [lra|]; lra.
Qed.
Print Assumptions C62_wing_fuel_limit.

(** With smoothing, the partials of the greatest wing fuel have the wrong sign in the first term (L670-704); the error is exactly twice that term. *)
Definition blended := [(v_max_wingfuel_mass, Aircraft_Design_GROSS_MASS); (v_max_wingfuel_mass, Mission_OPERATING_MASS); (v_max_wingfuel_mass, Aircraft_Fuel_WING_VOLUME_GEOMETRIC_MAX); (v_max_wingfuel_mass, Aircraft_Fuel_DENSITY);
  (Aircraft_Fuel_WING_VOLUME_STRUCTURAL_MAX, Aircraft_Design_GROSS_MASS); (Aircraft_Fuel_WING_VOLUME_STRUCTURAL_MAX, Mission_OPERATING_MASS); (Aircraft_Fuel_WING_VOLUME_STRUCTURAL_MAX, Aircraft_Fuel_WING_VOLUME_GEOMETRIC_MAX); (Aircraft_Fuel_WING_VOLUME_STRUCTURAL_MAX, Aircraft_Fuel_DENSITY)].
Theorem C62_FuelComponentsSmooth op : exact_except (FuelComponentsSmooth op) (positive [Aircraft_Fuel_DENSITY]) blended.
Proof. except_start; more_goals. Qed.
Print Assumptions C62_FuelComponentsSmooth.
Theorem C62_wing_fuel_gross op e : in_range (e Aircraft_Fuel_WING_VOLUME_GEOMETRIC_MAX * e Aircraft_Fuel_DENSITY - (e Aircraft_Design_GROSS_MASS - e Mission_OPERATING_MASS)) 0 (1 / 95) ->
  is_derive (fun t => out (FuelComponentsSmooth op) (upd e Aircraft_Design_GROSS_MASS t) v_max_wingfuel_mass) (e Aircraft_Design_GROSS_MASS)
  (jac (FuelComponentsSmooth op) e v_max_wingfuel_mass Aircraft_Design_GROSS_MASS - 2 * (e Aircraft_Design_GROSS_MASS - e Mission_OPERATING_MASS) * dsigf 0 (1 / 95) (e Aircraft_Fuel_WING_VOLUME_GEOMETRIC_MAX * e Aircraft_Fuel_DENSITY - (e Aircraft_Design_GROSS_MASS - e Mission_OPERATING_MASS))).
Proof.
  intros I. revert I. red_comp. generalize (e "aircraft:design:gross_mass") (e "mission:operating_mass") (e "aircraft:fuel:wing_volume_geometric_max") (e "aircraft:fuel:density").
  intros g m v d I. 
  assert (E1 : forall a, v * (d * 1) + - (a * 1 + - (m * 1)) = v * d - (a - m)) by (intro; ring).
  assert (E2 : forall a, v * (d * 1) - (a * 1 - m * 1) = v * d - (a - m)) by (intro; ring).
  assert (E3 : forall a, a * 1 + - (m * 1) + - (v * (d * 1)) = a - m - v * d) by (intro; ring).
  assert (E4 : forall a, a * 1 - m * 1 - v * (d * 1) = a - m - v * d) by (intro; ring).
  pose proof (dsigf_reflect (v * d - (g - m)) (g - m - v * d) 0 0 (1 / 95) ltac:(lra) ltac:(ring) I) as S.
  auto_derive.
  - rewrite E1, E3. unfold in_range in I. assert ((g - m - v * d - 0) / (1 / 95) = - ((v * d - (g - m) - 0) / (1 / 95))) by field. repeat split; lra.
  - rewrite ?E1, ?E2, ?E3, ?E4, S. match goal with |- ?a = ?b => change (@eq R a b) end. field.
Qed.
Print Assumptions C62_wing_fuel_gross.
Theorem C62_wing_fuel_gross_refuted op e : in_range (e Aircraft_Fuel_WING_VOLUME_GEOMETRIC_MAX * e Aircraft_Fuel_DENSITY - (e Aircraft_Design_GROSS_MASS - e Mission_OPERATING_MASS)) 0 (1 / 95) ->
  e Mission_OPERATING_MASS <> e Aircraft_Design_GROSS_MASS -> ~ exact_at (FuelComponentsSmooth op) e v_max_wingfuel_mass Aircraft_Design_GROSS_MASS.
Proof.
  intros I N X. unfold exact_at in X. apply is_derive_unique in X. pose proof (is_derive_unique _ _ _ (C62_wing_fuel_gross op e I)) as Y. rewrite X in Y.
  pose proof (dsigf_pos _ _ (1 / 95) ltac:(lra) I) as P.
  assert (Z : (e Aircraft_Design_GROSS_MASS - e Mission_OPERATING_MASS) * dsigf 0 (1 / 95) (e Aircraft_Fuel_WING_VOLUME_GEOMETRIC_MAX * e Aircraft_Fuel_DENSITY - (e Aircraft_Design_GROSS_MASS - e Mission_OPERATING_MASS)) = 0) by lra.
  apply Rmult_integral in Z. lra.
Qed.
Print Assumptions C62_wing_fuel_gross_refuted.

Example C62_witness_FuelComponentsSmooth_OEM_wingfuel_mass : out (FuelComponentsSmooth unit_options) (given [(Aircraft_Design_GROSS_MASS, 3 / 2)]) v_OEM_wingfuel_mass = 1 / 2.
Proof. given_value. Qed.
Example C62_witness_FuelComponentsSmooth_OEM_fuel_vol : out (FuelComponentsSmooth unit_options) (given [(Aircraft_Design_GROSS_MASS, 3 / 2)]) v_OEM_fuel_vol = 1 / 2.
Proof. given_value. Qed.
Example C62_witness_FuelComponentsSmooth_Fuel_WING_VOLUME_DESIGN : out (FuelComponentsSmooth unit_options) (given [(Aircraft_Design_GROSS_MASS, 3 / 2)]) Aircraft_Fuel_WING_VOLUME_DESIGN = 101 / 100.
Proof. given_value. Qed.
Example C62_witness_FuelComponentsSmooth_payload_mass_max_fuel : out (FuelComponentsSmooth unit_options) (given [(Aircraft_Design_GROSS_MASS, 3 / 2)]) v_payload_mass_max_fuel = 1 / 2.
Proof. given_value. Qed.
Example C62_witness_FuelComponentsSmooth_volume_wingfuel_mass : out (FuelComponentsSmooth unit_options) (given [(Aircraft_Design_GROSS_MASS, 3 / 2)]) v_volume_wingfuel_mass = 1.
Proof. given_value. Qed.
Example C62_witness_wing_fuel_range : in_range (1 * 1 - (3 / 2 - 1)) 0 (1 / 95).
Proof. unfold in_range. lra. Qed.

(** The capacity without the unusable fuel is limited by the mass at take off; nothing is negative. *)
Theorem C62_capacity_limit op e : 
  let c := BodyTankCalculationsSharp op in
  out c e Aircraft_Fuel_MAX_CAPACITY_MASS - e Aircraft_Fuel_UNUSABLE_FUEL_MASS = Rmin (e v_fuel_mass + out c e Aircraft_Fuel_AUXILIARY_FUEL_MASS_CAPACITY) (e Aircraft_Design_GROSS_MASS - e Mission_OPERATING_MASS) /\
  out c e Aircraft_Fuel_AUXILIARY_FUEL_MASS_CAPACITY = Rmax 0 (e v_fuel_mass_required - e v_max_wingfuel_mass) /\
  out c e v_wingfuel_mass_min = Rmax 0 (e v_fuel_mass_min - out c e v_max_extra_fuel_mass) /\
  0 <= out c e v_extra_fuel_volume.
Proof.
  intros c. unfold c. red_comp.
  match goal with |- context [Rmax ?x 0] => pose proof (Rmax_r x 0); generalize dependent (Rmax x 0); intros end.
  repeat split; branches; unfold Rmin, Rmax; repeat destruct (Rle_dec _ _); try lra.
Qed.
Print Assumptions C62_capacity_limit.

Example C62_witness_BodyTank_Fuel_AUXILIARY_FUEL_MASS_CAPACITY : out (BodyTankCalculationsSharp unit_options) (given [(Aircraft_Fuel_WING_VOLUME_DESIGN, 5); (Aircraft_Fuel_WING_VOLUME_GEOMETRIC_MAX, 2); (Aircraft_Fuel_WING_VOLUME_STRUCTURAL_MAX, 3); (v_fuel_mass_required, 7); (v_fuel_mass_min, 4); (Aircraft_Design_GROSS_MASS, 3)]) Aircraft_Fuel_AUXILIARY_FUEL_MASS_CAPACITY = 6.
Proof. given_start; repeat (decide_one; rewrite ?(Rmax_left (5 - 2) 0) by lra); rewrite ?(Rmax_left (5 - 2) 0) by lra; lra. Qed.
Example C62_witness_BodyTank_extra_fuel_volume : out (BodyTankCalculationsSharp unit_options) (given [(Aircraft_Fuel_WING_VOLUME_DESIGN, 5); (Aircraft_Fuel_WING_VOLUME_GEOMETRIC_MAX, 2); (Aircraft_Fuel_WING_VOLUME_STRUCTURAL_MAX, 3); (v_fuel_mass_required, 7); (v_fuel_mass_min, 4); (Aircraft_Design_GROSS_MASS, 3)]) v_extra_fuel_volume = 3.
Proof. given_start; repeat (decide_one; rewrite ?(Rmax_left (5 - 2) 0) by lra); rewrite ?(Rmax_left (5 - 2) 0) by lra; lra. Qed.
Example C62_witness_BodyTank_max_extra_fuel_mass : out (BodyTankCalculationsSharp unit_options) (given [(Aircraft_Fuel_WING_VOLUME_DESIGN, 5); (Aircraft_Fuel_WING_VOLUME_GEOMETRIC_MAX, 2); (Aircraft_Fuel_WING_VOLUME_STRUCTURAL_MAX, 3); (v_fuel_mass_required, 7); (v_fuel_mass_min, 4); (Aircraft_Design_GROSS_MASS, 3)]) v_max_extra_fuel_mass = 3.
Proof. given_start; repeat (decide_one; rewrite ?(Rmax_left (5 - 2) 0) by lra); rewrite ?(Rmax_left (5 - 2) 0) by lra; lra. Qed.
Example C62_witness_BodyTank_wingfuel_mass_min : out (BodyTankCalculationsSharp unit_options) (given [(Aircraft_Fuel_WING_VOLUME_DESIGN, 5); (Aircraft_Fuel_WING_VOLUME_GEOMETRIC_MAX, 2); (Aircraft_Fuel_WING_VOLUME_STRUCTURAL_MAX, 3); (v_fuel_mass_required, 7); (v_fuel_mass_min, 4); (Aircraft_Design_GROSS_MASS, 3)]) v_wingfuel_mass_min = 1.
Proof. given_start; repeat (decide_one; rewrite ?(Rmax_left (5 - 2) 0) by lra); rewrite ?(Rmax_left (5 - 2) 0) by lra; lra. Qed.
Example C62_witness_BodyTank_Fuel_MAX_CAPACITY_MASS : out (BodyTankCalculationsSharp unit_options) (given [(Aircraft_Fuel_WING_VOLUME_DESIGN, 5); (Aircraft_Fuel_WING_VOLUME_GEOMETRIC_MAX, 2); (Aircraft_Fuel_WING_VOLUME_STRUCTURAL_MAX, 3); (v_fuel_mass_required, 7); (v_fuel_mass_min, 4); (Aircraft_Design_GROSS_MASS, 3)]) Aircraft_Fuel_MAX_CAPACITY_MASS = 3.
Proof. given_start; repeat (decide_one; rewrite ?(Rmax_left (5 - 2) 0) by lra); rewrite ?(Rmax_left (5 - 2) 0) by lra; lra. Qed.

(** With smoothing, the partial of the auxiliary fuel divides the slope of the sigmoid by 50 again (L268-270). *)
Theorem C62_auxiliary_refuted op e : in_range (e v_fuel_mass_required - e v_max_wingfuel_mass) 0 (1 / 50) ->
  e v_fuel_mass_required <> e v_max_wingfuel_mass ->
  ~ exact_at (BodyTankCalculationsSmooth op) e Aircraft_Fuel_AUXILIARY_FUEL_MASS_CAPACITY v_fuel_mass_required.
Proof.
  intros I N X. red_comp_in N. revert I X. unfold exact_at. red_comp. intros I X. apply is_derive_unique in X.
  assert (Y := dsigf_pos _ _ (1 / 50) ltac:(lra) I).
  assert (G : (e "fuel_mass_required" * 1 - e "max_wingfuel_mass" * 1) = e "fuel_mass_required" - e "max_wingfuel_mass") by ring.
  rewrite G in X. rewrite (is_derive_unique _ _ (sigf 0 (1 / 50) (e "fuel_mass_required" - e "max_wingfuel_mass") + (e "fuel_mass_required" - e "max_wingfuel_mass") * dsigf 0 (1 / 50) (e "fuel_mass_required" - e "max_wingfuel_mass"))) in X.
  - assert (Z : (e "fuel_mass_required" - e "max_wingfuel_mass") * dsigf 0 (1 / 50) (e "fuel_mass_required" - e "max_wingfuel_mass") = 0) by lra.
    apply Rmult_integral in Z. lra.
  - auto_derive.
    + replace (e "fuel_mass_required" * 1 + - (e "max_wingfuel_mass" * 1)) with (e "fuel_mass_required" - e "max_wingfuel_mass") by ring. unfold in_range in I. repeat split; lra.
    + replace (e "fuel_mass_required" * 1 + - (e "max_wingfuel_mass" * 1)) with (e "fuel_mass_required" - e "max_wingfuel_mass") by ring. field.
Qed.
Print Assumptions C62_auxiliary_refuted.

Example C62_witness_auxiliary : in_range (2 - 1) 0 (1 / 50) /\ 2 <> 1.
Proof. unfold in_range. lra. Qed.
