(** C38: GASP mass summation. *)
From Coq Require Import Reals Lra.
From Coquelicot Require Import Coquelicot.
From Verif Require Import Base Calc MathModel MathProofs Comp Vec MassDistProofs GaspSumModel GaspGroupModel.
Open Scope list_scope.
Open Scope string_scope.
Local Open Scope R_scope.

Theorem C38_EmpennageMass op : exact_partials (EmpennageMass op) everywhere.
Proof. exact_solve. Qed.
Print Assumptions C38_EmpennageMass.
Example C38_witness_EmpennageMass : out (EmpennageMass unit_options) (fun _ => 1) Aircraft_Design_EMPENNAGE_MASS =
  2.
Proof. unit_value. Qed.

Theorem C38_StructureMass op : exact_partials (StructureMass op) everywhere.
Proof. exact_solve. Qed.
Print Assumptions C38_StructureMass.
Example C38_witness_StructureMass : out (StructureMass unit_options) (fun _ => 1) Aircraft_Design_STRUCTURE_MASS =
  6.
Proof. unit_value. Qed.

Theorem C38_PropulsionMass op : exact_partials (PropulsionMass op) everywhere.
Proof. exact_solve. Qed.
Print Assumptions C38_PropulsionMass.
Example C38_witness_PropulsionMass : out (PropulsionMass unit_options) (fun _ => 1) Aircraft_Propulsion_MASS = 4.
Proof. unit_value. Qed.

Theorem C38_SystemsEquipmentMass op : exact_partials (SystemsEquipmentMass op) everywhere.
Proof. exact_solve. Qed.
Print Assumptions C38_SystemsEquipmentMass.
Example C38_witness_SystemsEquipmentMass : out (SystemsEquipmentMass unit_options) (fun _ => 1)
  Aircraft_Design_SYSTEMS_AND_EQUIPMENT_MASS = 10.
Proof. unit_value. Qed.

Theorem C38_EmptyMass op : exact_partials (EmptyMass op) everywhere.
Proof. exact_solve. Qed.
Print Assumptions C38_EmptyMass.
Example C38_witness_EmptyMass : out (EmptyMass unit_options) (fun _ => 1) Aircraft_Design_EMPTY_MASS = 4.
Proof. unit_value. Qed.

Theorem C38_OperatingItemsMass op : exact_partials (OperatingItemsMass op) everywhere.
Proof. exact_solve. Qed.
Print Assumptions C38_OperatingItemsMass.
Example C38_witness_OperatingItemsMass : out (OperatingItemsMass unit_options) (fun _ => 1)
  Mission_OPERATING_ITEMS_MASS = 8.
Proof. unit_value. Qed.

Theorem C38_OperatingMass op : exact_partials (OperatingMass op) everywhere.
Proof. exact_solve. Qed.
Print Assumptions C38_OperatingMass.
Example C38_witness_OperatingMass : out (OperatingMass unit_options) (fun _ => 1) Mission_OPERATING_MASS = 2.
Proof. unit_value. Qed.

Theorem C38_ZeroFuelMass op : exact_partials (ZeroFuelMass op) everywhere.
Proof. exact_solve. Qed.
Print Assumptions C38_ZeroFuelMass.
Example C38_witness_ZeroFuelMass : out (ZeroFuelMass unit_options) (fun _ => 1) Mission_ZERO_FUEL_MASS = 2.
Proof. unit_value. Qed.

Theorem C38_UsefulLoadMass op : exact_partials (UsefulLoadMass op) everywhere.
Proof. exact_solve. Qed.
Print Assumptions C38_UsefulLoadMass.
Example C38_witness_UsefulLoadMass : out (UsefulLoadMass unit_options) (fun _ => 1)
  Aircraft_Design_USEFUL_LOAD_MASS = 0.
Proof. unit_value. Qed.

(** The masses that the summation starts from. *)
Definition gasp_empty_leaves (m : string -> R) : R :=
  (* structure *)
  m "aircraft:wing:mass" + m "aircraft:horizontal_tail:mass" + m "aircraft:vertical_tail:mass"
  + m "aircraft:fuselage:mass" + m "aircraft:landing_gear:total_mass" + m "aircraft:propulsion:total_engine_pod_mass"
  + m "aircraft:design:structural_mass_increment"
  (* propulsion *)
  + m "aircraft:fuel:fuel_system_mass" + m "eng_comb_mass" + m "prop_mass_sum" + m "aircraft:battery:mass"
  (* systems and equipment *)
  + m "aircraft:air_conditioning:mass" + m "aircraft:anti_icing:mass" + m "aircraft:apu:mass" + m "aircraft:avionics:mass"
  + m "aircraft:electrical:mass" + m "aircraft:furnishings:mass" + m "aircraft:hydraulics:mass"
  + m "aircraft:instruments:mass" + m "aircraft:controls:mass" + m "aircraft:oxygen_system:mass"
  + m "aircraft:design:external_subsystems_mass".
Definition gasp_operating_items (m : string -> R) : R :=
  m "aircraft:crew_and_payload:cargo_container_mass" + m "aircraft:crew_and_payload:cabin_crew_mass"
  + m "aircraft:crew_and_payload:flight_crew_mass" + m "aircraft:crew_and_payload:passenger_service_mass"
  + m "aircraft:fuel:unusable_fuel_mass" + m "aircraft:propulsion:total_engine_oil_mass"
  + m "aircraft:design:emergency_equipment_mass" + m "mission:operating_items_mass_additional".

(** Every leaf mass is counted once, whatever the values, also of the totals before the run. *)
Theorem C38_conservation op e :
  let r x := run_group no_override (GaspMassSummation op) e x 0%nat in
  let m x := e x 0%nat in
  r "aircraft:design:empty_mass" = gasp_empty_leaves m /\
  r "mission:operating_items_mass" = gasp_operating_items m /\
  r "mission:operating_mass" = gasp_empty_leaves m + gasp_operating_items m /\
  r "mission:zero_fuel_mass" =
    gasp_empty_leaves m + gasp_operating_items m + m "aircraft:crew_and_payload:total_payload_mass" /\
  r "aircraft:design:useful_load_mass" = m "aircraft:design:gross_mass" - gasp_empty_leaves m.
Proof. cbv zeta. unfold gasp_empty_leaves, gasp_operating_items. repeat split. all: red_group; ring. Qed.
Print Assumptions C38_conservation.
Example C38_witness_conservation :
  run_group no_override (GaspMassSummation unit_options) (fun _ _ => 1) "mission:zero_fuel_mass" 0%nat = 22 + 8 + 1.
Proof. red_group. ring. Qed.

(** With totals supplied by the user, every total that is not supplied is still the sum of its parts. *)
Definition sums_to (over : string -> bool) (r : string -> R) (total : string) (v : R) : Prop :=
  over total = false -> r total = v.
Definition run_one' (over : string -> bool) (e : venv) (c : vcomp) : venv :=
  fun x k => if sets c x k then if over x then e x k else v_run c e x k else e x k.
Lemma run_one_swap over e c x k : run_one over e c x k = run_one' over e c x k.
Proof. unfold run_one, run_one'. destruct (over x), (sets c x k); reflexivity. Qed.
Lemma run_group_swap over l : forall e, run_group over l e = fold_left (run_one' over) l e.
Proof.
  induction l as [|c l IH]; intro e; [reflexivity|]. cbn [fold_left run_group]. rewrite <- IH. unfold run_group. cbn [fold_left].
  f_equal. apply FunctionalExtensionality.functional_extensionality. intro x.
  apply FunctionalExtensionality.functional_extensionality. intro k. apply run_one_swap.
Qed.
Ltac given :=
  repeat match goal with
  | H : ?o ?x = false |- _ => rewrite ?H; clear H
  | |- context [if ?c then _ else _] => destruct c
  end; ring.
Theorem C38_override op over e :
  let r x := run_group over (GaspMassSummation op) e x 0%nat in
  sums_to over r "aircraft:design:empennage_mass" (r "aircraft:horizontal_tail:mass" + r "aircraft:vertical_tail:mass") /\
  sums_to over r "aircraft:design:structure_mass"
    (r "aircraft:wing:mass" + r "aircraft:design:empennage_mass" + r "aircraft:fuselage:mass"
     + r "aircraft:landing_gear:total_mass" + r "aircraft:propulsion:total_engine_pod_mass"
     + r "aircraft:design:structural_mass_increment") /\
  sums_to over r "aircraft:propulsion:mass"
    (r "aircraft:fuel:fuel_system_mass" + r "eng_comb_mass" + r "prop_mass_sum" + r "aircraft:battery:mass") /\
  sums_to over r "aircraft:design:systems_and_equipment_mass"
    (r "aircraft:air_conditioning:mass" + r "aircraft:anti_icing:mass" + r "aircraft:apu:mass" + r "aircraft:avionics:mass"
     + r "aircraft:electrical:mass" + r "aircraft:furnishings:mass" + r "aircraft:hydraulics:mass"
     + r "aircraft:instruments:mass" + r "aircraft:controls:mass" + r "aircraft:oxygen_system:mass") /\
  sums_to over r "mission:operating_items_mass" (gasp_operating_items r) /\
  sums_to over r "aircraft:design:empty_mass"
    (r "aircraft:design:structure_mass" + r "aircraft:propulsion:mass" + r "aircraft:design:systems_and_equipment_mass"
     + r "aircraft:design:external_subsystems_mass") /\
  sums_to over r "mission:operating_mass" (r "aircraft:design:empty_mass" + r "mission:operating_items_mass") /\
  sums_to over r "mission:zero_fuel_mass"
    (r "mission:operating_mass" + r "aircraft:crew_and_payload:total_payload_mass") /\
  sums_to over r "aircraft:design:useful_load_mass" (r "aircraft:design:gross_mass" - r "aircraft:design:empty_mass").
Proof.
  rewrite run_group_swap. cbv zeta. unfold sums_to, gasp_operating_items. repeat split; intro H.
  all: red_group; given.
Qed.
Print Assumptions C38_override.
Example C38_witness_override :
  let over x := String.eqb x "aircraft:design:structure_mass" in
  run_group over (GaspMassSummation unit_options) (fun x _ => if over x then 100 else 1) "mission:zero_fuel_mass" 0%nat
    = 100 + 15 + 8 + 1.
Proof. cbv zeta. rewrite run_group_swap. red_group. ring. Qed.
