(** C37: FLOPS mass summation. *)
From Coq Require Import Reals Lra.
From Coquelicot Require Import Coquelicot.
From Verif Require Import Base Calc MathModel MathProofs Comp MassDistModel MassDistProofs MassSumModel.
Open Scope list_scope.
Open Scope string_scope.
Local Open Scope R_scope.

Theorem C37_EmpennageMass op : exact_partials (EmpennageMass op) everywhere.
Proof. exact_solve. Qed.
Print Assumptions C37_EmpennageMass.
Example C37_witness_EmpennageMass : out (EmpennageMass unit_options) (fun _ => 1) Aircraft_Design_EMPENNAGE_MASS =
  4.
Proof. unit_value. Qed.

Theorem C37_PropulsionMass op : exact_partials (PropulsionMass op) everywhere.
Proof. exact_solve. Qed.
Print Assumptions C37_PropulsionMass.
Example C37_witness_PropulsionMass : out (PropulsionMass unit_options) (fun _ => 1) Aircraft_Propulsion_MASS = 5.
Proof. unit_value. Qed.

Theorem C37_FlightControls op : exact_partials (FlightControls op) everywhere.
Proof. exact_solve. Qed.
Print Assumptions C37_FlightControls.
Example C37_witness_FlightControls : out (FlightControls unit_options) (fun _ => 1) Aircraft_Controls_MASS = 1.
Proof. unit_value. Qed.

Theorem C37_SystemsEquipmentMass op : exact_partials (SystemsEquipmentMass op) everywhere.
Proof. exact_solve. Qed.
Print Assumptions C37_SystemsEquipmentMass.
Example C37_witness_SystemsEquipmentMass : out (SystemsEquipmentMass unit_options) (fun _ => 1)
  Aircraft_Design_SYSTEMS_AND_EQUIPMENT_MASS = 9.
Proof. unit_value. Qed.

Theorem C37_AltSystemsEquipmentMassBase op : exact_partials (AltSystemsEquipmentMassBase op) everywhere.
Proof. exact_solve. Qed.
Print Assumptions C37_AltSystemsEquipmentMassBase.
Example C37_witness_AltSystemsEquipmentMassBase : out (AltSystemsEquipmentMassBase unit_options) (fun _ => 1)
  Aircraft_Design_SYSTEMS_AND_EQUIPMENT_MASS_BASE = 9.
Proof. unit_value. Qed.

Theorem C37_AltSystemsEquipmentMass op : exact_partials (AltSystemsEquipmentMass op) everywhere.
Proof. exact_solve. Qed.
Print Assumptions C37_AltSystemsEquipmentMass.
Example C37_witness_AltSystemsEquipmentMass : out (AltSystemsEquipmentMass unit_options) (fun _ => 1)
  Aircraft_Design_SYSTEMS_AND_EQUIPMENT_MASS = 103 / 100.
Proof. unit_value. Qed.

Theorem C37_EmptyMass op : exact_partials (EmptyMass op) everywhere.
Proof. exact_solve. Qed.
Print Assumptions C37_EmptyMass.
Example C37_witness_EmptyMass : out (EmptyMass unit_options) (fun _ => 1) Aircraft_Design_EMPTY_MASS = 5.
Proof. unit_value. Qed.

Theorem C37_AltEmptyMass op : exact_partials (AltEmptyMass op) everywhere.
Proof. exact_solve. Qed.
Print Assumptions C37_AltEmptyMass.
Example C37_witness_AltEmptyMass : out (AltEmptyMass unit_options) (fun _ => 1) Aircraft_Design_EMPTY_MASS = 503 /
  100.
Proof. unit_value. Qed.

Theorem C37_OperatingItemsMass op : exact_partials (OperatingItemsMass op) everywhere.
Proof. exact_solve. Qed.
Print Assumptions C37_OperatingItemsMass.
Example C37_witness_OperatingItemsMass : out (OperatingItemsMass unit_options) (fun _ => 1)
  Mission_OPERATING_ITEMS_MASS = 7.
Proof. unit_value. Qed.

Theorem C37_OperatingMass op : exact_partials (OperatingMass op) everywhere.
Proof. exact_solve. Qed.
Print Assumptions C37_OperatingMass.
Example C37_witness_OperatingMass : out (OperatingMass unit_options) (fun _ => 1) Mission_OPERATING_MASS = 2.
Proof. unit_value. Qed.

Theorem C37_ZeroFuelMass op : exact_partials (ZeroFuelMass op) everywhere.
Proof. exact_solve. Qed.
Print Assumptions C37_ZeroFuelMass.
Example C37_witness_ZeroFuelMass : out (ZeroFuelMass unit_options) (fun _ => 1) Mission_ZERO_FUEL_MASS = 2.
Proof. unit_value. Qed.

Theorem C37_UsefulLoadMass op : exact_partials (UsefulLoadMass op) everywhere.
Proof. exact_solve. Qed.
Print Assumptions C37_UsefulLoadMass.
Example C37_witness_UsefulLoadMass : out (UsefulLoadMass unit_options) (fun _ => 1)
  Aircraft_Design_USEFUL_LOAD_MASS = 0.
Proof. unit_value. Qed.

Theorem C51_MassSum op : Forall (fun '(c, o) => positive_output c o)
  [(EmpennageMass op, Aircraft_Design_EMPENNAGE_MASS);
   (PropulsionMass op, Aircraft_Propulsion_MASS);
   (FlightControls op, Aircraft_Controls_MASS);
   (SystemsEquipmentMass op, Aircraft_Design_SYSTEMS_AND_EQUIPMENT_MASS);
   (AltSystemsEquipmentMassBase op, Aircraft_Design_SYSTEMS_AND_EQUIPMENT_MASS_BASE);
   (AltSystemsEquipmentMass op, Aircraft_Design_SYSTEMS_AND_EQUIPMENT_MASS);
   (EmptyMass op, Aircraft_Design_EMPTY_MASS);
   (AltEmptyMass op, Aircraft_Design_EMPTY_MASS);
   (OperatingItemsMass op, Mission_OPERATING_ITEMS_MASS);
   (OperatingMass op, Mission_OPERATING_MASS);
   (ZeroFuelMass op, Mission_ZERO_FUEL_MASS)].
Proof. intros; repeat apply Forall_cons; try apply Forall_nil. all: positive_solve. Qed.
Print Assumptions C51_MassSum.

