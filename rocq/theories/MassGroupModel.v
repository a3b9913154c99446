(** The groups of FLOPS based mass components: fuel capacity and mass summation.

    Sources: /repo/aviary/subsystems/mass/flops_based/fuel_capacity.py and mass_summation.py.  Groups run their
    components in the order in which they are added, with all variables promoted. *)
From Coq Require Import Reals.
From Verif Require Import Base Comp Vec MassPropModel MassLoadModel MassStructModel MassSumModel.
Open Scope list_scope.
Open Scope string_scope.
Local Open Scope R_scope.

Definition Aircraft_Nacelle_MASS := "aircraft:nacelle:mass".
Definition Aircraft_LandingGear_TOTAL_MASS := "aircraft:landing_gear:total_mass".

(** StructureMass, mass_summation.py L105-149, for any number [n] of engine types; [num k] is entry [k] of the
    option NUM_ENGINES.  All partials are declared constants: 1, and the number of engines for the nacelles
    (L125-131). *)
Definition StructureMass (n : nat) (num : nat -> R) : vcomp := {|
  v_ins := [(Aircraft_Design_EMPENNAGE_MASS, 1%nat); (Aircraft_Fuselage_MASS, 1%nat);
            (Aircraft_LandingGear_TOTAL_MASS, 1%nat); (Aircraft_Nacelle_MASS, n); (Aircraft_Paint_MASS, 1%nat);
            (Aircraft_Wing_MASS, 1%nat)];
  v_outs := [(Aircraft_Design_STRUCTURE_MASS, 1%nat)];
  v_run := fun e o k =>
    e Aircraft_Wing_MASS 0%nat + e Aircraft_Design_EMPENNAGE_MASS 0%nat + e Aircraft_Fuselage_MASS 0%nat
    + e Aircraft_LandingGear_TOTAL_MASS 0%nat + vsum n (fun j => e Aircraft_Nacelle_MASS j * num j)
    + e Aircraft_Paint_MASS 0%nat;
  v_jac := fun e o k i l => if String.eqb i Aircraft_Nacelle_MASS then 1 * num l else 1 |}.

(** EmptyMassGroup, mass_summation.py L304-324. *)
Definition EmptyMassGroup (op : options) (alt : bool) : list vcomp :=
  scalar (EmptyMassMargin op) :: [scalar (if alt then AltEmptyMass op else EmptyMass op)].

(** MassSummation.setup, mass_summation.py L18-81. *)
Definition MassSummation (op : options) (alt : bool) (n : nat) (num : nat -> R) : list vcomp :=
  [scalar (EmpennageMass op); StructureMass n num; scalar (PropulsionMass op); scalar (FlightControls op)]
  ++ (if alt then [scalar (AltSystemsEquipmentMassBase op); scalar (AltSystemsEquipmentMass op)]
      else [scalar (SystemsEquipmentMass op)])
  ++ EmptyMassGroup op alt
  ++ [scalar (OperatingItemsMass op); scalar (OperatingMass op); scalar (ZeroFuelMass op);
      scalar (UsefulLoadMass op)].

(** FuelCapacityGroup.setup, fuel_capacity.py L12-39. *)
Definition FuelCapacityGroup (op : options) : list vcomp :=
  [scalar (WingFuelCapacity op); scalar (FuselageFuelCapacity op); scalar (AuxFuelCapacity op);
   scalar (TotalFuelCapacity op)].
