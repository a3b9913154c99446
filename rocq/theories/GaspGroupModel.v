(** The group of GASP based mass summation components, /repo/aviary/subsystems/mass/gasp_based/mass_summation.py.
    The group runs its components in the order in which they are added, with all variables promoted. *)
From Coq Require Import Reals.
From Verif Require Import Base Comp Vec GaspSumModel.
Open Scope list_scope.
Local Open Scope R_scope.

(** MassSummation.setup, mass_summation.py L14-55. *)
Definition GaspMassSummation (op : options) : list vcomp :=
  [scalar (EmpennageMass op); scalar (StructureMass op); scalar (PropulsionMass op); scalar (SystemsEquipmentMass op);
   scalar (EmptyMass op); scalar (OperatingItemsMass op); scalar (OperatingMass op); scalar (ZeroFuelMass op);
   scalar (UsefulLoadMass op)].
