(** C36, C49, C50 and C51: FLOPS engine controls, fuel capacity and fuel system. *)
From Coq Require Import Reals Lra.
From Coquelicot Require Import Coquelicot.
From Verif Require Import Base Calc MathModel MathProofs Comp MassDistModel MassDistProofs MassPropModel.
Open Scope list_scope.
Open Scope string_scope.
Local Open Scope R_scope.

Theorem C49_TransportEngineCtrlsMass op : positive [Aircraft_Propulsion_TOTAL_NUM_ENGINES] (on op) ->
  exact_partials (TransportEngineCtrlsMass op) (positive [Aircraft_Propulsion_TOTAL_SCALED_SLS_THRUST]).
Proof. intros Dop. exact_solve. Qed.
Print Assumptions C49_TransportEngineCtrlsMass.
Example C49_witness_TransportEngineCtrlsMass : out (TransportEngineCtrlsMass unit_options) (fun _ => 1)
  Aircraft_Propulsion_TOTAL_ENGINE_CONTROLS_MASS = 13 / 50.
Proof. unit_value. Qed.

Theorem C49_FuselageFuelCapacity op : exact_partials (FuselageFuelCapacity op) everywhere.
Proof. exact_solve. Qed.
Print Assumptions C49_FuselageFuelCapacity.
Example C49_witness_FuselageFuelCapacity : out (FuselageFuelCapacity unit_options) (fun _ => 1)
  Aircraft_Fuel_FUSELAGE_FUEL_MASS_CAPACITY = 0.
Proof. unit_value. Qed.

Theorem C49_AuxFuelCapacity op : exact_partials (AuxFuelCapacity op) everywhere.
Proof. exact_solve. Qed.
Print Assumptions C49_AuxFuelCapacity.
Example C49_witness_AuxFuelCapacity : out (AuxFuelCapacity unit_options) (fun _ => 1)
  Aircraft_Fuel_AUXILIARY_FUEL_MASS_CAPACITY = -1.
Proof. unit_value. Qed.

Theorem C49_TotalFuelCapacity op : exact_partials (TotalFuelCapacity op) everywhere.
Proof. exact_solve. Qed.
Print Assumptions C49_TotalFuelCapacity.
Example C49_witness_TotalFuelCapacity : out (TotalFuelCapacity unit_options) (fun _ => 1)
  Aircraft_Fuel_MAX_CAPACITY_MASS = 3.
Proof. unit_value. Qed.

Theorem C49_WingFuelCapacity op : exact_partials (WingFuelCapacity op) (positive [Aircraft_Wing_SPAN;
  Aircraft_Wing_TAPER_RATIO]).
Proof. exact_solve. Qed.
Print Assumptions C49_WingFuelCapacity.
Example C49_witness_WingFuelCapacity : out (WingFuelCapacity unit_options) (fun _ => 1)
  Aircraft_Fuel_WING_FUEL_MASS_CAPACITY = 1 / 2.
Proof. unit_value. Qed.

(** The partial with respect to the capacity uses the number of engines where the output uses the distributed
    engine count factor: exact up to four engines, wrong above. *)
Theorem C49_TransportFuelSystemMass_except op : exact_except (TransportFuelSystemMass op)
  (positive [Aircraft_Fuel_MAX_CAPACITY_MASS]) [(Aircraft_Fuel_FUEL_SYSTEM_MASS, Aircraft_Fuel_MAX_CAPACITY_MASS)].
Proof. except_solve. Qed.
Print Assumptions C49_TransportFuelSystemMass_except.
Ltac exact_small N :=
  exact_start;
  match goal with
  | op : options |- is_derive (fun t => out ?c (upd ?e _ t) _) _ _ =>
      match goal with D : context [e] |- _ =>
        revert D; let l := eval hnf in (c_ins c) in table e l; intro D; red_comp_in D
      end;
      red_comp; red_comp_in N; rewrite ?(count_factor_small _ N); numbers (on op); intros
  end; derive_goal.
Theorem C49_TransportFuelSystemMass op : on op Aircraft_Propulsion_TOTAL_NUM_ENGINES <= 4 ->
  exact_partials (TransportFuelSystemMass op) (positive [Aircraft_Fuel_MAX_CAPACITY_MASS]).
Proof.
  intro N. exact_small N; pw_field.
Qed.
Print Assumptions C49_TransportFuelSystemMass.
Theorem C49_TransportFuelSystemMass_refuted : ~ (forall op, positive [Aircraft_Propulsion_TOTAL_NUM_ENGINES;
  Mission_Constraints_MAX_MACH] (on op) ->
  exact_partials (TransportFuelSystemMass op) (positive [Aircraft_Fuel_MAX_CAPACITY_MASS])).
Proof.
  intro H. destruct (H {| on := fun _ => 16; ob := fun _ => false; oe := fun _ => "" |}) as (_ & _ & X); [cbn; lra|].
  specialize (X (fun _ => 1) ltac:(red_comp; lra) Aircraft_Fuel_FUEL_SYSTEM_MASS Aircraft_Fuel_MAX_CAPACITY_MASS
    ltac:(now left) ltac:(right; now left)).
  unfold exact_at in X. revert X. red_comp. cbv [on].
  assert (F : 0 < distributed_engine_count_factor 16 < 8) by exact count_factor_16.
  set (f := distributed_engine_count_factor 16) in *. intro X. apply is_derive_unique in X.
  assert (D : is_derive (fun t => 107 / 100 * pw (58 / 100) t * pw (43 / 100) f * pw (34 / 100) 16 * 1 / 1) 1
    (107 / 100 * (58 / 100) * pw (43 / 100) f * pw (34 / 100) 16)).
  { auto_derive; [lra|]. rewrite pw_1. field. }
  apply is_derive_unique in D. pose proof (eq_trans (eq_sym X) D) as E. rewrite pw_1 in E. clear X D.
  assert (0 < pw (34 / 100) 16) by (apply pw_pos; lra).
  assert (P : pw (43 / 100) f < pw (43 / 100) 16)
    by (rewrite !pw_Rpower by lra; apply Rlt_Rpower_l; lra).
  nra.
Qed.
Print Assumptions C49_TransportFuelSystemMass_refuted.
Example C49_witness_TransportFuelSystemMass : out (TransportFuelSystemMass unit_options) (fun _ => 1)
  Aircraft_Fuel_FUEL_SYSTEM_MASS = 107 / 100.
Proof. unit_value. Qed.

Theorem C49_AltFuelSystemMass op : exact_partials (AltFuelSystemMass op) (positive
  [Aircraft_Fuel_MAX_CAPACITY_MASS]).
Proof. exact_solve. Qed.
Print Assumptions C49_AltFuelSystemMass.
Example C49_witness_AltFuelSystemMass :
  out (AltFuelSystemMass unit_options) (upd (fun _ => 1) Aircraft_Fuel_MAX_CAPACITY_MASS 208100)
    Aircraft_Fuel_FUEL_SYSTEM_MASS = 9786 / 130 + 22834 / 10 + 350 + 60349 / 1000.
Proof.
  red_comp; cbv [on ob oe unit_options]. replace (208100 / 208100) with 1 by field. rewrite pw_1. lra.
Qed.

Theorem C50_MassProp op : Forall (fun '(c, o, i) => proportional c o i)
  [(TransportFuelSystemMass op, Aircraft_Fuel_FUEL_SYSTEM_MASS,
     Aircraft_Fuel_FUEL_SYSTEM_MASS_SCALER);
   (AltFuelSystemMass op, Aircraft_Fuel_FUEL_SYSTEM_MASS,
     Aircraft_Fuel_FUEL_SYSTEM_MASS_SCALER)].
Proof. repeat apply Forall_cons; try apply Forall_nil. all: proportional_solve. Qed.
Print Assumptions C50_MassProp.

Theorem C51_MassProp op : positive [Aircraft_Fuel_NUM_TANKS; Aircraft_Propulsion_TOTAL_NUM_ENGINES; Mission_Constraints_MAX_MACH] (on op) ->
  Forall (fun '(c, o) => positive_output c o)
  [(TransportEngineCtrlsMass op, Aircraft_Propulsion_TOTAL_ENGINE_CONTROLS_MASS);
   (TotalFuelCapacity op, Aircraft_Fuel_MAX_CAPACITY_MASS);
   (TransportFuelSystemMass op, Aircraft_Fuel_FUEL_SYSTEM_MASS);
   (AltFuelSystemMass op, Aircraft_Fuel_FUEL_SYSTEM_MASS)].
Proof. intros; repeat apply Forall_cons; try apply Forall_nil. all: positive_solve. Qed.
Print Assumptions C51_MassProp.

