(** Lift, drag, induced drag without forward sweep and the battery: claim C60. *)
From Coq Require Import Reals Lra Lia.
From Coquelicot Require Import Coquelicot.
From Verif Require Import Base Calc MathModel MathProofs Comp CompMore CompFun FAeroModel.
Local Open Scope R_scope.

Theorem C60_SimpleLift op : exact_nodes SimpleLift_shared (SimpleLift op) everywhere [].
Proof. nodes_solve. Qed.
Print Assumptions C60_SimpleLift.
Example C60_witness_SimpleLift : out (SimpleLift unit_options) (fun _ => 1) Dynamic_Vehicle_LIFT = 1.
Proof. unit_value. Qed.

Theorem C60_LiftEqualsWeight op : exact_nodes LiftEqualsWeight_shared (LiftEqualsWeight op) (positive [Aircraft_Wing_AREA; Dynamic_Atmosphere_DYNAMIC_PRESSURE]) [].
Proof. nodes_solve. Qed.
Print Assumptions C60_LiftEqualsWeight.
Example C60_witness_LiftEqualsWeight : out (LiftEqualsWeight unit_options) (fun _ => 1) Dynamic_Vehicle_LIFT_COEFFICIENT = 1.
Proof. unit_value. Qed.

Theorem C60_SimpleDrag op : exact_nodes SimpleDrag_shared (SimpleDrag op) everywhere [].
Proof. nodes_solve. Qed.
Print Assumptions C60_SimpleDrag.
Example C60_witness_SimpleDrag : out (SimpleDrag unit_options) (fun _ => 1) Dynamic_Vehicle_DRAG = 1.
Proof. unit_value. Qed.

Theorem C60_ScaledCD op : exact_nodes ScaledCD_shared (ScaledCD op) (fun e => e Dynamic_Atmosphere_MACH <> 1) [].
Proof. nodes_solve. Qed.
Print Assumptions C60_ScaledCD.
Example C60_witness_ScaledCD : out (ScaledCD unit_options) (fun _ => 1) Dynamic_Vehicle_DRAG_COEFFICIENT = 1.
Proof. unit_value. Qed.

Theorem C60_SizeBattery op : exact_partials (SizeBattery op) everywhere.
Proof. exact_start; more_goals. Qed.
Print Assumptions C60_SizeBattery.
Example C60_witness_SizeBattery : out (SizeBattery unit_options) (fun _ => 1) Aircraft_Battery_MASS = 2.
Proof. unit_value. Qed.

Theorem C60_InducedDrag op : positive [v_gamma] (on op) -> exact_nodes InducedDrag_shared (InducedDrag op) (fun e =>
  positive [Dynamic_Atmosphere_MACH; Dynamic_Atmosphere_STATIC_PRESSURE; Aircraft_Wing_AREA; Aircraft_Wing_ASPECT_RATIO;
    Aircraft_Wing_SPAN_EFFICIENCY_FACTOR; Aircraft_Wing_SWEEP] e /\ e Aircraft_Wing_SPAN_EFFICIENCY_FACTOR <> 3 / 10) [].
Proof. intro Dop. pose proof PI_RGT_0. nodes_solve. Qed.
Print Assumptions C60_InducedDrag.
Example C60_witness_InducedDrag : out (InducedDrag unit_options) (fun _ => 1) v_induced_drag_coeff = 4 / PI.
Proof. pose proof PI_RGT_0. red_comp; cbv [on ob oe unit_options]; unit_facts; branches; decided; field. lra. Qed.

Ltac redux_field :=
  match goal with S : 0 < ?a, H : 0 < 1 + 1 / 10 * ?a * (_ * sqrt ?a - _ - _) |- _ =>
    let s := fresh "s" in let P := fresh "P" in let E := fresh "E" in
    assert (P : 0 < sqrt a) by (apply sqrt_lt_R0; exact S);
    assert (E : a = sqrt a * sqrt a) by (symmetry; apply sqrt_def; lra);
    revert P E H; generalize (sqrt a); intros s P E H; subst a;
    field; repeat split; try nonzero; try (apply Rgt_not_eq; lra)
  end.
Theorem C60_InducedDragRedux op : positive [v_gamma] (on op) -> exact_nodes InducedDragRedux_shared (InducedDragRedux op) (fun e =>
  positive [Dynamic_Atmosphere_MACH; Dynamic_Atmosphere_STATIC_PRESSURE; Aircraft_Wing_AREA; Aircraft_Wing_ASPECT_RATIO;
    Aircraft_Wing_SPAN_EFFICIENCY_FACTOR; Aircraft_Wing_SWEEP] e /\ e Aircraft_Wing_SPAN_EFFICIENCY_FACTOR <> 3 / 10 /\
  0 < 1 + 1 / 10 * e Aircraft_Wing_ASPECT_RATIO * (4226 / 10000 * sqrt (e Aircraft_Wing_ASPECT_RATIO) -
      35 / 100 * e Aircraft_Wing_TAPER_RATIO - 143 / 1000)) [].
Proof. intro Dop. pose proof PI_RGT_0.  apply nodes_exact; exact_start; exact_prepare; repeat settle; derive_goal.
 all: try redux_field. Qed.
Print Assumptions C60_InducedDragRedux.
Example C60_witness_InducedDragRedux : out (InducedDragRedux unit_options) (fun _ => 1) v_induced_drag_coeff = 4 / (PI * (99296 / 100000)).
Proof. pose proof PI_RGT_0. red_comp; cbv [on ob oe unit_options]; unit_facts; branches; decided; rewrite sqrt_1; field. lra. Qed.

