(** C36 and C37 for the groups. *)
From Coq Require Import Reals Lra Lia ssreflect.
From Coquelicot Require Import Coquelicot.
From Verif Require Import Base Calc MathModel MathProofs Comp Vec MassPropModel MassLoadModel MassStructModel MassSumModel MassGroupModel.
Open Scope list_scope.
Open Scope string_scope.
Local Open Scope R_scope.

(** ** C37 *)
Lemma derive_plus6 (f1 f2 f3 f4 f5 f6 : R -> R) x d1 d2 d3 d4 d5 d6 :
  is_derive f1 x d1 -> is_derive f2 x d2 -> is_derive f3 x d3 -> is_derive f4 x d4 -> is_derive f5 x d5 ->
  is_derive f6 x d6 ->
  is_derive (fun t => f1 t + f2 t + f3 t + f4 t + f5 t + f6 t) x (d1 + d2 + d3 + d4 + d5 + d6).
Proof.
  intros. repeat apply: (is_derive_plus (K := R_AbsRing) (V := R_NormedModule)); assumption.
Qed.
Ltac real_ring := match goal with |- ?a = ?b => change (@eq R a b) end; ring.

Theorem C37_StructureMass n num : vexact (StructureMass n num) (fun _ => True).
Proof.
  intros e _ o k (no & Ho & Ko) i l (ni & Hi & Li).
  cbn [v_ins v_outs StructureMass In] in Ho, Hi.
  assert (N : forall a, i <> Aircraft_Nacelle_MASS ->
    is_derive (fun t => vsum n (fun j => vupd e i l t Aircraft_Nacelle_MASS j * num j)) a 0).
  { intros a D. eapply is_derive_ext; [|apply (is_derive_const (V := R_NormedModule)
      (vsum n (fun j => e Aircraft_Nacelle_MASS j * num j)))].
    intro t. cbn. apply vsum_ext. intros j _. unfold vupd.
    destruct (String.eqb_spec Aircraft_Nacelle_MASS i); [congruence|]. reflexivity. }
  assert (Z : forall x a, x <> i -> is_derive (fun t => vupd e i l t x 0%nat) a 0).
  { intros x a D. eapply is_derive_ext; [|apply (is_derive_const (V := R_NormedModule) (e x 0%nat))].
    intro t. unfold vupd. destruct (String.eqb_spec x i); [congruence|]. reflexivity. }
  assert (U : forall a, is_derive (fun t => vupd e i 0 t i 0%nat) a 1).
  { intro a. eapply is_derive_ext; [|apply (is_derive_id (K := R_AbsRing))].
    intro t. unfold vupd. now rewrite String.eqb_refl. }
  cbn [v_run v_jac StructureMass].
  destruct Hi as [E|[E|[E|[E|[E|[E|[]]]]]]]; injection E as <- <-.
  all: try (assert (l = 0%nat) by lia; subst l).
  all: lazymatch goal with |- is_derive _ _ (if ?b then _ else _) => let v := eval lazy in b in change b with v end;
    cbv iota.
  4: {
    assert (M : is_derive (fun t => vsum n (fun j => vupd e Aircraft_Nacelle_MASS l t Aircraft_Nacelle_MASS j * num j))
      (e Aircraft_Nacelle_MASS l) (num l)).
    { rewrite <- (vsum_single n l (num l)) by exact Li.
      apply (vsum_derive n (fun t j => vupd e Aircraft_Nacelle_MASS l t Aircraft_Nacelle_MASS j * num j)).
      intros j J. unfold vupd. rewrite String.eqb_refl. cbn [andb]. destruct (Nat.eqb_spec j l) as [->|Nj].
      - auto_derive; [exact I|ring].
      - auto_derive; [exact I|ring]. }
    eapply is_derive_eq; [apply derive_plus6; first [exact M | apply Z; discriminate]|]. real_ring. }
  all: eapply is_derive_eq;
    [apply derive_plus6; lazymatch goal with
      | |- is_derive (fun t => vsum _ _) _ _ => apply N; discriminate
      | |- is_derive (fun t => vupd _ ?a _ t ?b _) _ _ => first [constr_eq a b; apply U | apply Z; discriminate]
      end|]; real_ring.
Qed.
Print Assumptions C37_StructureMass.
Example C37_witness_StructureMass : v_run (StructureMass 2 (fun k => if Nat.eqb k 0 then 2 else 4))
  (fun _ _ => 1) Aircraft_Design_STRUCTURE_MASS 0 = 11.
Proof. lazy -[Rplus Rmult IZR]. ring. Qed.

(** The masses that the summation starts from. *)
Definition leaves (n : nat) (num : nat -> R) (e : venv) : R :=
  let m x := e x 0%nat in
  (* structure *)
  m Aircraft_Wing_MASS + m Aircraft_Fuselage_MASS + m Aircraft_LandingGear_TOTAL_MASS + m Aircraft_Paint_MASS
  + m Aircraft_Canard_MASS + m Aircraft_Fins_MASS + m Aircraft_HorizontalTail_MASS + m Aircraft_VerticalTail_MASS
  + vsum n (fun k => e Aircraft_Nacelle_MASS k * num k)
  (* propulsion *)
  + m Aircraft_Fuel_FUEL_SYSTEM_MASS + m Aircraft_Propulsion_TOTAL_MISC_MASS
  + m Aircraft_Propulsion_TOTAL_THRUST_REVERSERS_MASS + m Aircraft_Propulsion_TOTAL_ENGINE_MASS + m Aircraft_Battery_MASS
  (* systems and equipment, without furnishings *)
  + m Aircraft_AirConditioning_MASS + m Aircraft_AntiIcing_MASS + m Aircraft_APU_MASS + m Aircraft_Avionics_MASS
  + m Aircraft_Electrical_MASS + m Aircraft_Hydraulics_MASS + m Aircraft_Instruments_MASS
  + m Aircraft_Wing_SURFACE_CONTROL_MASS.
Definition operating_items (e : venv) : R :=
  let m x := e x 0%nat in
  m Aircraft_CrewPayload_CARGO_CONTAINER_MASS + m Aircraft_CrewPayload_CABIN_CREW_MASS
  + m Aircraft_CrewPayload_FLIGHT_CREW_MASS + m Aircraft_CrewPayload_PASSENGER_SERVICE_MASS
  + m Aircraft_Fuel_UNUSABLE_FUEL_MASS + m Aircraft_Propulsion_TOTAL_ENGINE_OIL_MASS
  + m Mission_OPERATING_ITEMS_MASS_ADDITIONAL.

Theorem C37_conservation op n num e :
  let r := run_group no_override (MassSummation op false n num) e in
  let margin := 1 + e Aircraft_Design_EMPTY_MASS_MARGIN_SCALER 0%nat in
  r Aircraft_Design_EMPTY_MASS 0%nat =
    margin * (leaves n num e + e Aircraft_Furnishings_MASS 0%nat) + e Aircraft_Design_EXTERNAL_SUBSYSTEMS_MASS 0%nat /\
  r Mission_OPERATING_MASS 0%nat = r Aircraft_Design_EMPTY_MASS 0%nat + operating_items e /\
  r Mission_ZERO_FUEL_MASS 0%nat = r Mission_OPERATING_MASS 0%nat + e Aircraft_CrewPayload_TOTAL_PAYLOAD_MASS 0%nat /\
  r Aircraft_Design_USEFUL_LOAD_MASS 0%nat = e Aircraft_Design_GROSS_MASS 0%nat - r Aircraft_Design_EMPTY_MASS 0%nat /\
  r Aircraft_Controls_MASS 0%nat = e Aircraft_Wing_SURFACE_CONTROL_MASS 0%nat.
Proof. cbv zeta. unfold leaves, operating_items. repeat split. all: red_group; ring. Qed.
Print Assumptions C37_conservation.

Theorem C37_conservation_alternate op n num e :
  let r := run_group no_override (MassSummation op true n num) e in
  let margin := 1 + e Aircraft_Design_EMPTY_MASS_MARGIN_SCALER 0%nat in
  r Aircraft_Design_EMPTY_MASS 0%nat =
    margin * (101 / 100) * (leaves n num e + e Aircraft_Furnishings_MASS_BASE 0%nat)
    + e Aircraft_Design_EXTERNAL_SUBSYSTEMS_MASS 0%nat /\
  r Aircraft_Design_SYSTEMS_AND_EQUIPMENT_MASS 0%nat + r Aircraft_Design_STRUCTURE_MASS 0%nat
    + r Aircraft_Propulsion_MASS 0%nat = 101 / 100 * (leaves n num e + e Aircraft_Furnishings_MASS_BASE 0%nat) /\
  r Mission_OPERATING_MASS 0%nat = r Aircraft_Design_EMPTY_MASS 0%nat + operating_items e /\
  r Mission_ZERO_FUEL_MASS 0%nat = r Mission_OPERATING_MASS 0%nat + e Aircraft_CrewPayload_TOTAL_PAYLOAD_MASS 0%nat /\
  r Aircraft_Design_USEFUL_LOAD_MASS 0%nat = e Aircraft_Design_GROSS_MASS 0%nat - r Aircraft_Design_EMPTY_MASS 0%nat.
Proof. cbv zeta. unfold leaves, operating_items. repeat split. all: red_group; lra. Qed.
Print Assumptions C37_conservation_alternate.

Example C37_witness_conservation :
  run_group no_override (MassSummation unit_options false 2 (fun _ => 2)) (fun _ _ => 1) Mission_ZERO_FUEL_MASS 0%nat
    = 2 * (21 + 4 + 1) + 1 + 7 + 1.
Proof. red_group. cbn [vsum]. ring. Qed.

(** ** C36 *)
(** The four components form a cycle: the total is the sum of parts, two of which are computed from the total. *)
Theorem C36_conservation op e :
  let r := run_group no_override (FuelCapacityGroup op) e in
  r Aircraft_Fuel_MAX_CAPACITY_MASS 0%nat = r Aircraft_Fuel_WING_FUEL_MASS_CAPACITY 0%nat
    + r Aircraft_Fuel_FUSELAGE_FUEL_MASS_CAPACITY 0%nat + r Aircraft_Fuel_AUXILIARY_FUEL_MASS_CAPACITY 0%nat /\
  r Aircraft_Fuel_FUSELAGE_FUEL_MASS_CAPACITY 0%nat
    = e Aircraft_Fuel_MAX_CAPACITY_MASS 0%nat - r Aircraft_Fuel_WING_FUEL_MASS_CAPACITY 0%nat /\
  r Aircraft_Fuel_AUXILIARY_FUEL_MASS_CAPACITY 0%nat = 0.
Proof. cbv zeta. repeat split. all: red_group; ring. Qed.
Print Assumptions C36_conservation.

(** So the cycle keeps whatever total it started from, and the first pass is already converged: the equations have
    one solution for every value of the total.  The total is determined only if the user supplies it. *)
Theorem C36_total_undetermined op e :
  run_group no_override (FuelCapacityGroup op) e Aircraft_Fuel_MAX_CAPACITY_MASS 0%nat
    = e Aircraft_Fuel_MAX_CAPACITY_MASS 0%nat.
Proof. red_group. ring. Qed.
Print Assumptions C36_total_undetermined.

Ltac supplied :=
  repeat match goal with H : _ = true |- _ => red_group_in H; revert H | H : _ = false |- _ => red_group_in H; revert H end;
  red_group; intros;
  repeat match goal with H : ?a = ?b |- _ => match b with true => idtac | false => idtac end; rewrite ?H; clear H end;
  cbv beta iota; ring.

(** With user supplied parts the sum still holds, whichever of the three parts are supplied, as long as the total is
    not. *)
Theorem C36_conservation_override op over e : over Aircraft_Fuel_MAX_CAPACITY_MASS = false ->
  let r := run_group over (FuelCapacityGroup op) e in
  r Aircraft_Fuel_MAX_CAPACITY_MASS 0%nat = r Aircraft_Fuel_WING_FUEL_MASS_CAPACITY 0%nat
    + r Aircraft_Fuel_FUSELAGE_FUEL_MASS_CAPACITY 0%nat + r Aircraft_Fuel_AUXILIARY_FUEL_MASS_CAPACITY 0%nat.
Proof.
  intro O. cbv zeta.
  destruct (over Aircraft_Fuel_WING_FUEL_MASS_CAPACITY) eqn:W, (over Aircraft_Fuel_FUSELAGE_FUEL_MASS_CAPACITY) eqn:F,
    (over Aircraft_Fuel_AUXILIARY_FUEL_MASS_CAPACITY) eqn:A.
  all: supplied.
Qed.
Print Assumptions C36_conservation_override.

(** If the total is supplied and at least one of the two remaining parts is computed, the parts add up to it. *)
Theorem C36_supplied_total op over e : over Aircraft_Fuel_MAX_CAPACITY_MASS = true ->
  over Aircraft_Fuel_AUXILIARY_FUEL_MASS_CAPACITY = false ->
  let r := run_group over (FuelCapacityGroup op) e in
  r Aircraft_Fuel_WING_FUEL_MASS_CAPACITY 0%nat + r Aircraft_Fuel_FUSELAGE_FUEL_MASS_CAPACITY 0%nat
    + r Aircraft_Fuel_AUXILIARY_FUEL_MASS_CAPACITY 0%nat = e Aircraft_Fuel_MAX_CAPACITY_MASS 0%nat.
Proof.
  intros O A. cbv zeta.
  destruct (over Aircraft_Fuel_WING_FUEL_MASS_CAPACITY) eqn:W, (over Aircraft_Fuel_FUSELAGE_FUEL_MASS_CAPACITY) eqn:F.
  all: supplied.
Qed.
Print Assumptions C36_supplied_total.

Example C36_witness :
  run_group no_override (FuelCapacityGroup unit_options) (fun x _ => if String.eqb x Aircraft_Fuel_MAX_CAPACITY_MASS then 10 else 1)
    Aircraft_Fuel_FUSELAGE_FUEL_MASS_CAPACITY 0%nat = 19 / 2.
Proof. red_group. lra. Qed.
