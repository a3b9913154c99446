(** Properties C22 (main/reserve split), C23 (reserve mass connections), C28 (fuel balance). *)
From Coq Require Import Reals Lra.
From Verif Require Import Base MissionModel MissionProofs.
Open Scope list_scope.

(** ** C22 *)
(** Accepted exactly when no main phase stands after a reserve phase; otherwise ValueError. *)
Theorem C22_accepts_iff_ordered :
  forall m, is_ok (separate_reserve_phases m) = true <-> ~ out_of_order m.
Proof. exact split_accepts. Qed.
Print Assumptions C22_accepts_iff_ordered.

Theorem C22_rejects_with_ValueError :
  forall m, separate_reserve_phases m = Err ValueError <-> out_of_order m.
Proof. exact split_rejects. Qed.
Print Assumptions C22_rejects_with_ValueError.

(** The two lists are exactly the main and the reserve phases, each in mission order, and together
    they are the phases that carry user options, in order. *)
Theorem C22_nothing_lost :
  forall m a b, separate_reserve_phases m = Ok (a, b) ->
    a = names_of in_main m /\ b = names_of in_reserve m /\ a ++ b = names_of has_options m.
Proof. exact split_result. Qed.
Print Assumptions C22_nothing_lost.

Definition ph (o : option (option pyobj)) := {| user_options := o |}.
Definition sample : dict phase_info :=
  [("climb", ph (Some None)); ("cruise", ph (Some (Some PFalse))); ("note", ph None);
   ("hold", ph (Some (Some PTrue))); ("divert", ph (Some (Some PTrue)))].
Example C22_witness : separate_reserve_phases sample = Ok (["climb"; "cruise"], ["hold"; "divert"]).
Proof. reflexivity. Qed.
Example C22_witness_rejected :
  out_of_order [("hold", ph (Some (Some PTrue))); ("climb", ph (Some None))].
Proof. exists [], ("hold", ph (Some (Some PTrue))), [], ("climb", ph (Some None)), []. repeat split. Qed.

(** The full reading "reserve = 0 is false, so the phase is a main phase" does not hold: any object
    other than the singleton False makes a reserve phase. *)
Theorem C22_falsy_flag_refuted :
  exists m, m = [("climb", ph (Some (Some (POther 0))))] /\
            separate_reserve_phases m = Ok ([], ["climb"]).
Proof. eexists. split; reflexivity. Qed.
Print Assumptions C22_falsy_flag_refuted.

(** ** C23 *)
(** Two or more reserve phases: exactly the intended connections are requested. *)
Theorem C23_two_or_more_reserve_phases :
  forall mo m m0 mt r0 r1 rt,
    NoDup (dkeys m) -> ~ out_of_order m -> names_of in_main m = m0 :: mt ->
    names_of in_reserve m = r0 :: r1 :: rt ->
    exists b, post_mission_bus mo m = Ok b /\
      connections b =
        map (fun t => (last (m0 :: mt) m0, (-1)%Z, t)) (TBurnedFinal :: if mo then [TMarginFinal] else [])
        ++ [(r0, 0%Z, TReserveInitial); (last (r1 :: rt) r1, (-1)%Z, TReserveFinal)].
Proof. exact bus_many. Qed.
Print Assumptions C23_two_or_more_reserve_phases.

Theorem C23_no_reserve_phase :
  forall mo m m0 mt,
    NoDup (dkeys m) -> ~ out_of_order m -> names_of in_main m = m0 :: mt -> names_of in_reserve m = [] ->
    exists b, post_mission_bus mo m = Ok b /\
      connections b =
        map (fun t => (last (m0 :: mt) m0, (-1)%Z, t)) (TBurnedFinal :: if mo then [TMarginFinal] else []).
Proof. exact bus_none. Qed.
Print Assumptions C23_no_reserve_phase.

(** Both ends of the reserve mission are connected iff there are at least two reserve phases. *)
Theorem C23_both_ends_iff_two :
  forall mo m b, NoDup (dkeys m) -> post_mission_bus mo m = Ok b ->
    (exists p q i j, In (p, i, TReserveInitial) (connections b) /\ In (q, j, TReserveFinal) (connections b)) <->
    2 <= length (names_of in_reserve m).
Proof. exact both_ends_iff. Qed.
Print Assumptions C23_both_ends_iff_two.

(** The full statement (both ends for any mission with a reserve phase) is false: with one reserve
    phase the second dictionary assignment replaces the first. *)
Theorem C23_single_reserve_phase_refuted :
  forall mo m m0 mt r0,
    NoDup (dkeys m) -> ~ out_of_order m -> names_of in_main m = m0 :: mt -> names_of in_reserve m = [r0] ->
    exists b, post_mission_bus mo m = Ok b /\ forall p i, ~ In (p, i, TReserveInitial) (connections b).
Proof.
  intros mo m m0 mt r0 ND H M R. destruct (bus_one mo m m0 mt r0 ND H M R) as (b & E & C).
  exists b. split; [exact E|]. intros p i I. rewrite C in I. apply in_app_or in I as [I|[I|[]]]; [|discriminate].
  apply in_map_iff in I as (t & Et & It). injection Et as _ _ ->. destruct mo; simpl in It; intuition discriminate.
Qed.
Print Assumptions C23_single_reserve_phase_refuted.

Theorem C23_no_main_phase_IndexError :
  forall mo m, ~ out_of_order m -> names_of in_main m = [] -> post_mission_bus mo m = Err IndexError.
Proof. exact bus_no_main. Qed.
Print Assumptions C23_no_main_phase_IndexError.

Example C23_witness :
  exists b, post_mission_bus true sample = Ok b /\
    connections b = [("cruise", (-1)%Z, TBurnedFinal); ("cruise", (-1)%Z, TMarginFinal);
                     ("hold", 0%Z, TReserveInitial); ("divert", (-1)%Z, TReserveFinal)].
Proof. eexists. split; reflexivity. Qed.

(** ** C28 *)
Local Open Scope R_scope.

(** The reported quantities in terms of masses along the mission. *)
Theorem C28_balance_with_reserve :
  forall dflt m series x m0 mt r0 r1 rt mf ri rf,
    NoDup (dkeys m) -> ~ out_of_order m -> names_of in_main m = m0 :: mt ->
    names_of in_reserve m = r0 :: r1 :: rt ->
    last_mass (series (last (m0 :: mt) m0)) = Some mf ->
    first_mass (series r0) = Some ri -> last_mass (series (last (r1 :: rt) r1)) = Some rf ->
    exists o, run_fuel dflt m series x = Ok o /\
      fuel_mass o = gross_mass x - mf /\ reserve_fuel o = ri - rf /\
      total_reserve o = margin x / 100 * (gross_mass x - mf) + additional x + (ri - rf) /\
      block_fuel o = gross_mass x - mf + taxi_in x /\
      excess_capacity o = max_capacity x - unusable x - total_fuel x /\
      mass_residual o = total_fuel x - fuel_mass o - total_reserve o.
Proof. exact balance_many. Qed.
Print Assumptions C28_balance_with_reserve.

Theorem C28_balance_without_reserve :
  forall dflt m series x m0 mt mf,
    NoDup (dkeys m) -> ~ out_of_order m -> names_of in_main m = m0 :: mt -> names_of in_reserve m = [] ->
    last_mass (series (last (m0 :: mt) m0)) = Some mf ->
    exists o, run_fuel dflt m series x = Ok o /\
      fuel_mass o = gross_mass x - mf /\ reserve_fuel o = 0 /\
      total_reserve o = margin x / 100 * (gross_mass x - mf) + additional x /\
      block_fuel o = gross_mass x - mf + taxi_in x /\
      excess_capacity o = max_capacity x - unusable x - total_fuel x /\
      mass_residual o = total_fuel x - fuel_mass o - total_reserve o.
Proof. exact balance_none. Qed.
Print Assumptions C28_balance_without_reserve.

(** For every mission that runs: residual zero iff loaded fuel = burned + total reserve, and then the
    capacity constraint says exactly that this fuel plus the unusable fuel fits the tanks. *)
Theorem C28_residual_zero_iff_fuel_matches :
  forall dflt m series x o, run_fuel dflt m series x = Ok o ->
    (mass_residual o = 0 <-> total_fuel x = fuel_mass o + total_reserve o) /\
    (mass_residual o = 0 -> (0 <= excess_capacity o <-> fuel_mass o + total_reserve o + unusable x <= max_capacity x)) /\
    total_reserve o = margin_mass o + additional x + reserve_fuel o /\
    block_fuel o - fuel_mass o = taxi_in x.
Proof. exact residual_meaning. Qed.
Print Assumptions C28_residual_zero_iff_fuel_matches.

(** The capacity constraint in force (when not switched off) and a zero residual: the fuel fits. *)
Theorem C28_feasible_fuel_fits :
  forall dflt m series x o ignore, run_fuel dflt m series x = Ok o -> mass_residual o = 0 ->
    (capacity_feasible ignore o <->
     ignore = true \/ fuel_mass o + total_reserve o + unusable x <= max_capacity x).
Proof. exact feasible_meaning. Qed.
Print Assumptions C28_feasible_fuel_fits.

(** Missions without a main phase, or with one after a reserve phase, raise ValueError. *)
Theorem C28_bad_missions_rejected :
  forall dflt m series x, out_of_order m \/ names_of in_main m = [] ->
    run_fuel dflt m series x = Err ValueError.
Proof. exact run_rejects. Qed.
Print Assumptions C28_bad_missions_rejected.

(** When the reserve mission starts where the main mission ends, gross mass less all burned fuel is the
    mass at the end of the reserve mission. *)
Theorem C28_mass_closes :
  forall dflt m series x m0 mt r0 r1 rt mf rf,
    NoDup (dkeys m) -> ~ out_of_order m -> names_of in_main m = m0 :: mt ->
    names_of in_reserve m = r0 :: r1 :: rt ->
    last_mass (series (last (m0 :: mt) m0)) = Some mf ->
    first_mass (series r0) = Some mf -> last_mass (series (last (r1 :: rt) r1)) = Some rf ->
    exists o, run_fuel dflt m series x = Ok o /\ gross_mass x - fuel_mass o - reserve_fuel o = rf.
Proof.
  intros. destruct (balance_many dflt m series x m0 mt r0 r1 rt mf mf rf) as (o & E & H6 & H7 & _); auto.
  exists o. split; [exact E|]. lra.
Qed.
Print Assumptions C28_mass_closes.

(** With exactly one reserve phase the reported reserve fuel ignores the mass at its start: it is the
    component default minus the final mass, for instance 1 - 130000. *)
Theorem C28_single_reserve_phase_refuted :
  forall dflt m series x m0 mt r0 mf rf,
    NoDup (dkeys m) -> ~ out_of_order m -> names_of in_main m = m0 :: mt -> names_of in_reserve m = [r0] ->
    last_mass (series (last (m0 :: mt) m0)) = Some mf -> last_mass (series r0) = Some rf ->
    exists o, run_fuel dflt m series x = Ok o /\ reserve_fuel o = dflt - rf.
Proof. exact balance_one. Qed.
Print Assumptions C28_single_reserve_phase_refuted.

Definition series1 (p : string) : list R :=
  if String.eqb p "cruise" then [150000; 140000; 135000]
  else if String.eqb p "hold" then [135000; 133000] else if String.eqb p "divert" then [133000; 130000] else [].
Definition fuel1 : fuel_in :=
  {| gross_mass := 150000; margin := 10; additional := 500; total_fuel := 22000;
     max_capacity := 30000; unusable := 100; taxi_in := 50 |}.
Example C28_witness :
  exists o, run_fuel 1 sample series1 fuel1 = Ok o /\ fuel_mass o = 15000 /\ reserve_fuel o = 5000 /\
            total_reserve o = 7000 /\ mass_residual o = 0 /\ block_fuel o = 15050.
Proof.
  assert (O : ~ out_of_order sample) by (apply split_accepts; reflexivity).
  assert (ND : NoDup (dkeys sample)).
  { repeat constructor; simpl; intuition discriminate. }
  destruct (balance_many 1 sample series1 fuel1 "climb" ["cruise"] "hold" "divert" [] 135000 135000 130000 ND O)
    as (o & E & A & B & D & F & G & K); try reflexivity.
  exists o. split; [exact E|]. unfold fuel1 in *; simpl in *. repeat split; lra.
Qed.
