(** C24: phase linking. *)
From Coq Require Import QArith.
From Verif Require Import Base LinkModel LinkProofs.
Open Scope nat_scope.
Open Scope list_scope.
Open Scope string_scope.

(** Which variables are linked across which boundaries, by connection or by constraint. *)
Theorem C24_links_iff : forall size par rs phases acts cd,
  direct size par cd -> link_phases size par rs phases = Ok acts ->
  forall n1 n2 v c,
  (exists kw, In (ALink n1 n2 v c kw) acts) <->
  exists a b, adjacent phases a b /\ ~ starts_reserve rs b /\
              n1 = pname a /\ n2 = pname b /\ link_due cd a b v c.
Proof. intros. now apply (proj1 (link_phases_spec size par rs phases acts cd H H0)). Qed.
Print Assumptions C24_links_iff.

(** Which quantities are passed to the single start input of an analytic phase. *)
Theorem C24_analytic_iff : forall size par rs phases acts cd,
  direct size par cd -> link_phases size par rs phases = Ok acts ->
  forall n1 n2 v w c,
  (exists kw, In (AConstraint n1 n2 v w c kw) acts) <->
  exists a b, adjacent phases a b /\ ~ starts_reserve rs b /\
              n1 = pname a /\ n2 = pname b /\ constraint_due cd a b v w c.
Proof. intros. now apply (proj2 (link_phases_spec size par rs phases acts cd H H0)). Qed.
Print Assumptions C24_analytic_iff.

Theorem C24_once : forall size par rs phases acts,
  NoDup (map pname phases) -> (forall p, In p phases -> one_form p) ->
  link_phases size par rs phases = Ok acts -> NoDup (links acts).
Proof. exact link_phases_once. Qed.
Print Assumptions C24_once.

(** Connections carry no scaling, constraints the scaling of the upstream or downstream phase, and
    only states of the downstream phase are released. *)
Theorem C24_scaling : forall size par rs phases acts a,
  link_phases size par rs phases = Ok acts -> In a acts ->
  exists x y, adjacent phases x y /\ good_kw x y a.
Proof. exact link_phases_kw. Qed.
Print Assumptions C24_scaling.

Theorem C24_released_iff : forall size par rs phases acts cd n v,
  direct size par cd -> (forall p, In p phases -> no_analytic p) ->
  link_phases size par rs phases = Ok acts ->
  (In (AInputInitialFalse n v) acts <->
   exists a b, adjacent phases a b /\ ~ starts_reserve rs b /\ n = pname b /\ release_due cd a b v).
Proof. exact link_phases_release. Qed.
Print Assumptions C24_released_iff.

(** With options of the right shape the only possible failure is the unassigned name, and it cannot
    happen when every linked boundary shares a variable. *)
Theorem C24_succeeds : forall size par rs phases,
  (forall p, In p phases -> pairs_ok p) ->
  ((exists a, link_phases size par rs phases = Ok a) \/ link_phases size par rs phases = Err UnboundLocalError) /\
  ((forall a b, adjacent phases a b -> ~ starts_reserve rs b -> exists v, In v (lvars a) /\ In v (lvars b)) ->
   exists a, link_phases size par rs phases = Ok a).
Proof. exact link_phases_fine. Qed.
Print Assumptions C24_succeeds.

(** ** Concrete phases *)
Definition flight_vars : list string := ["altitude"; "distance"; "mach"; "mass"; "time"].
Definition breguet_vars : list string := ["initial_time"; "initial_distance"; "altitude"; "mach"; "mass"].

Definition climb : phase :=
  {| pname := "climb"; integ := "time"; states := ["distance"; "mass"]; lvars := flight_vars;
     info := [("altitude_optimize", VBool false); ("mach_optimize", VBool true);
              ("mach_final", VPair (Some (7 # 10)%Q) (Some "unitless"));
              ("mass_ref", VPair (Some (1000 # 1)%Q) (Some "lbm"))] |}.
Definition cruise : phase :=
  {| pname := "cruise"; integ := "time"; states := ["distance"; "mass"]; lvars := flight_vars;
     info := [("altitude_optimize", VBool false); ("mach_optimize", VBool true);
              ("mach_initial", VPair (Some (7 # 10)%Q) (Some "unitless"));
              ("mass_direct_link", VBool false)] |}.
Definition hold : phase :=
  {| pname := "hold"; integ := "time"; states := ["distance"; "mass"]; lvars := flight_vars;
     info := [("reserve", VBool true)] |}.

(** Altitude is static on both sides and Mach is pinned on both sides: neither is linked; mass is
    constrained, scaled by the upstream reference, and released; nothing reaches the reserve phase. *)
Example C24_witness :
  link_phases 1 false ["hold"] [climb; cruise; hold] =
  Ok [ALink "climb" "cruise" "distance" true no_kwargs;
      AInputInitialFalse "cruise" "mass";
      ALink "climb" "cruise" "mass" false
        {| k_ref := Some (1000 # 1)%Q; k_ref0 := None; k_units := Some "lbm" |};
      ALink "climb" "cruise" "time" true no_kwargs].
Proof. vm_compute. reflexivity. Qed.

(** In parallel over MPI everything is constrained. *)
Example C24_witness_mpi :
  link_phases 2 true [] [cruise; hold] =
  Ok [ALink "cruise" "hold" "altitude" false no_kwargs;
      AInputInitialFalse "hold" "distance";
      ALink "cruise" "hold" "distance" false no_kwargs;
      ALink "cruise" "hold" "mach" false no_kwargs;
      AInputInitialFalse "hold" "mass";
      ALink "cruise" "hold" "mass" false no_kwargs;
      ALink "cruise" "hold" "time" false no_kwargs].
Proof. vm_compute. reflexivity. Qed.

Example C24_witness_hypotheses :
  direct 1 false true /\ NoDup (map pname [climb; cruise; hold]) /\
  (forall p, In p [climb; cruise; hold] -> one_form p) /\
  (forall p, In p [climb; cruise; hold] -> no_analytic p).
Proof.
  split; [unfold direct; split; [discriminate|intros [_ [=]]]|].
  split; [repeat constructor; cbn; intuition discriminate|].
  split; intros p I; cbn in I; destruct I as [<-|[<-|[<-|[]]]].
  1-3: split; [repeat constructor; cbn; intuition discriminate|intros v _ J; cbn in J; intuition discriminate].
  all: intros u J; cbn in J; intuition discriminate.
Qed.

(** The source says that doubly pinned boundaries get no duplicate constraint (L1045-1047) and that
    a pinned front cannot take input (L1062-1064).  A boundary value of zero is not noticed: *)
Definition pin_notice (pin_final pin_initial : Q) : Prop :=
  forall size par rs phases acts a b v c kw,
  link_phases size par rs phases = Ok acts -> adjacent phases a b -> NoDup (map pname phases) ->
  final_value a v pin_final -> initial_value b v pin_initial ->
  In v (lvars a) -> In v (lvars b) -> ~ In ("initial_" ++ v) (lvars a) ->
  ~ In (ALink (pname a) (pname b) v c kw) acts.

Definition groundroll : phase :=
  {| pname := "groundroll"; integ := "time"; states := ["distance"; "mass"];
     lvars := ["altitude"; "distance"; "mass"; "time"];
     info := [("altitude_final", VPair (Some 0%Q) (Some "ft"))] |}.
Definition ascent : phase :=
  {| pname := "ascent"; integ := "time"; states := ["altitude"; "distance"; "mass"];
     lvars := ["altitude"; "distance"; "mass"; "time"];
     info := [("altitude_initial", VPair (Some 0%Q) (Some "ft"))] |}.

Theorem C24_pinned_not_linked_refuted : ~ pin_notice 0 0.
Proof.
  intro H. refine (H 1 false [] [groundroll; ascent]
    [ALink "groundroll" "ascent" "altitude" true no_kwargs;
     ALink "groundroll" "ascent" "distance" true no_kwargs;
     ALink "groundroll" "ascent" "mass" true no_kwargs;
     ALink "groundroll" "ascent" "time" true no_kwargs]
    groundroll ascent "altitude" true no_kwargs _ _ _ _ _ _ _ _ _).
  - vm_compute. reflexivity.
  - exists [], []. reflexivity.
  - repeat constructor; cbn; intuition discriminate.
  - exists (Some "ft"). reflexivity.
  - exists (Some "ft"). reflexivity.
  - now left.
  - now left.
  - cbn. intuition discriminate.
  - now left.
Qed.
Print Assumptions C24_pinned_not_linked_refuted.

(** With values different from zero the same statement holds. *)
Theorem C24_pinned_not_linked : forall p q, ~ (p == 0)%Q -> ~ (q == 0)%Q -> pin_notice p q.
Proof.
  intros p q P Q size par rs phases acts a b v c kw L A N F I Va Vb NA J.
  assert (D : exists cd, direct size par cd).
  { unfold direct. destruct (Nat.ltb_spec 1 size), par; [exists false|exists true|exists true|exists true]; intuition (try discriminate; try lia). }
  destruct D as [cd D].
  destruct (proj1 (C24_links_iff size par rs phases acts cd D L (pname a) (pname b) v c)) as (a'&b'&A'&_&E1&E2&K);
    [eauto|].
  assert (U : forall x y, In x phases -> In y phases -> pname x = pname y -> x = y).
  { clear - N. induction phases as [|z l IH]; intros x y Ix Iy E; [easy|].
    cbn in N. inversion N; subst. destruct Ix as [<-|Ix], Iy as [<-|Iy].
    - reflexivity.
    - exfalso. apply H1. rewrite E. now apply in_map.
    - exfalso. apply H1. rewrite <- E. now apply in_map.
    - now apply IH. }
  assert (M : forall x y, adjacent phases x y -> In x phases /\ In y phases).
  { intros x y (l&r&->). split; apply in_app_iff; right; cbn; auto. }
  apply U in E1; [|now apply M in A|now apply M in A']. apply U in E2; [|now apply M in A|now apply M in A'].
  subst a' b'. destruct K as [v c K1 K2 K3 K4 K5|v c K1]; [|contradiction].
  apply K4. split; [exists p|exists q]; tauto.
Qed.
Print Assumptions C24_pinned_not_linked.

(** The name [opt2] is read in the loops for analytic phases, where it was last assigned for another
    variable or not at all.  Whether linking succeeds depends on it, and so does the release of a
    state that has no optimize option of its own. *)
Definition coast : phase :=
  {| pname := "coast"; integ := "time"; states := []; lvars := ["initial_distance"];
     info := [("distance_direct_link", VBool false)] |}.
Definition push : phase :=
  {| pname := "push"; integ := "time"; states := ["distance"]; lvars := ["distance"]; info := [] |}.

Theorem C24_always_succeeds_refuted :
  ~ (forall size par rs phases, (forall p, In p phases -> pairs_ok p) ->
     exists a, link_phases size par rs phases = Ok a).
Proof.
  intro H. destruct (H 1 false [] [push; coast]) as [a E].
  - intros p I v s x Is G. exfalso. destruct I as [<-|[<-|[]]]; [discriminate|].
    cbn [dget coast info] in G.
    destruct (String.eqb (v ++ s) "distance_direct_link") eqn:EQ; [|discriminate].
    apply String.eqb_eq in EQ. clear - Is EQ.
    assert (X : forall t, v ++ s = t -> substring (String.length v) (String.length s) t = s).
    { intros t <-. clear. induction v as [|c v IH]; [|exact IH]. cbn [append String.length].
      induction s as [|c s IH]; [reflexivity|]. cbn. now rewrite IH. }
    assert (Lv : forall t, v ++ s = t -> String.length v = String.length t - String.length s).
    { intros t <-. clear. assert (K : String.length (v ++ s) = String.length v + String.length s); [|lia].
      induction v as [|c v IH]; [reflexivity|]. cbn. now rewrite IH. }
    pose proof (X _ EQ) as X1. pose proof (Lv _ EQ) as X2. rewrite X2 in X1. clear - Is X1.
    repeat (destruct Is as [<-|Is]; [vm_compute in X1; discriminate|]). destruct Is.
  - vm_compute in E. discriminate.
Qed.
Print Assumptions C24_always_succeeds_refuted.

Definition cruise_to (opt_of_mass : oval) : phase :=
  {| pname := "cruise"; integ := "time"; states := ["distance"]; lvars := ["distance"; "mass"];
     info := [("mass_optimize", opt_of_mass); ("distance_direct_link", VBool false)] |}.
Definition analytic_first : phase :=
  {| pname := "coast"; integ := "time"; states := []; lvars := ["initial_distance"; "mass"]; info := [] |}.

(** The release of the state distance is decided by the optimize option of mass. *)
Theorem C24_release_own_option_refuted :
  ~ (forall size par rs phases phases' acts acts' n,
     link_phases size par rs phases = Ok acts -> link_phases size par rs phases' = Ok acts' ->
     (forall k, In k (combine phases phases') ->
        pname (fst k) = pname (snd k) /\ integ (fst k) = integ (snd k) /\ states (fst k) = states (snd k) /\
        lvars (fst k) = lvars (snd k) /\
        forall o, ~ In o ["mass_optimize"] -> dget o (info (fst k)) = dget o (info (snd k))) ->
     List.length phases = List.length phases' ->
     (In (AInputInitialFalse n "distance") acts <-> In (AInputInitialFalse n "distance") acts')).
Proof.
  intro H.
  assert (E1 : link_phases 1 false [] [analytic_first; cruise_to VNone] =
               Ok [ALink "coast" "cruise" "mass" true no_kwargs; AInputInitialFalse "cruise" "distance";
                   ALink "coast" "cruise" "distance" false no_kwargs]) by (vm_compute; reflexivity).
  assert (E2 : link_phases 1 false [] [analytic_first; cruise_to (VBool true)] =
               Ok [ALink "coast" "cruise" "mass" true no_kwargs;
                   ALink "coast" "cruise" "distance" false no_kwargs]) by (vm_compute; reflexivity).
  destruct (H 1 false [] _ _ _ _ "cruise" E1 E2) as [K _].
  - intros k [<-|[<-|[]]]; cbn [fst snd]; (split; [reflexivity|]); (split; [reflexivity|]);
      (split; [reflexivity|]); (split; [reflexivity|]); intros o N; [reflexivity|].
    cbn [cruise_to info dget]. destruct (String.eqb o "mass_optimize") eqn:E; [|reflexivity].
    apply String.eqb_eq in E. exfalso. apply N. now left.
  - reflexivity.
  - destruct K as [K|[K|[]]]; [right; now left|discriminate|discriminate].
Qed.
Print Assumptions C24_release_own_option_refuted.

(** Two Breguet cruise phases in a row: the start time of the second is linked to the START time of
    the first, as is the start distance; no end time reaches the second phase. *)
Definition breguet (nm : string) : phase :=
  {| pname := nm; integ := "mass"; states := []; lvars := breguet_vars; info := [] |}.

Theorem C24_consecutive_analytic_refuted :
  ~ (forall size par rs phases acts a b c kw,
     link_phases size par rs phases = Ok acts -> adjacent phases a b ->
     lvars a = breguet_vars -> lvars b = breguet_vars ->
     ~ In (ALink (pname a) (pname b) "initial_time" c kw) acts).
Proof.
  intro H. refine (H 1 false [] [breguet "cruise1"; breguet "cruise2"] _ (breguet "cruise1") (breguet "cruise2") true no_kwargs _ _ _ _ _).
  - vm_compute. reflexivity.
  - exists [], []. reflexivity.
  - reflexivity.
  - reflexivity.
  - cbn. auto 10.
Qed.
Print Assumptions C24_consecutive_analytic_refuted.

(** In general: when both phases ask for the start value of [v] and the first does not offer [v]
    itself, no end value of [v] reaches the second phase. *)
Theorem C24_consecutive_analytic : forall size par rs phases acts a b v,
  link_phases size par rs phases = Ok acts -> NoDup (map pname phases) ->
  adjacent phases a b ->
  In ("initial_" ++ v) (lvars a) -> In ("initial_" ++ v) (lvars b) ->
  ~ In v (lvars a) -> String.prefix "initial_" v = false ->
  forall c kw, ~ In (ALink (pname a) (pname b) v c kw) acts /\
               ~ In (AConstraint (pname a) (pname b) v ("initial_" ++ v) c kw) acts.
Proof.
  intros size par rs phases acts a b v L N A Ia Ib Na Np c kw.
  assert (D : exists cd, direct size par cd).
  { unfold direct. destruct (Nat.ltb_spec 1 size), par; [exists false|exists true|exists true|exists true]; intuition (try discriminate; try lia). }
  destruct D as [cd D].
  assert (U : forall x y, In x phases -> In y phases -> pname x = pname y -> x = y).
  { clear - N. induction phases as [|z l IH]; intros x y Ix Iy E; [easy|].
    cbn in N. inversion N; subst. destruct Ix as [<-|Ix], Iy as [<-|Iy].
    - reflexivity.
    - exfalso. apply H1. rewrite E. now apply in_map.
    - exfalso. apply H1. rewrite <- E. now apply in_map.
    - now apply IH. }
  assert (M : forall x y, adjacent phases x y -> In x phases /\ In y phases).
  { intros x y (l&r&->). split; apply in_app_iff; right; cbn; auto. }
  split; intro J.
  - destruct (proj1 (C24_links_iff size par rs phases acts cd D L (pname a) (pname b) v c)) as (a'&b'&A'&_&E1&E2&K); [eauto|].
    apply U in E1; [|now apply M in A|now apply M in A']. apply U in E2; [|now apply M in A|now apply M in A'].
    subst a' b'. inversion K; subst; contradiction.
  - destruct (proj1 (C24_analytic_iff size par rs phases acts cd D L (pname a) (pname b) v ("initial_" ++ v) c)) as (a'&b'&A'&_&E1&E2&K); [eauto|].
    apply U in E1; [|now apply M in A|now apply M in A']. apply U in E2; [|now apply M in A|now apply M in A'].
    subst a' b'. inversion K; subst. contradiction.
Qed.
Print Assumptions C24_consecutive_analytic.
