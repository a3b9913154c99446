(** Properties C18 to C21: reading, packing and normalising an engine deck. *)
From Coq Require Import QArith Qabs Qminmax Lqa Sorting.Sorted.
From Verif Require Import Base DeckModel DeckProofs.
Open Scope nat_scope.

(** ** C18 Acceptance of a deck *)
(** A deck is accepted exactly when at least ONE mandatory column is there (after net thrust, gross thrust minus
    ram drag and tailpipe thrust have been merged into one thrust column) and NO row has net thrust equal, to
    within the tolerance, to gross thrust minus ram drag. *)
Theorem C18_accepts_iff :
  forall req tol verbosity file, req <> [] ->
  (is_ok (check_data req tol verbosity false file) = true <->
   ~ agrees tol file /\ exists v, In v req /\ usable verbosity file v = true) /\
  (forall e, check_data req tol verbosity false file = Err e -> e = UserWarning).
Proof. exact check_data_accepts. Qed.
Print Assumptions C18_accepts_iff.

(** The intended statement, that an accepted deck has every mandatory column, is false: a deck of Mach numbers
    alone is accepted. *)
Definition only_mach (v : var) : option (list Q) := match v with MACH => Some [0; 1#2]%Q | _ => None end.
Theorem C18_mandatory_columns_refuted :
  ~ (forall file, is_ok (check_data default_required 1 1 false file) = true ->
       forall v, In v default_required -> usable 1 file v = true).
Proof. intro H. specialize (H only_mach eq_refl ALTITUDE). cbn in H. discriminate H. auto. Qed.
Print Assumptions C18_mandatory_columns_refuted.

(** The thrust consistency test is the wrong way round: whenever the three columns agree on some row the deck is
    rejected, and a deck whose three columns disagree by at least the tolerance on every row is accepted. *)
Theorem C18_thrust_check_inverted :
  (forall req tol v file, agrees tol file -> check_data req tol v false file = Err UserWarning) /\
  (forall tol v file t g r,
     file MACH <> None -> file THRUST = Some t -> file GROSS_THRUST = Some g -> file RAM_DRAG = Some r ->
     (forall i a b c, nth_error t i = Some a -> nth_error g i = Some b -> nth_error r i = Some c ->
        (tol <= Qabs (b - c - a))%Q) ->
     is_ok (check_data default_required tol v false file) = true).
Proof.
  split.
  - intros req tol v file H. rewrite check_data_unfold. pose proof (net_thrust_result tol file) as K.
    destruct (net_thrust tol (read_data file)) as [d|e]; [tauto|]. destruct K as [-> _]. reflexivity.
  - intros tol v file t g r M T G R H. apply (check_data_accepts default_required); [discriminate|]. split.
    + intros (t' & g' & r' & T' & G' & R' & i & a & b & c & Na & Nb & Nc & L).
      rewrite T in T'. rewrite G in G'. rewrite R in R'. injection T' as <-. injection G' as <-. injection R' as <-.
      specialize (H i a b c Na Nb Nc). exact (Qlt_not_le _ _ L H).
    + exists MACH. split; [now left|]. cbn. unfold has. destruct (file MACH); [reflexivity|congruence].
Qed.
Print Assumptions C18_thrust_check_inverted.

(** An accepted table with an altitude column: every remaining column has one entry per row; net thrust is the
    given one or gross minus ram, plus tailpipe thrust; columns of the file are passed on unchanged or dropped. *)
Theorem C18_accepted_columns :
  forall req tol verbosity file d n,
  check_data req tol verbosity false file = Ok d -> table n file -> 1 <= n ->
  (has file ALTITUDE = true -> forall v c, dat d v = Some c -> length c = n) /\
  (forall c, net_column file = Some c -> dat d THRUST = Some c) /\
  (forall v c, file v = Some c -> dat d v = Some c \/ dat d v = None \/ v = THRUST) /\
  dat d ALTITUDE <> None.
Proof. exact accepted_columns. Qed.
Print Assumptions C18_accepted_columns.

(** Asking to ignore negative thrust makes reading fail for every deck with a non-negative thrust: the index is
    applied to the columns the file does not have too (there is no header for torque). *)
Theorem C18_ignore_negative_thrust_fails :
  forall req tol verbosity file c x,
  file TORQUE = None -> net_column file = Some c -> In x c -> (0 <= x)%Q ->
  exists e, check_data req tol verbosity true file = Err e.
Proof. exact ignore_negative_fails. Qed.
Print Assumptions C18_ignore_negative_thrust_fails.

Definition good_file (v : var) : option (list Q) :=
  match v with
  | MACH => Some [0; 0; 1#2]%Q | ALTITUDE => Some [0; 0; 1000]%Q | THROTTLE => Some [1; 2; 1]%Q
  | GROSS_THRUST => Some [10; 30; 9]%Q | RAM_DRAG => Some [4; 5; 10]%Q | TAILPIPE_THRUST => Some [1; 1; 1]%Q
  | _ => None end.
Example C18_witness :
  (exists d, check_data default_required 1 1 false good_file = Ok d /\
     option_map (map Qred) (dat d THRUST) = Some [7; 26; 0]%Q /\ dat d RPM = Some [0; 0; 0]%Q) /\
  check_data default_required 1 1 true good_file = Err IndexError /\
  (* net thrust given and equal to gross minus ram: rejected; off by 100 everywhere: accepted *)
  check_data default_required 1 1 false
    (fun v => match v with THRUST => Some [6; 25; -1]%Q | _ => good_file v end) = Err UserWarning /\
  is_ok (check_data default_required 1 1 false
    (fun v => match v with THRUST => Some [106; 125; 99]%Q | _ => good_file v end)) = true.
Proof. repeat split. eexists. split; [reflexivity|]. split; reflexivity. Qed.

(** ** C19 Packing *)
(** [G] is the deck split into Mach numbers, altitudes and rows by the closeness tests.  If every flight condition
    has at least two rows, every Mach number but the last at least two altitudes, and the last Mach number does
    not have more altitudes than all the others, then: if the last flight condition does not have more rows
    than all the others, every row is stored exactly once, in the cell of its flight condition, and the recorded
    index of a cell is its number of rows minus one; otherwise packing raises IndexError. *)
Theorem C19_pack :
  forall {row : Type} (mclose aclose : row -> row -> bool) G,
  grouped mclose aclose G -> G <> [] ->
  Forall (Forall (fun g => 2 <= length g)) G ->
  Forall (fun m => 2 <= length m) (removelast G) ->
  Forall (fun m => length m <= room_alt G) G ->
  if forallb (fun g => length g <=? room_data G) (concat G)
  then exists s w, pack_data mclose aclose true (flat G) = Ok (s, w) /\
    mach_count s = length G /\
    (forall M A, data_indices s M A = match nth_error G M with
                                      | Some m => match nth_error m A with Some g => length g - 1 | None => 0 end
                                      | None => 0 end) /\
    (forall M A D r, In ((M, A, D), r) w <-> row_at G M A D = Some r) /\
    NoDup (map fst w)
  else pack_data mclose aclose true (flat G) = Err IndexError.
Proof.
  intros row mc ac G H1 H2 H3 H4 H5. pose proof (pack_spec mc ac G H1 H2 H3 H4 H5) as P.
  destruct (forallb _ (concat G)); [|exact P].
  destruct P as (s & w & A & B & C & D & E & _). exists s, w. auto.
Qed.
Print Assumptions C19_pack.

(** Such a splitting exists, and cells are flight conditions, for every deck sorted by Mach number and altitude
    whose distinct values differ by more than the tolerances. *)
Theorem C19_sorted_deck_splits :
  forall tm ta rows, StronglySorted row_le rows -> separated tm ta rows ->
  exists G, flat G = rows /\ grouped (mach_close tm) (alt_close ta) G /\
    forall M A D r M' A' D' r', row_at G M A D = Some r -> row_at G M' A' D' = Some r' ->
      ((M = M' /\ A = A') <-> ((r_mach r == r_mach r')%Q /\ (r_alt r == r_alt r')%Q)).
Proof. exact sorted_grouped. Qed.
Print Assumptions C19_sorted_deck_splits.

(** A Mach number with a single altitude is rejected, unless it is the last one. *)
Theorem C19_single_altitude_rejected :
  forall {row : Type} (mclose aclose : row -> row -> bool) G,
  grouped mclose aclose G -> ~ Forall (fun m => 2 <= length m) (removelast G) ->
  pack_data mclose aclose true (flat G) = Err UserWarning.
Proof. exact @pack_single_altitude. Qed.
Print Assumptions C19_single_altitude_rejected.

(** None of the conditions can be dropped.  Rows are (Mach, altitude, label), compared for equality. *)
Definition row3 : Type := nat * nat * nat.
Definition mc3 (a b : row3) : bool := fst (fst a) =? fst (fst b).
Definition ac3 (a b : row3) : bool := snd (fst a) =? snd (fst b).
Definition packed3 (G : list (list (list row3))) : res (list (@write row3)) :=
  rbind (pack_data mc3 ac3 true (flat G)) (fun p => Ok (snd p)).

Definition single_point_deck : list (list (list row3)) :=
  [[[(0, 0, 1)]; [(0, 1, 2); (0, 1, 3)]]; [[(1, 0, 4); (1, 0, 5)]; [(1, 1, 6); (1, 1, 7)]]].
Definition last_mach_deck : list (list (list row3)) :=
  [[[(0, 0, 1); (0, 0, 2)]; [(0, 1, 3); (0, 1, 4)]];
   [[(1, 0, 5); (1, 0, 6)]; [(1, 1, 7); (1, 1, 8)]; [(1, 2, 9); (1, 2, 10)]]].
Definition last_condition_deck : list (list (list row3)) :=
  [[[(0, 0, 1); (0, 0, 2)]; [(0, 1, 3); (0, 1, 4)]];
   [[(1, 0, 5); (1, 0, 6)]; [(1, 1, 7); (1, 1, 8); (1, 1, 9)]]].
Theorem C19_every_row_kept_refuted :
  (* a flight condition with one row takes a row of the next condition with it, and all later rows shift *)
  (exists w, packed3 single_point_deck = Ok w /\ In ((0, 0, 1), (0, 1, 2)) w /\ In ((0, 1, 1), (1, 0, 4)) w) /\
  (* a last Mach number with more altitudes than the others loses them *)
  (exists w, packed3 last_mach_deck = Ok w /\ forall k, ~ In (k, (1, 2, 9)) w) /\
  (* a last flight condition with more rows than the others cannot be read *)
  packed3 last_condition_deck = Err IndexError.
Proof.
  split; [|split; [|vm_compute; reflexivity]].
  - eexists. split; [vm_compute; reflexivity|]. split; cbn [In]; auto 20.
  - eexists. split; [vm_compute; reflexivity|]. intros k H. cbn [In] in H.
    repeat (destruct H as [H|H]; [discriminate H|]). destruct H.
Qed.
Print Assumptions C19_every_row_kept_refuted.

(** Nor can the separation: Mach numbers that differ by less than the tolerance are sorted apart but counted as
    one, so the rows of one flight condition end up in two cells. *)
Definition mk (m a t : Q) : drow := {| r_mach := m; r_alt := a; r_throttle := t; r_hybrid := 0; r_thrust := 0 |}.
Definition noisy_deck : list drow :=
  [mk 0 0 0; mk 0 0 1; mk 0 1000 0; mk 0 1000 1; mk (1#1000) 0 2; mk (1#1000) 0 3; mk (1#1000) 1000 2; mk (1#1000) 1000 3;
   mk (1#2) 0 0; mk (1#2) 0 1; mk (1#2) 1000 0; mk (1#2) 1000 1]%Q.
Theorem C19_close_mach_numbers_refuted :
  StronglySorted row_le noisy_deck /\
  exists w, rbind (pack_data (mach_close (1#100)) (alt_close 10) true noisy_deck) (fun p => Ok (snd p)) = Ok w /\
    In ((0, 0, 0), mk 0 0 0) w /\ In ((0, 2, 0), mk (1#1000) 0 2) w.
Proof.
  split.
  - unfold noisy_deck. repeat (constructor; [|repeat constructor; unfold row_le; cbn; lra]). constructor.
  - eexists. split; [vm_compute; reflexivity|]. split; cbn [In]; auto 20.
Qed.
Print Assumptions C19_close_mach_numbers_refuted.

Definition good_deck : list (list (list row3)) :=
  [[[(0, 0, 1); (0, 0, 2)]; [(0, 1, 3); (0, 1, 4); (0, 1, 5)]]; [[(1, 0, 6); (1, 0, 7)]]].
Example C19_witness : grouped mc3 ac3 good_deck /\
  packed3 good_deck = Ok [((0, 0, 0), (0, 0, 1)); ((0, 0, 1), (0, 0, 2)); ((0, 1, 0), (0, 1, 3)); ((0, 1, 1), (0, 1, 4));
                          ((0, 1, 2), (0, 1, 5)); ((1, 0, 0), (1, 0, 6)); ((1, 0, 1), (1, 0, 7))].
Proof.
  split; [|vm_compute; reflexivity].
  assert (Ap : forall c a ta b tb, c b a = false -> @apart row3 c (a :: ta) (b :: tb)).
  { intros c a ta b tb H ra rb ta' tb' [= <- _] [= <- _]. exact H. }
  assert (Ga : forall c r t, Forall (fun x => c x r = true) t -> @gathered row3 c (r :: t)).
  { intros c r t H. exists r, t. auto. }
  split; cbn [good_deck concat app].
  - repeat constructor; apply Ga; repeat constructor.
  - repeat constructor; apply Ga; repeat constructor.
  - cbn. split; [|exact I]. apply Ap. reflexivity.
  - repeat constructor. apply Ap. reflexivity.
Qed.

(** ** C20 Throttle normalisation *)
(** A column with two different values is mapped by an increasing affine map onto [0, 1], reaching both ends. *)
Theorem C20_normalize :
  forall l, (exists x y, In x l /\ In y l /\ (x < y)%Q) ->
  exists l', normalize None None l = map Some l' /\ rescaled l l'.
Proof. exact normalize_spec. Qed.
Print Assumptions C20_normalize.

(** A column with one value gives only nan. *)
Theorem C20_constant_gives_nan :
  forall l c, Forall (fun x => (x == c)%Q) l -> Forall (fun o => o = None) (normalize None None l).
Proof. exact normalize_constant. Qed.
Print Assumptions C20_constant_gives_nan.

(** Hybrid throttle keeps the sign of every entry, divides the negative entries by the size of the most negative
    one and the positive entries by the largest, and never divides by zero. *)
Theorem C20_hybrid :
  forall l, exists l' n p,
  hybrid_norm l = map Some l' /\ (0 < n)%Q /\ (0 < p)%Q /\ Forall2 (sign_scaled n p) l l' /\
  (Exists (fun x => x < 0)%Q l -> Exists (fun y => y == -1)%Q l') /\
  (Exists (fun x => 0 < x)%Q l -> Exists (fun y => y == 1)%Q l').
Proof. exact hybrid_spec. Qed.
Print Assumptions C20_hybrid.

(** Local normalisation of a deck that packs faithfully: the new throttle column, row by row in the order of the
    deck, is each flight condition normalised on its own. *)
Theorem C20_local :
  forall {row : Type} (mclose aclose : row -> row -> bool) (thr : row -> Q) G s w,
  grouped mclose aclose G -> G <> [] -> Forall (Forall (fun g => 2 <= length g)) G ->
  Forall (fun m => 2 <= length m) (removelast G) -> Forall (fun m => length m <= room_alt G) G ->
  pack_data mclose aclose true (flat G) = Ok (s, w) ->
  normalize_local thr s w = flat_map (fun g => normalize None None (map thr g)) (concat G).
Proof. exact @local_spec. Qed.
Print Assumptions C20_local.

(** In a deck with a one-row flight condition the new column is not even as long as the deck. *)
Theorem C20_local_length_refuted :
  exists n, rbind (pack_data mc3 ac3 true (flat single_point_deck)) (fun '(s, w) =>
      Ok (length (normalize_local (fun r => inject_Z (Z.of_nat (snd r))) s w))) = Ok n /\
    n <> length (flat single_point_deck).
Proof. eexists. split; [vm_compute; reflexivity|]. vm_compute. discriminate. Qed.
Print Assumptions C20_local_length_refuted.

Example C20_witness :
  normalize None None [20; 50; 35]%Q = [Some (0 # 30); Some (30 # 30); Some (15 # 30)]%Q /\
  map (option_map Qred) (hybrid_norm [-10; 0; 5; -4; 20]%Q) = [Some (-1#1); Some 0; Some (1#4); Some (-2#5); Some 1]%Q.
Proof. split; reflexivity. Qed.

(** ** C21 Reference thrust *)
(** Whatever is accepted ends up consistent; a given reference thrust and a given scale factor are kept; a missing
    reference thrust is the largest thrust at sea level static; a given scaled thrust is kept unless a scale
    factor is given too, and is then moved by no more than the comparison tolerance. *)
Theorem C21_consistent :
  forall at_ mt rows t ref sc f,
  set_reference_thrust at_ mt rows t = Ok (ref, sc, f) ->
  (sc == f * ref)%Q /\
  (match reference t with Some r => ref = r | None => sls_max at_ mt rows ref end) /\
  (match factor t with Some g => f = g | None => True end) /\
  (match scaled t with
   | Some s => match factor t with
               | None => sc = s
               | Some _ => (Qabs (s - sc) <= Qmax ((1#10000) * Qmax (Qabs s) (Qabs sc)) (1#10))%Q
               end
   | None => True end) /\
  (factor t = None -> scaled t = None -> f = 1%Q).
Proof. exact reference_result. Qed.
Print Assumptions C21_consistent.

(** Exactly what is accepted. *)
Theorem C21_accepts_iff :
  forall at_ mt rows t,
  is_ok (set_reference_thrust at_ mt rows t) = true <->
  exists ref, (match reference t with Some r => ref = r
               | None => filter (is_sls at_ mt) rows <> [] /\ ref = qmax (map r_thrust (filter (is_sls at_ mt) rows)) end) /\
    match factor t, scaled t with
    | Some f, Some s => (Qabs (s - ref * f) <= Qmax ((1#10000) * Qmax (Qabs s) (Qabs (ref * f))) (1#10))%Q
    | None, Some _ => ~ (ref == 0)%Q
    | _, None => True
    end.
Proof. exact reference_accepts. Qed.
Print Assumptions C21_accepts_iff.

(** Applying it to its own result changes nothing. *)
Theorem C21_idempotent :
  forall at_ mt rows t ref sc f, set_reference_thrust at_ mt rows t = Ok (ref, sc, f) ->
  exists sc', set_reference_thrust at_ mt rows {| reference := Some ref; scaled := Some sc; factor := Some f |}
    = Ok (ref, sc', f) /\ (sc' == sc)%Q.
Proof.
  intros at_ mt rows t ref sc f H. apply reference_result in H. destruct H as (E & _).
  unfold set_reference_thrust. cbn [reference factor scaled rbind]. exists (ref * f)%Q.
  assert (E2 : (sc == ref * f)%Q) by (rewrite E; ring).
  unfold thrust_close. rewrite isclose_refl; [|discriminate|exact E2]. split; [reflexivity|]. now rewrite E2.
Qed.
Print Assumptions C21_idempotent.

(** A given scaled thrust is not always kept: scale factor 1 and reference 28000 turn 28002 into 28000. *)
Theorem C21_scaled_thrust_kept_refuted :
  ~ (forall at_ mt rows t ref sc f s, set_reference_thrust at_ mt rows t = Ok (ref, sc, f) ->
       scaled t = Some s -> (sc == s)%Q).
Proof.
  intro H. specialize (H 10 (1#100) [] {| reference := Some 28000; scaled := Some 28002; factor := Some 1 |}
                        28000 28000 1 28002 eq_refl eq_refl)%Q. discriminate H.
Qed.
Print Assumptions C21_scaled_thrust_kept_refuted.

Definition sls_row (a m t : Q) : drow := {| r_mach := m; r_alt := a; r_throttle := 0; r_hybrid := 0; r_thrust := t |}.
Example C21_witness :
  set_reference_thrust 10 (1#100) [sls_row 0 0 100; sls_row 0 0 200; sls_row 0 (1#2) 300; sls_row 1000 0 400]
    {| reference := None; scaled := None; factor := Some (3#2) |} = Ok (200, 200 * (3#2), (3#2))%Q /\
  set_reference_thrust 10 (1#100) [] {| reference := None; scaled := Some 5%Q; factor := None |} = Err UserWarning /\
  set_reference_thrust 10 (1#100) [] {| reference := Some 100; scaled := Some 150; factor := Some 1 |}%Q = Err AttributeError.
Proof. repeat split. Qed.
