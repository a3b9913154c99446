(** Model of the input preprocessors, /repo/aviary/utils/preprocessors.py.

    Values: passenger, crew and engine counts are integers [Z], masses are rationals [Q] already in lbm; an
    option that is absent from the AviaryValues object is [None].  Each preprocessor is a function from the
    values it reads to the values it leaves behind (and, where stated, the warnings it issues).  Floating
    point rounding, unit conversion, metadata type checks on set_val (C05, C06) and the text of messages
    are not modelled.  Verbosity is the integer value of the enum (QUIET 0, BRIEF 1, VERBOSE 2, DEBUG 3;
    variable_info/enums.py). *)
From Coq Require Import QArith.
From Verif Require Import Base.
Open Scope nat_scope.

(** Settings.MASS_METHOD; [OtherMethod] stands for any other member of LegacyCode. *)
Inductive method := FLOPS | GASP | OtherMethod.

Definition isSome {A} (o : option A) : bool := match o with Some _ => true | None => false end.
Definition odflt {A} (d : A) (o : option A) : A := match o with Some a => a | None => d end.
Definition oor {A} (a b : option A) : option A := match a with Some _ => a | None => b end.

(** ** Fuel capacities: preprocess_fuel_capacities, L644-723 *)
Record fuel_caps := { fc_total : option Q; fc_wing : option Q; fc_fus : option Q; fc_aux : option Q }.

(* L694-703: sums over the capacities that are not None *)
Definition given (c : fuel_caps) : list Q :=
  flat_map (fun o => match o with Some q => [q] | None => [] end) [fc_wing c; fc_fus c; fc_aux c].
Definition qsum (l : list Q) : Q := fold_left Qplus l 0%Q.

Definition preprocess_fuel_capacities (m : option method) (c : fuel_caps) : res fuel_caps :=
  match m with
  | None => Err UserWarning                                                   (* L663 *)
  | Some FLOPS =>
      match fc_total c with
      | None => Ok {| fc_total := None; fc_wing := fc_wing c;
                      fc_fus := Some (odflt 0%Q (fc_fus c));                  (* L670-671 *)
                      fc_aux := Some (odflt 0%Q (fc_aux c)) |}                (* L673-674 *)
      | Some t =>
          if (length (given c) =? 3) && negb (Qeq_bool (qsum (given c)) t)    (* L706 *)
          then Err UserWarning
          else if (length (given c) <? 3) && negb (Qle_bool (qsum (given c)) t)   (* L714 *)
          then Err UserWarning
          else Ok c
      end
  | Some _ => Ok c                                                            (* L665 *)
  end.

(** ** Passengers: preprocess_crewpayload, L193-409 *)
Record pax_in := { total : option Z; first_ : option Z; business : option Z; economy : option Z }.
Record pax_out := { total' : Z; first' : Z; business' : Z; economy' : Z }.

Inductive warning :=
| W_no_pax | W_design_from_mission | W_mission_from_design
| W_design_economy | W_design_total_overridden | W_mission_economy | W_mission_total_overridden
| W_more_than_design | W_more_first | W_more_business | W_more_economy.

Definition at_least (v lvl : Z) (w : warning) : list warning := if (lvl <=? v)%Z then [w] else [].
Definition when (b : bool) (l : list warning) : list warning := if b then l else [].

(* L243-262, FLOPS keys: provided if any key is present; absent keys become 0 *)
Definition provided (p : pax_in) : bool :=
  isSome (total p) || isSome (first_ p) || isSome (business p) || isSome (economy p).
Definition fill (p : pax_in) : pax_out :=
  {| total' := odflt 0%Z (total p); first' := odflt 0%Z (first_ p);
     business' := odflt 0%Z (business p); economy' := odflt 0%Z (economy p) |}.
Definition class_sum (p : pax_out) : Z := (first' p + business' p + economy' p)%Z.   (* L302-306 *)

(* L311-328 and L331-348: the class counts win over the total unless they add up to zero *)
Definition resolve (p : pax_out) : pax_out :=
  if (total' p =? class_sum p)%Z then p
  else if (class_sum p =? 0)%Z
       then {| total' := total' p; first' := first' p; business' := business' p; economy' := total' p |}
       else {| total' := class_sum p; first' := first' p; business' := business' p; economy' := economy' p |}.

Definition preprocess_pax_flops (v : Z) (d m : pax_in) : (pax_out * pax_out) * list warning :=
  let dp := provided d in let mp := provided m in
  let d1 := if mp && negb dp then fill m else fill d in                       (* L273-282 *)
  let m1 := if dp && negb mp then fill d else fill m in                       (* L285-297 *)
  let d2 := resolve d1 in let m2 := resolve m1 in
  ((d2, m2),
   when (negb mp && negb dp) (at_least v 2 W_no_pax)                          (* L266-271 *)
   ++ when (mp && negb dp) (at_least v 1 W_design_from_mission)
   ++ when (dp && negb mp) (at_least v 2 W_mission_from_design)
   ++ when (negb (total' d1 =? class_sum d1)%Z)
        (if (class_sum d1 =? 0)%Z then at_least v 2 W_design_economy
         else [])          (* L321: design_pax_sum_provided is only set at L260, under a test
                              key == NUM_PASSENGERS that no design key can satisfy: it is always False *)
   ++ when (negb (total' m1 =? class_sum m1)%Z)
        (if (class_sum m1 =? 0)%Z then at_least v 2 W_mission_economy
         else when (isSome (total m)) (at_least v 1 W_mission_total_overridden))   (* L341, L250 *)
   ++ when (total' d2 <? total' m2)%Z (at_least v 2 W_more_than_design)       (* L353-360 *)
   ++ when (first' d2 <? first' m2)%Z (at_least v 2 W_more_first)             (* L366-372 *)
   ++ when (business' d2 <? business' m2)%Z (at_least v 2 W_more_business)    (* L376-383 *)
   ++ when (economy' d2 <? economy' m2)%Z (at_least v 2 W_more_economy)).     (* L387-394 *)

(** GASP keys: only the totals are processed; class_sum is the empty sum 0, so a non-zero total is also
    written to the economy class (L303-320). Result: (total, economy) for design and mission. *)
Definition preprocess_pax_gasp (d m : pax_in) : (Z * option Z) * (Z * option Z) :=
  let dp := isSome (total d) in let mp := isSome (total m) in
  let d1 := odflt 0%Z (if mp && negb dp then total m else total d) in
  let m1 := odflt 0%Z (if dp && negb mp then total d else total m) in
  ((d1, if (d1 =? 0)%Z then economy d else Some d1), (m1, if (m1 =? 0)%Z then economy m else Some m1)).

(** ** Cargo (GASP only), L396-494 and L525-528 *)
Record cargo_in := { flown : option Q; max : option Q; des : option Q }.
Record cargo_out := { flown' : Q; max' : Q; des' : Q }.

(* L418-481 *)
Definition cargo_assume (sizing : bool) (c : cargo_in) : cargo_out :=
  match flown c, max c, des c with
  | Some f, Some m, Some d =>
      {| flown' := if sizing && negb (Qeq_bool f d) then d else f; max' := m; des' := d |}
  | Some f, Some m, None => {| flown' := f; max' := m; des' := m |}
  | Some f, None, Some d => {| flown' := f; max' := d; des' := d |}
  | Some f, None, None => {| flown' := f; max' := f; des' := f |}
  | None, Some m, Some d => {| flown' := 0; max' := m; des' := d |}
  | None, Some m, None => {| flown' := 0; max' := m; des' := 0 |}
  | None, None, Some d => {| flown' := 0; max' := d; des' := d |}
  | None, None, None => {| flown' := 0; max' := 0; des' := 0 |}
  end.

Definition preprocess_cargo (sizing : bool) (c : cargo_in) : res cargo_out :=
  let o := cargo_assume sizing c in
  if negb (Qle_bool (flown' o) (max' o)) then Err UserWarning        (* L485-489 *)
  else if negb (Qle_bool (des' o) (max' o)) then Err UserWarning     (* L490-494 *)
  else Ok o.

(** ** Crew (FLOPS only), L531-588 *)
Record crew := { attendants : option Z; galley : option Z; flight_crew : option Z; cabin : option Z }.

Definition attendants_for (pax : Z) : Z :=                             (* L538-545 *)
  if (0 <? pax)%Z then (if (pax <? 51)%Z then 1 else pax / 40 + 1)%Z else 0%Z.
Definition galley_for (pax : Z) : Z := if (150 <? pax)%Z then (pax / 250 + 1)%Z else 0%Z.   (* L555-558 *)
Definition flight_crew_for (pax : Z) : Z := if (pax <? 151)%Z then 2%Z else 3%Z.            (* L565-568 *)

(* L534-537, L551-554: absent or negative means compute *)
Definition keep_nonneg (o : option Z) (z : Z) : Z :=
  match o with Some n => if (n <? 0)%Z then z else n | None => z end.

Definition preprocess_crew (design_pax : Z) (c : crew) : crew :=
  let a := keep_nonneg (attendants c) (attendants_for design_pax) in
  let g := keep_nonneg (galley c) (galley_for design_pax) in
  {| attendants := Some a; galley := Some g;
     flight_crew := Some (odflt (flight_crew_for design_pax) (flight_crew c));      (* L564-572 *)
     cabin := match cabin c with
              | None => None
              | Some n => if (a + g =? n)%Z then Some n else Some (a + g)%Z        (* L575-588 *)
              end |}.

(* L590-606 *)
Definition baggage_for (range : option Q) : Q :=
  match range with
  | None => 35
  | Some r => if Qle_bool r 900 then 35 else if Qle_bool r 2900 then 40 else 44
  end.

(** ** Engine counts: preprocess_propulsion, L877-946, one engine model
    Arguments and result: total, fuselage-mounted, wing-mounted. *)
Definition reconcile (n f w : Z) : Z * Z * Z :=
  if (f + w =? 0)%Z then                                               (* L902 *)
    if (1 <? n)%Z then (n, f, n) else (n, n, w)
  else if (n <? f + w)%Z then ((f + w)%Z, f, w)                        (* L919 *)
  else if (f + w <? n)%Z then                                          (* L929 *)
    let u := (n - f - w)%Z in
    if (1 <? u)%Z then (n, f, (w + u)%Z)
    else if (u =? 1)%Z && negb (w =? 0)%Z then (n, (f + u)%Z, w)
    else (n, f, w)
  else (n, f, w).

(** all engine models: three vectors, one entry each per engine model (L893-898); an absent option is a
    vector of zeros (L883, L887, L891); a vector that is too short raises IndexError. *)
Definition count_vec (k : nat) (o : option (list Z)) : list Z := odflt (repeat 0%Z k) o.

Fixpoint reconcile_all (k : nat) (n f w : list Z) : res (list (Z * Z * Z)) :=
  match k with
  | O => Ok []
  | S k' => match n, f, w with
            | a :: n', b :: f', c :: w' =>
                rbind (reconcile_all k' n' f' w') (fun r => Ok (reconcile a b c :: r))
            | _, _, _ => Err IndexError
            end
  end.

Definition zsum (l : list Z) : Z := fold_right Z.add 0%Z l.

(** result: per-engine counts and the totals set at L961-968 *)
Definition preprocess_engine_counts (k : nat) (n f w : option (list Z))
  : res (list (Z * Z * Z) * (Z * Z * Z)) :=
  rbind (reconcile_all k (count_vec k n) (count_vec k f) (count_vec k w)) (fun r =>
    Ok (r, (zsum (map (fun t => fst (fst t)) r), zsum (map (fun t => snd (fst t)) r), zsum (map snd r)))).

(** L948: the warning about an odd number of wing engines looks at the count before reconciliation *)
Definition warns_odd_wing (n f w : Z) : bool := (w mod 2 =? 1)%Z.

(** ** Vectorisation of engine variables: preprocess_propulsion, L782-872, one variable
    [PS a] is a scalar, [PL l] a list, tuple or array.  All scalars are taken to be numbers of the type the
    metadata asks for (the dtype argument at L871 is the identity). *)
Section Vectorise.
  Context {A : Type}.
  Inductive pval := PS (a : A) | PL (l : list A).
  Definition iter (v : pval) : list pval := match v with PS a => [PS a] | PL l => map PS l end.

  (* what engine model number i appends to vec; L822-861 *)
  Definition contribution (multi : bool) (dflt : pval) (av : option pval) (i : nat) (own : option pval) : list pval :=
    match own with
    | Some v => match v with
                | PL l => if multi then map PS l else [v]              (* L858-861 *)
                | PS _ => [v]
                end
    | None =>
        match av with
        | None => [dflt]                                               (* L835-836 *)
        | Some (PS a) => [PS a]                                        (* L855 *)
        | Some (PL l) =>
            if 1 <? length l then                                      (* L839 *)
              if multi then map PS l                                   (* L840-841 *)
              else match nth_error l i with                            (* L842-850 *)
                   | Some a => [PS a]
                   | None => [dflt]
                   end
            else map PS l                                              (* L852-853 *)
        end
    end.

  Fixpoint assemble (multi : bool) (dflt : pval) (av : option pval) (i : nat) (engines : list (option pval)) : list pval :=
    match engines with
    | [] => []
    | e :: r => contribution multi dflt av i e ++ assemble multi dflt av (S i) r
    end.

  Fixpoint scalars (l : list pval) : option (list A) :=
    match l with
    | [] => Some []
    | PS a :: r => match scalars r with Some s => Some (a :: s) | None => None end
    | PL _ :: _ => None
    end.

  (** what set_val receives, L870-872: a numeric array if the first entry is a number (an entry that is itself
      a list then makes np.array raise), otherwise the list as it is. *)
  Inductive stored := Arr (l : list A) | Nested (l : list pval).
  Definition vectorise (multi : bool) (dflt : pval) (av : option pval) (engines : list (option pval)) : res stored :=
    let vec := assemble multi dflt av 0 engines in
    match vec with
    | [] => Err IndexError                                             (* vec[0] *)
    | PS _ :: _ => match scalars vec with Some s => Ok (Arr s) | None => Err ValueError end
    | PL _ :: _ => Ok (Nested vec)
    end.
End Vectorise.
Arguments pval A : clear implicits.
Arguments stored A : clear implicits.
