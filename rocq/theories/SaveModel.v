(** Model of saving a sized problem to JSON and reading it back.

    /repo/aviary/core/aviary_problem.py L1875-1947 (save_results)
    /repo/aviary/core/aviary_problem.py L1981-2066 (_read_sizing_json)
    /repo/aviary/core/aviary_problem.py L2100-2132 (reload_aviary_problem: the input values only)
    /repo/aviary/variable_info/enums.py (enumerations, for the theorem about them)

    Values, metadata and AviaryValues.set_val are those of TypesModel.v; the conversion of strings is
    that of StrModel.v.  The JSON text itself is not modelled: dumping gives a tree and loading gives
    the same tree back (numbers are written so that they read back equal).  [str(type(value))] is
    reduced to what the reader looks for: "<class 'list'>", a text with "<enum", or another text.
    The sized problem supplies Mission.GROSS_MASS in any units and Aircraft.Design.GROSS_MASS in lbm.
    Lists of enums that also hold other objects raise AttributeError (Path objects, which happen to
    have a name attribute, included) and are then left as they were. *)
From Coq Require Import QArith Qcanon Ascii.
From Verif Require Import Base NVModel UnitsModel TypesModel CsvModel StrModel.
Open Scope nat_scope.
Open Scope list_scope.
Open Scope string_scope.

Definition MISSION_GROSS := "mission:gross_mass".
Definition DESIGN_GROSS := "aircraft:design:gross_mass".

Inductive json : Type :=
| JNull | JBool (b : bool) | JInt (z : Z) | JFloat (q : Qc) | JStr (s : string) | JArr (l : list json).

Inductive tag : Type := TagList | TagEnum | TagOther.

Record entry4 : Type := { e_name : string; e_value : json; e_units : string; e_tag : tag }.

Definition tag_of (v : pv) : tag :=
  match v with PIter ListK _ => TagList | PEnum _ _ => TagEnum | _ => TagOther end.

Section Save.
  Variable W : py.
  Variable find_unit : string -> option unit_def.

  Fixpoint map_res {A B} (f : A -> res B) (l : list A) : res (list B) :=
    match l with
    | [] => Ok []
    | x :: l' => rbind (f x) (fun y => rbind (map_res f l') (fun ys => Ok (y :: ys)))
    end.

  (** json.dump L1938-1944: arrays, paths and enums other than IntEnum cannot be written. *)
  Fixpoint dump (v : pv) : res json :=
    match v with
    | PNone => Ok JNull
    | PBool b => Ok (JBool b)
    | PInt z => Ok (JInt z)
    | PFloat q => Ok (JFloat q)
    | PStr s => Ok (JStr s)
    | PPath _ => Err TypeError
    | PEnum c n => if int_enum W c then rbind (enum_int W c n) (fun z => Ok (JInt z)) else Err TypeError
    | PIter ArrK _ => Err TypeError
    | PIter _ l =>
        rbind ((fix go (l : list pv) : res (list json) :=
                  match l with
                  | [] => Ok []
                  | x :: l' => rbind (dump x) (fun y => rbind (go l') (fun ys => Ok (y :: ys)))
                  end) l) (fun js => Ok (JArr js))
    end.

  Fixpoint undump (j : json) : pv :=
    match j with
    | JNull => PNone
    | JBool b => PBool b
    | JInt z => PInt z
    | JFloat q => PFloat q
    | JStr s => PStr s
    | JArr l => PIter ListK (map undump l)
    end.

  (** numpy's tolist. *)
  Fixpoint tolist (v : pv) : pv :=
    match v with
    | PIter ArrK l => PIter ListK (map tolist l)
    | _ => v
    end.

  Definition enum_name (v : pv) : res pv :=
    match v with PEnum _ n => Ok (PStr n) | _ => Err AttributeError end.

  (** L1905-1925: the object that is written. *)
  Definition prepare (v : pv) : res pv :=
    match v with
    | PIter ArrK _ => Ok (tolist v)
    | PIter ListK [] => Err IndexError                              (* value[0] *)
    | PIter ListK (PEnum c n :: l) => rbind (map_res enum_name (PEnum c n :: l)) (fun l' => Ok (PIter ListK l'))
    | PIter ListK (PPath p :: l) =>
        Ok (PIter ListK (map (fun x => PStr (match x with PPath q => q | PStr q => q | _ => to_str W x end))
                             (PPath p :: l)))
    | PEnum _ n => Ok (PStr n)
    | PPath s => Ok (PStr s)
    | _ => Ok v
    end.

  (** A list is converted in place (L1913-1918), so the problem's own inputs hold the converted list. *)
  Definition left_behind (v : pv) (w : pv) : pv := match v with PIter ListK _ => w | _ => v end.

  Definition is_gross (k : string) : bool := String.eqb k MISSION_GROSS || String.eqb k DESIGN_GROSS.

  (** L1890-1928 *)
  Fixpoint save_loop (mission_gross : string -> Qc) (c : nv pv)
    : res (list (string * (pv * string * tag))) * nv pv :=
    match c with
    | [] => (Ok [], [])
    | (k, (v, u)) :: c' =>
      if is_gross k then
        let r := save_loop mission_gross c' in
        (rbind (fst r) (fun es => Ok ((k, (PFloat (mission_gross u), u, tag_of v)) :: es)), (k, (v, u)) :: snd r)
      else
        match prepare v with
        | Err e => (Err e, (k, (v, u)) :: c')
        | Ok w =>
          let r := save_loop mission_gross c' in
          (rbind (fst r) (fun es => Ok ((k, (w, u, tag_of v)) :: es)), (k, (left_behind v w, u)) :: snd r)
        end
    end.

  Definition dump_entry (e : string * (pv * string * tag)) : res entry4 :=
    let '(k, (v, u, t)) := e in
    rbind (dump v) (fun j => Ok {| e_name := k; e_value := j; e_units := u; e_tag := t |}).

  (** The file and the inputs of the problem afterwards. *)
  Definition save_results (mission_gross : string -> Qc) (design_gross : Qc) (c : nv pv)
    : res (list entry4) * nv pv :=
    let r := save_loop mission_gross c in
    (rbind (fst r) (fun es =>
       let es' := if dmem DESIGN_GROSS c then es                    (* L1930-1936 *)
                  else (es ++ [(DESIGN_GROSS, (PFloat design_gross, "lbm", TagOther))])%list in
       map_res dump_entry es'),
     snd r).

  (** ** Reading *)
  Definition is_colon (a : ascii) : bool := Ascii.eqb a ":".
  Definition is_noise (a : ascii) : bool :=
    (Ascii.eqb a ">" || Ascii.eqb a "<" || Ascii.eqb a "]" || Ascii.eqb a "'" || Ascii.eqb a " ")%bool.

  (** L2022-2030 and L2037-2044: text behind the last colon without noise characters. *)
  Definition clean (s : string) : str :=
    filter (fun a => negb (is_noise a)) (List.last (split_on is_colon [] (lit s)) []).

  Definition has_angle (v : pv) : bool :=
    match v with PStr s => existsb (fun a => Ascii.eqb a "<") (lit s) | _ => false end.

  Definition of_data (d : data) : pv :=
    match d with
    | DInt z => PInt z
    | DFloat q => PFloat (Q2Qc q)
    | DBool b => PBool b
    | DStr s => PStr (string_of_list_ascii s)
    end.

  (** [dat.strip('[]')] in convert_strings_to_data fails on anything but a string. *)
  Definition convert_elt (v : pv) : res pv :=
    match v with PStr s => Ok (of_data (convert (lit s))) | _ => Err AttributeError end.

  (** L2011-2045 *)
  Definition interpret (t : tag) (v : pv) : res pv :=
    match t with
    | TagList =>
      match v with
      | PIter k l =>
        if existsb has_angle l then
          rbind (map_res convert_elt
                   (map (fun x => match x with
                                  | PStr s => if has_angle x then PStr (string_of_list_ascii (clean s)) else x
                                  | _ => x
                                  end) l))
                (fun l' => Ok (PIter k l'))
        else Ok v
      | _ => Err TypeError                                          (* len() of a number *)
      end
    | TagEnum =>
      match v with
      | PStr s => Ok (PIter ListK [of_data (convert (clean s))])
      | _ => Err AttributeError
      end
    | TagOther => Ok v
    end.

  (** L2006-2064; a failing set_val leaves the variable out. *)
  Definition read_entry (md : dict meta) (c : nv pv) (e : entry4) : res (nv pv) :=
    rbind (interpret (e_tag e) (undump (e_value e))) (fun v =>
      Ok (if dmem (e_name e) md then fst (av_set_val W find_unit md c (e_name e) v (UStr (e_units e))) else c)).

  Fixpoint read_entries (md : dict meta) (c : nv pv) (es : list entry4) : res (nv pv) :=
    match es with
    | [] => Ok c
    | e :: es' => rbind (read_entry md c e) (fun c' => read_entries md c' es')
    end.

  Definition read_sizing (md : dict meta) (es : list entry4) : res (nv pv) := read_entries md [] es.

  (** reload_aviary_problem L2104 and L2130: the gross mass of the reloaded problem is looked up in the
      values just read. *)
  Definition reload (md : dict meta) (es : list entry4) : res (nv pv * (pv * string)) :=
    rbind (read_sizing md es) (fun c =>
      match dget MISSION_GROSS c with Some it => Ok (c, it) | None => Err KeyError end).
End Save.

(** Enumerations that occur as a declared type in the metadata (enums.py): members with their values. *)
Definition aviary_enums : list (string * list (string * pv)) :=
  [("AircraftTypes", [("TRANSPORT", PStr "transport"); ("BLENDED_WING_BODY", PStr "BWB")]);
   ("AtmosphereModel",
    [("STANDARD", PStr "standard"); ("COLD", PStr "cold"); ("HOT", PStr "hot"); ("TROPICAL", PStr "tropical");
     ("POLAR", PStr "polar"); ("MARS_REFERENCE", PStr "mars_reference"); ("MARS_HELLAS_HOT", PStr "mars_hellas_hot");
     ("MARS_HELLAS_COLD", PStr "mars_hellas_cold"); ("MARS_EQUATOR_HOT", PStr "mars_equator_hot");
     ("MARS_EQUATOR_COLD", PStr "mars_equator_cold"); ("MARS_POLAR_HOT", PStr "mars_polar_hot");
     ("MARS_POLAR_COLD", PStr "mars_polar_cold"); ("VENUS_REFERENCE", PStr "venus_reference")]);
   ("EquationsOfMotion",
    [("ENERGY_STATE", PStr "energy_state"); ("TWO_DEGREES_OF_FREEDOM", PStr "2DOF");
     ("SOLVED_2DOF", PStr "solved_2DOF"); ("CUSTOM", PStr "custom")]);
   ("FlapType",
    [("PLAIN", PInt 1); ("SPLIT", PInt 2); ("SINGLE_SLOTTED", PInt 3); ("DOUBLE_SLOTTED", PInt 4);
     ("TRIPLE_SLOTTED", PInt 5); ("FOWLER", PInt 6); ("DOUBLE_SLOTTED_FOWLER", PInt 7)]);
   ("GASPEngineType",
    [("RECIP_CARB", PInt 1); ("RECIP_FUEL_INJECT", PInt 2); ("RECIP_FUEL_INJECT_GEARED", PInt 3); ("ROTARY", PInt 4);
     ("TURBOSHAFT", PInt 5); ("TURBOPROP", PInt 6); ("TURBOJET", PInt 7); ("RECIP_CARB_HOPWSZ", PInt 11);
     ("RECIP_FUEL_INJECT_HOPWSZ", PInt 12); ("RECIP_FUEL_INJECT_GEARED_HOPWSZ", PInt 13); ("ROTARY_RCWSZ", PInt 14)]);
   ("LegacyCode", [("FLOPS", PStr "FLOPS"); ("GASP", PStr "GASP")]);
   ("ProblemType",
    [("SIZING", PStr "sizing"); ("OFF_DESIGN_MIN_FUEL", PStr "off_design_min_fuel");
     ("OFF_DESIGN_MAX_RANGE", PStr "off_design_max_range"); ("MULTI_MISSION", PStr "multimission")]);
   ("Verbosity", [("QUIET", PInt 0); ("BRIEF", PInt 1); ("VERBOSE", PInt 2); ("DEBUG", PInt 3)])]%Z.
