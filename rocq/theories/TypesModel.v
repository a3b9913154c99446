(** Model of [check_type], [cast_type], [enum_setter] (/repo/aviary/utils/utils.py L74-259) and of
    [AviaryValues.set_val] (/repo/aviary/utils/aviary_values.py L30-77).

    Simplifications: floats are exact rationals (no nan/inf); elements of arrays are represented by the
    Python scalars that [tolist()] produces, also when the array is nested in a list;
    [np.ndarray(item)] used as a cast (possible only after every other declared type failed) raises;
    [getattr(enum_class, name)] finds members only. *)
From Coq Require Import QArith Qcanon Ascii.
From Verif Require Import Base NVModel UnitsModel.
Open Scope nat_scope.

Inductive ikind : Type := ListK | TupleK | ArrK.

(** Python values. *)
Inductive pv : Type :=
| PNone
| PBool (b : bool)
| PInt (z : Z)
| PFloat (q : Qc)
| PStr (s : string)
| PPath (s : string)
| PEnum (cls name : string)
| PIter (k : ikind) (l : list pv).

Inductive ptype : Type :=
| TBool | TInt | TFloat | TStr | TPath | TEnum (cls : string) | TList | TTuple | TArr.

(** One metadata entry: [types] ([None] when no type requirement), [multivalue], [units]. *)
Record meta : Type := { m_types : option (list ptype); m_multi : bool; m_units : string }.

(** Enumerations and string conversions are supplied from outside. *)
Record py : Type := {
  members : string -> list (string * pv);     (* enum class -> (member name, member value) *)
  int_enum : string -> bool;                  (* derives from IntEnum *)
  parse_int : string -> option Z;             (* int(s) *)
  parse_float : string -> option Qc;          (* float(s) *)
  to_str : pv -> string                       (* str(x) *)
}.

Definition is_iter (v : pv) : bool := match v with PIter _ _ => true | _ => false end.

Definition kind_type (k : ikind) : ptype :=
  match k with ListK => TList | TupleK => TTuple | ArrK => TArr end.

Section Py.
  Variable W : py.

  (** [isinstance(v, t)]: bool is a subclass of int, IntEnum members are ints. *)
  Definition isinstance (v : pv) (t : ptype) : bool :=
    match v, t with
    | PBool _, TBool => true
    | PBool _, TInt => true
    | PInt _, TInt => true
    | PFloat _, TFloat => true
    | PStr _, TStr => true
    | PPath _, TPath => true
    | PEnum c _, TEnum c' => String.eqb c c'
    | PEnum c _, TInt => int_enum W c
    | PIter ListK _, TList => true
    | PIter TupleK _, TTuple => true
    | PIter ArrK _, TArr => true
    | _, _ => false
    end.
  Definition isinstance_any (v : pv) (ts : list ptype) : bool := existsb (isinstance v) ts.

  Definition is_tbool (t : ptype) : bool := match t with TBool => true | _ => false end.
  Definition is_pbool (v : pv) : bool := match v with PBool _ => true | _ => false end.

  (** [_flatten_iters] L151-157. *)
  Fixpoint flatten (v : pv) : list pv :=
    match v with
    | PIter _ l => flat_map flatten l
    | _ => [v]
    end.

  (** L184-187: first element of an array, recursively ([[][0]] raises IndexError). *)
  Fixpoint first_leaf (v : pv) : res pv :=
    match v with
    | PIter _ [] => Err IndexError
    | PIter _ (x :: _) => first_leaf x
    | _ => Ok v
    end.

  (** The per-item test L196-209. *)
  Definition item_ok (ts : list ptype) (v : pv) : bool :=
    (isinstance_any v ts && (existsb is_tbool ts || negb (is_pbool v)))%bool.

  Fixpoint check_items (ts : list ptype) (l : list pv) : res unit :=
    match l with
    | [] => Ok tt
    | v :: l' => if item_ok ts v then check_items ts l' else Err TypeError
    end.

  (** [check_type] L145-209. *)
  Definition check_type (m : meta) (v : pv) : res unit :=
    match m_types m with
    | None => Ok tt                                                       (* L162-164 *)
    | Some ts =>
        match v with
        | PIter k l =>
            if (isinstance_any v ts || m_multi m)%bool then               (* L168-179 *)
              match k, l with
              | ArrK, _ :: _ =>                                           (* L184-187 *)
                  rbind (first_leaf v) (fun x => check_items ts [x])
              | _, _ => check_items ts (flat_map flatten l)
              end
            else Err TypeError
        | _ => check_items ts [v]
        end
    end.

  (** ** enum_setter L74-142 *)
  Definition pv_eqb (a b : pv) : bool :=
    match a, b with
    | PBool x, PBool y => Bool.eqb x y
    | PInt x, PInt y => Z.eqb x y
    | PBool x, PInt y => Z.eqb (if x then 1 else 0) y
    | PInt x, PBool y => Z.eqb x (if y then 1 else 0)
    | PStr x, PStr y => String.eqb x y
    | _, _ => false
    end.

  (** [enum_class(value)]: member by value, ValueError if absent. *)
  Definition enum_by_value (c : string) (v : pv) : res pv :=
    match find (fun nv => pv_eqb (snd nv) v) (members W c) with
    | Some (n, _) => Ok (PEnum c n)
    | None => Err ValueError
    end.
  (** [getattr(enum_class, name)]. *)
  Definition enum_by_name (c : string) (n : string) : res pv :=
    match find (fun nv => String.eqb (fst nv) n) (members W c) with
    | Some (n', _) => Ok (PEnum c n')
    | None => Err AttributeError
    end.

  Definition up (a : ascii) : ascii :=
    let n := nat_of_ascii a in
    if (Nat.leb 97 n && Nat.leb n 122)%bool then ascii_of_nat (n - 32) else a.
  Fixpoint upper (s : string) : string :=
    match s with EmptyString => EmptyString | String a s' => String (up a) (upper s') end.

  Definition enum_of_str (c s : string) : res pv :=
    match enum_by_value c (PStr s) with
    | Ok e => Ok e
    | Err _ => enum_by_name c (upper s)
    end.

  (** Loop L118-139; [acc] is [values].  The [return]s inside the loop leave it with a single member. *)
  Fixpoint enum_loop (c : string) (k : ikind) (acc : list pv) (l : list pv) : res pv :=
    match l with
    | [] => Ok (PIter k (rev acc))                              (* loop's else: same iterable type *)
    | PEnum c' n :: l' => enum_loop c k (PEnum c' n :: acc) l'
    | PBool b :: l' => rbind (enum_by_value c (PBool b)) (fun e => enum_loop c k (e :: acc) l')
    | PInt z :: l' => rbind (enum_by_value c (PInt z)) (fun e => enum_loop c k (e :: acc) l')
    | PStr s :: _ => enum_of_str c s                            (* L123-129 return *)
    | _ :: _ => Ok (PIter ListK (rev acc))                      (* L130-131 break, then return values *)
    end.

  Definition enum_setter (c : string) (v : pv) : res pv :=
    match v with
    | PEnum _ _ => Ok v
    | PBool _ => enum_by_value c v
    | PInt _ => enum_by_value c v
    | PStr s => enum_of_str c s
    | PIter k l => enum_loop c k [] l
    | _ => Err TypeError
    end.

  (** ** cast_type L212-259 *)
  Definition truthy (v : pv) : res bool :=
    match v with
    | PNone => Ok false
    | PBool b => Ok b
    | PInt z => Ok (negb (Z.eqb z 0))
    | PFloat q => Ok (negb (Qeq_bool (this q) 0))
    | PStr s => Ok (negb (String.eqb s ""))
    | PPath _ => Ok true
    | PEnum _ _ => Ok true
    | PIter ArrK (_ :: _ :: _) => Err ValueError
    | PIter ArrK _ => Ok true
    | PIter _ [] => Ok false
    | PIter _ _ => Ok true
    end.

  Definition enum_int (c n : string) : res Z :=
    match find (fun nv => String.eqb (fst nv) n) (members W c) with
    | Some (_, PInt z) => Ok z
    | _ => Err TypeError
    end.

  Fixpoint chars (s : string) : list pv :=
    match s with EmptyString => [] | String a s' => PStr (String a EmptyString) :: chars s' end.

  (** [_type(x)]. *)
  Definition conv (t : ptype) (x : pv) : res pv :=
    match t with
    | TInt =>
        match x with
        | PBool b => Ok (PInt (if b then 1 else 0))
        | PInt z => Ok (PInt z)
        | PFloat q => Ok (PInt (trunc q))
        | PStr s => match parse_int W s with Some z => Ok (PInt z) | None => Err ValueError end
        | PEnum c n => if int_enum W c then rbind (enum_int c n) (fun z => Ok (PInt z)) else Err TypeError
        | _ => Err TypeError
        end
    | TFloat =>
        match x with
        | PBool b => Ok (PFloat (if b then 1%Qc else 0%Qc))
        | PInt z => Ok (PFloat (ztoqc z))
        | PFloat q => Ok (PFloat q)
        | PStr s => match parse_float W s with Some q => Ok (PFloat q) | None => Err ValueError end
        | PEnum c n => if int_enum W c then rbind (enum_int c n) (fun z => Ok (PFloat (ztoqc z))) else Err TypeError
        | _ => Err TypeError
        end
    | TStr => match x with PStr s => Ok (PStr s) | _ => Ok (PStr (to_str W x)) end
    | TBool => rbind (truthy x) (fun b => Ok (PBool b))
    | TPath => match x with PStr s => Ok (PPath s) | PPath s => Ok (PPath s) | _ => Err TypeError end
    | TList => match x with PStr s => Ok (PIter ListK (chars s)) | PIter _ l => Ok (PIter ListK l) | _ => Err TypeError end
    | TTuple => match x with PStr s => Ok (PIter TupleK (chars s)) | PIter _ l => Ok (PIter TupleK l) | _ => Err TypeError end
    | TArr => Err TypeError
    | TEnum _ => Err TypeError           (* not reached: handled by enum_setter *)
    end.

  Fixpoint conv_all (t : ptype) (l : list pv) : res (list pv) :=
    match l with
    | [] => Ok []
    | x :: l' => rbind (conv t x) (fun y => rbind (conv_all t l') (fun ys => Ok (y :: ys)))
    end.

  (** One attempt of the loop L240-257. *)
  Definition attempt (t : ptype) (v : pv) : res pv :=
    match v with
    | PIter k l => rbind (conv_all t l) (fun ys => Ok (PIter k ys))   (* L242-246 *)
    | _ =>
        match t with
        | TBool => Ok v                                                (* L248: not cast, no exception *)
        | TArr => Ok (PIter ArrK [v])                                  (* L249-250 *)
        | _ => conv t v
        end
    end.

  Fixpoint attempts (ts : list ptype) (v : pv) : pv :=
    match ts with
    | [] => v
    | t :: ts' => match attempt t v with Ok w => w | Err _ => attempts ts' v end
    end.

  Definition first_enum (ts : list ptype) : option string :=
    match find (fun t => match t with TEnum _ => true | _ => false end) ts with
    | Some (TEnum c) => Some c
    | _ => None
    end.

  (** [cast_type] for a key that has metadata. With [types = None] the call [isinstance(val, (None,))]
      of L229 raises TypeError. *)
  Definition cast_type (m : meta) (v : pv) : res pv :=
    match m_types m with
    | None => Err TypeError
    | Some ts =>
        if isinstance_any v ts then Ok v
        else match first_enum ts with
             | Some c => enum_setter c v
             | None => Ok (attempts ts v)
             end
    end.

  (** ** AviaryValues.set_val, aviary_values.py L30-77 *)
  Variable find_unit : string -> option unit_def.

  (** [_check_units_compatibility] L58-77. *)
  Definition check_units_compat (m : meta) (u : uarg) : res unit :=
    match u with
    | UNone => Ok tt                        (* convert_units returns early on a missing unit *)
    | UOther => Err KeyError
    | UStr s => rbind (convert_units find_unit (INum (ztoqc 10)) (m_units m) s) (fun _ => Ok tt)
    end.

  Definition av_set_val (md : dict meta) (c : nv pv) (k : string) (v : pv) (u : uarg) : nv pv * res unit :=
    match dget k md with
    | Some m =>
        match cast_type m v with
        | Err e => (c, Err e)
        | Ok v' =>
            match check_type m v' with
            | Err e => (c, Err e)
            | Ok _ =>
                match check_units_compat m u with
                | Err e => (c, Err e)
                | Ok _ => set_val c k v' u
                end
            end
        end
    | None => set_val c k v u
    end.

  (** [NamedValues.update] with the overriding set_val (named_values.py L200-251). *)
  Fixpoint av_loop (md : dict meta) (c : nv pv) (es : list (entry pv)) : nv pv * res unit :=
    match es with
    | [] => (c, Ok tt)
    | BadEntry e :: _ => (c, Err e)
    | Entry k v u :: es' =>
        match av_set_val md c k v u with
        | (c', Ok _) => av_loop md c' es'
        | (c', Err e) => (c', Err e)
        end
    end.

  Definition av_step (md : dict meta) (c : nv pv) (o : op pv) : nv pv * res unit :=
    match o with
    | OSet k v u => av_set_val md c k v u
    | OUpdate o1 kw =>
        match av_loop md c o1 with
        | (c', Ok _) => av_loop md c' kw
        | (c', Err e) => (c', Err e)
        end
    | ODelete k => delete c k
    | OClear => ([], Ok tt)
    end.

  Fixpoint av_run (md : dict meta) (c : nv pv) (h : list (op pv)) : nv pv :=
    match h with
    | [] => c
    | o :: h' => av_run md (fst (av_step md c o)) h'
    end.
End Py.
