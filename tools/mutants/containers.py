MUTANTS = []
def M(file, definition, edit, breaks, old, new, **kw):
    MUTANTS.append(dict(file=file, definition=definition, edit=edit, breaks=breaks, old=old, new=new, **kw))

M('NVModel.v', 'set_val', 'assign before checking the units', 'C02 a raising set_val leaves the container unchanged',
  '    | Err e => (c, Err e)\n    | Ok s => (dset k (v, s) c, Ok tt)', '    | Err e => (dset k (v, "unitless") c, Err e)\n    | Ok s => (dset k (v, s) c, Ok tt)')
M('NVModel.v', 'set_val', 'keep the first value when the key exists', 'C01 last write wins',
  '    | Ok s => (dset k (v, s) c, Ok tt)', '    | Ok s => (match dget k c with Some _ => c | None => dset k (v, s) c end, Ok tt)')
M('NVModel.v', 'set_val', 'move an overwritten key to the end', 'C01 keys are iterated in the order of their first surviving write',
  '    | Ok s => (dset k (v, s) c, Ok tt)', '    | Ok s => (ddel k c ++ [(k, (v, s))], Ok tt)')
M('NVModel.v', 'check_units', 'accept None units as unitless', 'C02 set_val with None units raises and changes nothing',
  '    | UNone => Err TypeError', '    | UNone => Ok "unitless"')
M('NVModel.v', 'update_loop', 'skip an entry that raises and go on', 'C02 update stops at the failing entry',
  '        | (c\', Err e) => (c\', Err e)\n        end\n    end.\n\n  (** [update]', '        | (c\', Err e) => update_loop c\' es\'\n        end\n    end.\n\n  (** [update]')
M('NVModel.v', 'update', 'roll back to the original on failure', 'C02 update leaves exactly the prefix applied',
  '    | (c\', Ok _) => update_loop c\' kwargs\n    | (c\', Err e) => (c\', Err e)', '    | (c\', Ok _) => update_loop c\' kwargs\n    | (c\', Err e) => (c, Err e)')
M('NVModel.v', 'update', 'apply keyword arguments to the original mapping', 'C01 every successful write counts',
  '    | (c\', Ok _) => update_loop c\' kwargs', '    | (c\', Ok _) => update_loop c kwargs')
M('NVModel.v', 'delete', 'ignore a missing key', 'C02 delete of a missing key raises',
  '    | None => (c, Err KeyError)', '    | None => (c, Ok tt)', tightened=['C02_which_calls_raise'], note='first run: no theorem failed; C02_which_calls_raise was added')
M('NVModel.v', 'step (clear)', 'clear keeps the mapping', 'C01 nothing survives a clear',
  '    | OClear => ([], Ok tt)           (* clear L196-198 *)', '    | OClear => (c, Ok tt)')
M('NVModel.v', 'get_item', 'missing key returns the first item', 'C01 get_item raises KeyError for an absent key',
  '    | None => Err KeyError\n    | Some it => Ok it', '    | None => match c with (_, it) :: _ => Ok it | [] => Err KeyError end\n    | Some it => Ok it')
M('NVModel.v', 'len', 'counts the writes plus one', 'C01 len agrees with iteration',
  'Definition len (c : nv) : nat := length c.', 'Definition len (c : nv) : nat := S (length c).')
M('NVHeapModel.v', 'deepcopy', 'new mapping but shared value objects', 'C03 deepcopy isolates',
  '[shift (length (vals s)) (hmap s h)]', '[hmap s h]')
M('NVHeapModel.v', 'deepcopy', 'new values but the same mapping', 'C03 deepcopy isolates',
  'vals := vals s ++ vals s |}, length (maps s)).', 'vals := vals s ++ vals s |}, h).')
M('NVHeapModel.v', 'copy', 'copy duplicates the mapping', 'C03 copy shares everything',
  'Definition copy (s : heap) (h : handle) : heap * handle := (s, h).', 'Definition copy (s : heap) (h : handle) : heap * handle := ({| maps := maps s ++ [hmap s h]; vals := vals s |}, length (maps s)).')
M('UnitsModel.v', 'conv_num', 'offset applied after scaling', 'C04 conversion preserves the quantity and round trips',
  '((x + (uoff a - uoff b * ufac b / ufac a)) * (ufac a / ufac b))%Qc', '(x * (ufac a / ufac b) + (uoff a - uoff b))%Qc')
M('UnitsModel.v', 'conv_num', 'inverse factor', 'C04 conversion preserves the quantity',
  '* (ufac a / ufac b))%Qc', '* (ufac b / ufac a))%Qc')
M('UnitsModel.v', 'conv_items', 'None entries dropped', 'C04 shape preserved and None stays None',
  '    | i :: l\' =>\n        match (match', '    | INone :: l\' => conv_items k l\' u1 u2\n    | i :: l\' =>\n        match (match')
M('UnitsModel.v', 'wrapped', 'tuple returned as list', 'C04 container kind preserved',
  '(fun js => Ok (UIter k js))', '(fun js => Ok (UIter (match k with KTuple => KList | _ => k end) js))')
M('UnitsModel.v', 'get_val', 'always converts', 'C04 same units return the stored value unchanged',
  'if String.eqb old new then Ok v else wrapped v old new', 'wrapped v old new')
M('UnitsModel.v', 'convert_units', 'dimension check dropped', 'C04 incompatible units raise',
  'if dim_eqb (udim a) (udim b) then', 'if true then')
M('UnitsModel.v', 'store', 'list entries truncated as well', 'C04 conversion preserves the quantity',
  '    | KArrInt, INum q => INum', '    | _, INum q => INum')
M('TypesModel.v', 'item_ok', 'bools accepted where int is declared', 'C06 bool only where bool is declared',
  '(isinstance_any v ts && (existsb is_tbool ts || negb (is_pbool v)))%bool', 'isinstance_any v ts')
M('TypesModel.v', 'flatten', 'only one level flattened', 'C06 every leaf at any depth',
  '    | PIter _ l => flat_map flatten l', '    | PIter _ l => []')
M('TypesModel.v', 'check_items', 'only the first leaf of a list checked', 'C06 every leaf',
  'if item_ok ts v then check_items ts l\' else Err TypeError', 'if item_ok ts v then Ok tt else Err TypeError')
M('TypesModel.v', 'check_type', 'container kind not checked', 'C06 container kind allowed',
  'if (isinstance_any v ts || m_multi m)%bool then ', 'if true then ')
M('TypesModel.v', 'av_set_val', 'store the uncast value', 'C05 stored entries conform',
  '                | Ok _ => set_val c k v\' u', '                | Ok _ => set_val c k v u')
M('TypesModel.v', 'av_set_val', 'units check skipped', 'C05 stored units are compatible',
  '                | Err e => (c, Err e)\n                | Ok _ => set_val c k v\' u', '                | Err e => set_val c k v\' u\n                | Ok _ => set_val c k v\' u')
M('TypesModel.v', 'av_loop', 'update bypasses the overriding set_val', 'C05 invariant over update calls',
  '        match av_set_val md c k v u with\n        | (c\', Ok _) => av_loop', '        match (let _ := W in let _ := find_unit in set_val c k v u) with\n        | (c\', Ok _) => av_loop')
M('TypesModel.v', 'av_set_val', 'rejected value stored before the type error', 'C05 a rejected call stores nothing',
  '            | Err e => (c, Err e)\n            | Ok _ =>\n                match', '            | Err e => (fst (set_val c k v\' u), Err e)\n            | Ok _ =>\n                match')
M('TypesModel.v', 'cast_type', 'casts also conforming values', 'C07 conforming values unchanged',
  'if isinstance_any v ts then Ok v', 'if false then Ok v')
M('TypesModel.v', 'enum_of_str', 'member name looked up before the value', 'C07 value has priority over name',
  '    match enum_by_value c (PStr s) with\n    | Ok e => Ok e\n    | Err _ => enum_by_name c (upper s)\n    end', '    match enum_by_name c (upper s) with\n    | Ok e => Ok e\n    | Err _ => enum_by_value c (PStr s)\n    end')
M('TypesModel.v', 'enum_of_str', 'name not upper-cased', 'C07 case-insensitive member name',
  'enum_by_name c (upper s)', 'enum_by_name c s')
M('TypesModel.v', 'attempts', 'keeps trying after a successful cast', 'C07 iterable cast element-wise / scalar result',
  'match attempt t v with Ok w => w | Err _ => attempts ts\' v end', 'match attempt t v with Ok w => attempts ts\' w | Err _ => attempts ts\' v end')
M('TypesModel.v', 'conv (int to float)', 'int cast to float loses the sign', 'C07 the cast value represents the same number',
  '| PInt z => Ok (PFloat (ztoqc z))', '| PInt z => Ok (PFloat (ztoqc (Z.abs z)))', tightened=['C07_float_cast_keeps_number', 'C07_int_cast'], note='first run: no theorem failed; the two cast theorems were added')
