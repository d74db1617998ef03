(** Model of the metadata storage of hspy/zspy files: dict2group, parse_structure and
    _group2dict of rsciio/_hierarchical.py. *)
From Verif Require Import Base Text.

(** Python values found in metadata.  Floats are finite multiples of 2^-1074; a numpy
    array of numbers is opaque ([VArr] carries an identity only) and has at least one
    axis. *)
Inductive value :=
| VNone
| VBool (b : bool)
| VInt (z : Z)
| VFloat (f : Z)
| VStr (s : pystr)
| VBytes (b : list Z)
| VArr (a : Z)
| VList (l : list value)
| VTuple (l : list value)
| VDict (d : list (pystr * value)).

(** Attributes and datasets as stored. *)
Inductive attr := AStr (s : pystr) | AInt (z : Z) | ABool (b : bool) | AFloat (f : Z) | AVoid (b : list Z).
Inductive dataset := DArr (a : Z) | DStrs (l : list pystr) | DInts (l : list Z) | DBools (l : list bool) | DFloats (l : list Z).

(** A group: attributes and members, each by name. *)
Inductive node :=
| NGroup (attrs : list (pystr * attr)) (items : list (pystr * node))
| NData (d : dataset).

Definition empty_group : node := NGroup [] [].

(** Association lists with Python's update semantics. *)
Fixpoint lookup {A} (k : pystr) (l : list (pystr * A)) : option A :=
  match l with
  | [] => None
  | (k', v) :: l' => if eqb_str k k' then Some v else lookup k l'
  end.
Fixpoint put {A} (k : pystr) (v : A) (l : list (pystr * A)) : list (pystr * A) :=
  match l with
  | [] => [(k, v)]
  | (k', v') :: l' => if eqb_str k k' then (k, v) :: l' else (k', v') :: put k v l'
  end.

Definition set_attr (k : pystr) (a : attr) (g : node) : node :=
  match g with NGroup at_ it => NGroup (put k a at_) it | NData _ => g end.
Definition set_item (k : pystr) (n : node) (g : node) : node :=
  match g with NGroup at_ it => NGroup at_ (put k n it) | NData _ => g end.

(** [group.require_group(k)]: the member, created if missing; TypeError if it is a
    dataset.  Names with "/" address nested groups, which is not modelled. *)
Definition require_group (k : pystr) (g : node) : res node :=
  match g with
  | NGroup _ it =>
      if contains (str "/") k then Err NotImplementedError
      else match lookup k it with
           | None => Ok empty_group
           | Some (NGroup a i) => Ok (NGroup a i)
           | Some (NData _) => Err TypeError
           end
  | NData _ => Err AttributeError
  end.

(** Writing a dataset under a name: an existing member of that name is removed first
    ([_hierarchical.py:781-784] and [942-951]). *)
Definition write_dataset (k : pystr) (d : dataset) (g : node) : res node :=
  if contains (str "/") k then Err NotImplementedError else Ok (set_item k (NData d) g).

(** HDF5 strings cannot contain a NUL character (h5py raises ValueError). *)
Definition has_nul (s : pystr) : bool := existsb (Z.eqb 0) s.
Definition write_str_attr (k s : pystr) (g : node) : res node :=
  if has_nul s then Err ValueError else Ok (set_attr k (AStr s) g).

(** [bytes.decode()], for ASCII; other bytes are treated as undecodable. *)
Definition decode (b : list Z) : res pystr :=
  if forallb (fun c => (0 <=? c) && (c <? 128)) b then Ok b else Err UnicodeError.

(** ** parse_structure, [_hierarchical.py:923-951]: what np.array makes of a list. *)
Inductive kind := KBool | KInt | KFloat | KStr | KElements | KUnsupported.

Definition scalar_kind (v : value) : option kind :=
  match v with
  | VBool _ => Some KBool
  | VInt z => if (- 2 ^ 63 <=? z) && (z <? 2 ^ 63) then Some KInt else Some KUnsupported
  | VFloat _ => Some KFloat
  | VStr _ => Some KStr
  | VBytes _ => Some KUnsupported
  | _ => None
  end.

(** Common type of two scalars.  Mixtures with floats and lists of bytes are not modelled
    ([KUnsupported]). *)
Definition join_kind (a b : kind) : kind :=
  match a, b with
  | KUnsupported, _ | _, KUnsupported => KUnsupported
  | KBool, KBool => KBool
  | KBool, KInt | KInt, KBool | KInt, KInt => KInt
  | KFloat, KFloat => KFloat
  | KStr, KFloat | KFloat, KStr => KUnsupported
  | KStr, _ | _, KStr => KStr
  | _, _ => KUnsupported
  end.

(** Lines 928-933: anything that is not a list of scalars is stored element by element:
    np.array gives object dtype (None, dictionaries), more than one axis (equal lists) or
    raises ValueError (unequal lists). *)
Fixpoint list_kind (l : list value) : kind :=
  match l with
  | [] => KElements
  | [v] => match scalar_kind v with Some k => k | None => KElements end
  | v :: l' => match scalar_kind v, list_kind l' with
               | None, _ | _, KElements => KElements
               | Some a, b => join_kind a b
               end
  end.

(** Conversion to the common type. *)
Definition to_bool (v : value) : bool := match v with VBool b => b | _ => false end.
Definition to_int (v : value) : Z := match v with VInt z => z | VBool b => if b then 1 else 0 | _ => 0 end.
Definition to_float (v : value) : Z := match v with VFloat f => f | _ => 0 end.
(** numpy's unicode type drops trailing NULs. *)
Fixpoint drop_nul (s : pystr) : pystr := match s with 0 :: s' => drop_nul s' | _ => s end.
Definition np_str (s : pystr) : pystr := rev (drop_nul (rev s)).
Definition to_str (v : value) : pystr :=
  match v with
  | VStr s => np_str s
  | VInt z => str_int z
  | VBool b => if b then str "True" else str "False"
  | _ => []
  end.

(** Lines 941-951: the list as one dataset named [_type + key]. *)
Definition write_list_dataset (pre k : pystr) (kd : kind) (l : list value) (g : node) : res node :=
  match kd with
  | KBool => write_dataset (pre ++ k) (DBools (map to_bool l)) g
  | KInt => write_dataset (pre ++ k) (DInts (map to_int l)) g
  | KFloat => write_dataset (pre ++ k) (DFloats (map to_float l)) g
  | KStr => if existsb has_nul (map to_str l) then Err ValueError
            else write_dataset (pre ++ k) (DStrs (map to_str l)) g
  | _ => Err NotImplementedError
  end.

(** Lines 936-940: the name of the group holding the elements. *)
Definition elements_name (pre k : pystr) (n : nat) : pystr := pre ++ str_int (Z.of_nat n) ++ str "_" ++ k.

(** One item of dict2group, [_hierarchical.py:880-921]: write value [v] under key [k]
    into [g].  An integer that h5py cannot store is skipped with a logged message (line
    917-921).  Dask arrays, h5py datasets and signals in lists are not modelled. *)
Fixpoint write_entry (v : value) (k : pystr) (g : node) {struct v} : res node :=
  let write_seq (pre : pystr) (l : list value) :=
      match list_kind l with
      | KElements =>
          let name := elements_name pre k (List.length l) in
          let! sub := require_group name g in
          let! sub' := (fix go (i : Z) (l : list value) (sub : node) {struct l} : res node :=
             match l with
             | [] => Ok sub
             | v' :: l' => let! s := write_entry v' (str_int i) sub in go (i + 1) l' s
             end) 0 l sub in
          Ok (set_item name sub' g)
      | kd => write_list_dataset pre k kd l g
      end in
  match v with
  | VDict d =>
      let! sub := require_group k g in
      let! sub' := (fix go (d : list (pystr * value)) (sub : node) {struct d} : res node :=
         match d with
         | [] => Ok sub
         | (k', v') :: d' => let! s := write_entry v' k' sub in go d' s
         end) d sub in
      Ok (set_item k sub' g)
  | VArr a => write_dataset k (DArr a) g
  | VNone => Ok (set_attr k (AStr (str "_None_")) g)
  | VBytes b =>
      if existsb (Z.eqb 0) b then Ok (set_attr (str "_bs_" ++ k) (AVoid b) g)
      else let! s := decode b in Ok (set_attr k (AStr s) g)
  | VStr s => write_str_attr k s g
  | VList [] => Ok (set_attr (str "_list_empty_" ++ k) (AStr (str "_None_")) g)
  | VList l => write_seq (str "_list_") l
  | VTuple [] => Ok (set_attr (str "_tuple_empty_" ++ k) (AStr (str "_None_")) g)
  | VTuple l => write_seq (str "_tuple_") l
  | VInt z => if (- 2 ^ 63 <=? z) && (z <? 2 ^ 64) then Ok (set_attr k (AInt z) g) else Ok g
  | VBool b => Ok (set_attr k (ABool b) g)
  | VFloat f => Ok (set_attr k (AFloat f) g)
  end.

(** [_hierarchical.py:878-921] dict2group. *)
Fixpoint dict2group (d : list (pystr * value)) (g : node) : res node :=
  match d with
  | [] => Ok g
  | (k, v) :: d' => let! g' := write_entry v k g in dict2group d' g'
  end.

(** ** Reading *)

(** [_hierarchical.py:564-599]: one attribute. *)
Definition attr_value (a : attr) : value :=
  match a with
  | AStr s => if eqb_str s (str "_None_") then VNone else VStr s
  | AInt z => VInt z
  | ABool b => VBool b
  | AFloat f => VFloat f
  | AVoid b => VBytes b
  end.

Definition read_attr (k : pystr) (a : attr) (d : list (pystr * value)) : res (list (pystr * value)) :=
  if startswith (str "_sig_") k then Ok d
  else if startswith (str "_list_empty_") k then Ok (put (skipn 12 k) (VList []) d)
  else if startswith (str "_tuple_empty_") k then Ok (put (skipn 13 k) (VTuple []) d)
  else if startswith (str "_bs_") k then
    match a with AVoid b => Ok (put (skipn 4 k) (VBytes b) d) | _ => Err AttributeError end
  else if startswith (str "_datetime_date") k || startswith (str "_datetime_time") k
  then Err NotImplementedError (* old files; not modelled *)
  else Ok (put k (attr_value a) d).

Fixpoint read_attrs (l : list (pystr * attr)) (d : list (pystr * value)) : res (list (pystr * value)) :=
  match l with
  | [] => Ok d
  | (k, a) :: l' => let! d' := read_attr k a d in read_attrs l' d'
  end.

(** Lines 612-619 and 634: contents of a dataset; [.tolist()] for stored lists. *)
Definition dataset_list (d : dataset) : res (list value) :=
  match d with
  | DArr _ => Err NotImplementedError
  | DStrs l => Ok (map VStr l)
  | DInts l => Ok (map VInt l)
  | DBools l => Ok (map VBool l)
  | DFloats l => Ok (map VFloat l)
  end.

(** [sorted(items)]: insertion sort by key; keys are different, so values are never
    compared. *)
Fixpoint leb_str (a b : pystr) : bool :=
  match a, b with
  | [], _ => true
  | _ :: _, [] => false
  | x :: a', y :: b' => (x <? y) || ((x =? y) && leb_str a' b')
  end.
Fixpoint insert_item {A} (p : pystr * A) (l : list (pystr * A)) : list (pystr * A) :=
  match l with
  | [] => [p]
  | q :: l' => if leb_str (fst p) (fst q) then p :: l else q :: insert_item p l'
  end.
Fixpoint sort_items {A} (l : list (pystr * A)) : list (pystr * A) :=
  match l with [] => [] | p :: l' => insert_item p (sort_items l') end.

(** [key[m + 1 + key[m:].find("_") :]]: what follows the first "_" from position [m]
    (from position [m] itself if there is none, since find returns -1). *)
Fixpoint after_underscore (s : pystr) : pystr :=
  match s with
  | [] => []
  | c :: s' => if c =? 95 then s' else after_underscore s'
  end.
Definition strip_count (m : nat) (k : pystr) : pystr :=
  let s := skipn m k in if existsb (Z.eqb 95) s then after_underscore s else s.

(** [_hierarchical.py:561-663] _group2dict for a group.  [_hspy_AxesManager_] groups are
    read as lists too (line 636-642).  Signals inside ([_sig_]) are not modelled. *)
Fixpoint group2dict (g : node) (d : list (pystr * value)) {struct g} : res (list (pystr * value)) :=
  match g with
  | NData _ => Err AttributeError
  | NGroup attrs items =>
      let! d1 := read_attrs attrs d in
      (fix go (items : list (pystr * node)) (d : list (pystr * value)) {struct items} :=
         match items with
         | [] => Ok d
         | (k, n) :: rest =>
             let! d' :=
               (if startswith (str "_ragged_shapes_") k then Ok d
                else if startswith (str "_sig_") k then Err NotImplementedError
                else match n with
                | NData ds =>
                    if startswith (str "_list_") k then
                      let! l := dataset_list ds in Ok (put (skipn 6 k) (VList l) d)
                    else if startswith (str "_tuple_") k then
                      let! l := dataset_list ds in Ok (put (skipn 7 k) (VTuple l) d)
                    else match ds with
                         | DArr a => Ok (put k (VArr a) d)
                         | _ => Err NotImplementedError
                         end
                | NGroup _ _ =>
                    if startswith (str "_hspy_AxesManager_") k then
                      let! s := group2dict n [] in Ok (put k (VList (map snd (sort_items s))) d)
                    else if startswith (str "_list_") k then
                      let! s := group2dict n [] in Ok (put (strip_count 6 k) (VList (map snd (sort_items s))) d)
                    else if startswith (str "_tuple_") k then
                      let! s := group2dict n [] in Ok (put (strip_count 7 k) (VTuple (map snd (sort_items s))) d)
                    else
                      let! s := group2dict n [] in Ok (put k (VDict s) d)
                end) in
             go rest d'
         end) items d1
  end.

(** Storing a dictionary in a new group and reading it back. *)
Definition store_and_load (d : list (pystr * value)) : res (list (pystr * value)) :=
  let! g := dict2group d empty_group in group2dict g [].
