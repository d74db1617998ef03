(** Model of the tag parser of /repo/rsciio/digitalmicrograph/_api.py (lines 58-447) with
    the number readers of /repo/rsciio/utils/_readfile.py.
    Simplifications, for the whole file:
    - the file is the list of bytes still to be read; seeking past the end leaves none, so
      that the next read fails; seeking back (negative sizes) is refused;
    - floats are bit patterns;
    - simple data of a composite type raises TypeError (line 297; the exceptions differ);
    - DM3TagTypeError, DM3TagIDError and DM3DataTypeError are [OtherError];
    - an array that cannot fit into the rest of the file raises struct.error before its first
      element is read, instead of after the last one that fits;
    - Python's recursion limit (nesting of groups) is not modelled. *)
From Verif Require Import Base Text Bytes Utf8 HierModel SfsModel.

Inductive dval :=
| DInt (z : Z)
| DFloat (bytes bits : Z)
| DChar (b : Z)
| DStr (s : pystr)
| DTuple (l : list dval)
| DList (l : list dval)
| DSkip (size size_bytes offset : Z)
| DDict (d : list (pystr * dval)).

(** f.read(n) followed by unpack *)
Definition getn (n : Z) (l : list Z) : res (list Z * list Z) :=
  if zlen l <? n then Err StructError else Ok (firstz n l, skipz n l).
(** f.seek(n, 1) *)
Definition seekf (n : Z) (l : list Z) : res (list Z) := if n <? 0 then Err NotImplementedError else Ok (skipz n l).

Section Reader.
(** dm_version = 4, endian = "big", and the length of the file *)
Variables (v4 big : bool) (tot : Z).
Definition tell (l : list Z) : Z := tot - zlen l.

(** read_l_or_q(f, "big") (lines 243-248) *)
Definition word (l : list Z) : res (Z * list Z) :=
  if v4 then let! (b, l) := getn 8 l in Ok (signed 8 (be_val b), l)
  else let! (b, l) := getn 4 l in Ok (signed 4 (be_val b), l).
Definition skipif4 (n : Z) (l : list Z) : list Z := if v4 then skipz (4 * n) l else l.

(** get_data_reader (lines 209-237): the number of bytes of the simple types *)
Definition simple_size (t : Z) : option Z :=
  match t with
  | 2 => Some 2 | 3 => Some 4 | 4 => Some 2 | 5 => Some 4 | 6 => Some 4 | 7 => Some 8
  | 8 => Some 1 | 9 => Some 1 | 10 => Some 1 | 11 => Some 8 | 12 => Some 8
  | _ => None
  end.
Definition composite (t : Z) : bool := (t =? 15) || (t =? 18) || (t =? 20).
Definition simple_value (t : Z) (b : list Z) : dval :=
  let x := if big then be_val b else le_val b in
  match t with
  | 2 => DInt (signed 2 x) | 3 => DInt (signed 4 x) | 6 => DFloat 4 x | 7 => DFloat 8 x
  | 9 => DChar x | 10 => DInt (signed 1 x) | 11 => DInt (signed 8 x) | _ => DInt x
  end.
Definition read_simple (t : Z) (l : list Z) : res (dval * list Z) :=
  match simple_size t with
  | Some n => let! (b, l) := getn n l in Ok (simple_value t b, l)
  | None => Err (if composite t then TypeError else KeyError)
  end.

(** read_string without skip (lines 322-331) *)
Definition decode_text (b : list Z) : pystr := match utf8_decode b with Ok s => s | Err _ => b end.
Definition read_string (n : Z) (l : list Z) : res (pystr * list Z) :=
  let! (b, l) := getn (Z.max 0 n) l in Ok (decode_text b, l).

(** parse_struct_definition (lines 269-285) *)
Fixpoint fields (n : nat) (l : list Z) : res (list Z * list Z) :=
  match n with
  | O => Ok ([], l)
  | S n' => let! (_, l) := word l in let! (t, l) := word l in let! (ts, l) := fields n' l in Ok (t :: ts, l)
  end.
(** The loop is bounded by the number of bytes: every field reads at least one. *)
Definition struct_def (l : list Z) : res (list Z * list Z) :=
  let! (_, l) := word l in let! (n, l) := word l in
  if zlen l <? n then Err StructError else fields (Z.to_nat n) l.

(** read_struct (lines 333-363) *)
Fixpoint read_fields (def : list Z) (l : list Z) : res (list dval * list Z) :=
  match def with
  | [] => Ok ([], l)
  | t :: ts =>
      match simple_size t with
      | None => Err OtherError
      | Some _ => let! (v, l) := read_simple t l in let! (vs, l) := read_fields ts l in Ok (v :: vs, l)
      end
  end.
Fixpoint skip_fields (def : list Z) : res Z :=
  match def with
  | [] => Ok 0
  | t :: ts => match simple_size t with None => Err OtherError | Some n => let! r := skip_fields ts in Ok (n + r) end
  end.

(** read_array (lines 365-394) *)
Fixpoint repeat_read {A} (n : nat) (f : list Z -> res (A * list Z)) (l : list Z) : res (list A * list Z) :=
  match n with
  | O => Ok ([], l)
  | S n' => let! (v, l) := f l in let! (vs, l) := repeat_read n' f l in Ok (v :: vs, l)
  end.
Definition int_of (v : dval) : Z := match v with DInt z => z | _ => 0 end.
(** An array of [size] elements that are at least one byte long does not fit into fewer bytes. *)
Definition simple_array (skip : bool) (size t : Z) (l : list Z) : res (dval * list Z) :=
  match simple_size t with
  | None => if composite t then (if skip || (0 <? size) then Err TypeError else Ok (DList [], l)) else Err KeyError
  | Some n =>
      if skip then let! l' := seekf (n * size) l in Ok (DSkip size (n * size) (tell l), l')
      else if zlen l <? size then Err StructError
      else
        let! (vs, l) := repeat_read (Z.to_nat size) (read_simple t) l in
        Ok (match vs with [] => DList [] | _ => if t =? 4 then DStr (map int_of vs) else DList vs end, l)
  end.
Definition struct_array (skip : bool) (def : list Z) (size : Z) (l : list Z) : res (dval * list Z) :=
  if skip then let! n := skip_fields def in let! l' := seekf (n * size) l in Ok (DSkip size (n * size) (tell l), l')
  else if (0 <? zlen def) && (zlen l <? size) then Err StructError
  else let! (vs, l) := repeat_read (Z.to_nat size) (fun l => let! (v, l) := read_fields def l in Ok (DTuple v, l)) l in Ok (DList vs, l).
Definition string_array (skip : bool) (len size : Z) (l : list Z) : res (dval * list Z) :=
  if skip then let! l' := seekf len l in Ok (DSkip size 0 (tell l), l')
  else if (0 <? len) && (zlen l <? size) then Err StructError
  else let! (vs, l) := repeat_read (Z.to_nat size) (fun l => let! (v, l) := read_string len l in Ok (DStr v, l)) l in Ok (DList vs, l).

(** The data of a tag (lines 125-190).  [prev] is the variable data from the tag before. *)
Definition stale (prev : option dval) (l : list Z) : res (dval * list Z) :=
  match prev with Some v => Ok (v, l) | None => Err NameError end.
Definition data_tag (skip : bool) (prev : option dval) (l : list Z) : res (dval * list Z) :=
  let! (d, l) := getn 4 (skipif4 2 l) in
  if negb (eqb_str d (str "%%%%")) then Err OtherError
  else
    let! (info, l) := word l in
    if info =? 1 then let! (t, l) := word l in read_simple t l
    else if info =? 2 then
      let! (t, l) := word l in
      if negb (t =? 18) then Err IOError
      else
        let! (n, l) := word l in
        if skip then let! l' := seekf n l in Ok (DSkip n 0 (tell l), l')
        else let! (s, l) := read_string n l in Ok (DStr s, l)
    else if info =? 3 then
      let! (t, l) := word l in
      if negb (t =? 20) then Err IOError
      else let! (e, l) := word l in let! (n, l) := word l in simple_array skip n e l
    else if 3 <? info then
      let! (t, l) := word l in
      if t =? 15 then
        let! (def, l) := struct_def l in
        if skip then let! n := skip_fields def in Ok (DSkip (zlen def) n (tell l), skipz n l)
        else let! (vs, l) := read_fields def l in Ok (DTuple vs, l)
      else if t =? 20 then
        let! (e, l) := word l in
        if e =? 15 then let! (def, l) := struct_def l in let! (n, l) := word l in struct_array skip def n l
        else if e =? 18 then let! (len, l) := word l in let! (n, l) := word l in string_array skip len n l
        else if e =? 20 then let! (e2, l) := word l in let! (_, l) := word l in let! (n, l) := word l in simple_array skip n e2 l
        else stale prev l
      else stale prev l
    else Err IOError.

(** parse_tag_header (lines 409-417) and the removal of dots (lines 104-107) *)
Definition tag_header (l : list Z) : res (Z * pystr * list Z) :=
  let! (b, l) := getn 1 l in
  let! (n, l) := getn 2 l in
  let! (s, l) := read_string (signed 2 (be_val n)) l in
  Ok (signed 1 (be_val b), filter (fun c => negb (c =? 46)) s, l).
(** parse_tag_group (lines 396-407) *)
Definition tag_group (size : bool) (l : list Z) : res (Z * list Z) :=
  let! (_, l) := getn 2 l in
  let! (_, l) := (if v4 && size then word l else Ok (0, l)) in
  word l.

(** parse_tags (lines 94-207) *)
Fixpoint tags (fuel : nat) (n : Z) (group : pystr) (prev : option dval) (nd ng : Z) (d : list (pystr * dval)) (l : list Z)
  : res (list (pystr * dval) * list Z) :=
  if n <=? 0 then Ok (d, l)
  else match fuel with
  | O => Err OutOfFuel
  | S k =>
      let! (id, name, l) := tag_header l in
      let skip := eqb_str group (str "ImageData") && eqb_str name (str "Data") in
      if id =? 21 then
        let unnamed := match name with [] => true | _ => false end in
        let name := if unnamed then str "Data" ++ str_int nd else name in
        let! (v, l) := data_tag skip prev l in
        tags k (n - 1) group (Some v) (if unnamed then nd + 1 else nd) ng (put name v d) l
      else if id =? 20 then
        let unnamed := match name with [] => true | _ => false end in
        let name := if unnamed then str "TagGroup" ++ str_int ng else name in
        let! (m, l) := tag_group true l in
        let! (sub, l) := tags k m name None 0 0 [] l in
        tags k (n - 1) group prev nd (if unnamed then ng + 1 else ng) (put name (DDict sub) d) l
      else Err OtherError
  end.
End Reader.

(** parse_file and parse_header (lines 64-92) *)
Definition parse_file (f : list Z) : res (list (pystr * dval)) :=
  let! (b, l) := getn 4 f in
  let version := signed 4 (be_val b) in
  if negb ((version =? 3) || (version =? 4)) then Err NotImplementedError
  else
    let v4 := version =? 4 in
    let! (_, l) := word v4 l in
    let! (b, l) := getn 4 l in
    let big := be_val b =? 0 in
    let! (n, l) := tag_group v4 false l in
    let! (d, _) := tags v4 big (zlen f) (S (List.length l)) n (str "root") None 0 0 [(str "root", DDict [])] l in
    Ok d.
