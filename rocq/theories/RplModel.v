(** Model of the ripple plugin, rsciio/ripple/_api.py. *)
From Verif Require Import Base Text Bytes DistModel HierModel.

(** * The .rpl text file *)

(** Values of rpl_info.  A float is an opaque number given by the conversion function. *)
Inductive rval := RInt (z : Z) | RFloat (f : Z) | RStr (s : pystr).

(** What a key's value must be, [_api.py:66-109] rpl_keys. *)
Inductive ktype := KTint | KTfloat | KTstr | KTsel (l : list pystr).
Definition rpl_keys : list (pystr * ktype) :=
  [(str "width", KTint); (str "height", KTint); (str "depth", KTint); (str "offset", KTint);
   (str "data-length", KTsel (map str ["1"; "2"; "4"; "8"]%string));
   (str "data-type", KTsel (map str ["signed"; "unsigned"; "float"]%string));
   (str "byte-order", KTsel (map str ["little-endian"; "big-endian"; "dont-care"]%string));
   (str "record-by", KTsel (map str ["image"; "vector"; "dont-care"]%string));
   (str "ev-per-chan", KTfloat); (str "detector-peak-width-ev", KTfloat); (str "depth-origin", KTfloat);
   (str "depth-scale", KTfloat); (str "depth-units", KTstr); (str "width-origin", KTfloat);
   (str "width-scale", KTfloat); (str "width-units", KTstr); (str "height-origin", KTfloat);
   (str "height-scale", KTfloat); (str "height-units", KTstr); (str "signal", KTstr);
   (str "collection-angle", KTfloat); (str "convergence-angle", KTfloat); (str "beam-energy", KTfloat);
   (str "elevation-angle", KTfloat); (str "azimuth-angle", KTfloat); (str "live-time", KTfloat);
   (str "energy-resolution", KTfloat); (str "tilt-stage", KTfloat); (str "date", KTstr); (str "time", KTstr);
   (str "title", KTstr)].

(** Universal newlines of a text file opened for reading. *)
Fixpoint universal (s : pystr) : pystr :=
  match s with
  | 13 :: ((10 :: s') as t) => universal t
  | 13 :: s' => 10 :: universal s'
  | c :: s' => c :: universal s'
  | [] => []
  end.

(** The lines of a file, without their newlines; an empty last piece is no line. *)
Definition file_lines (s : pystr) : list pystr :=
  let l := split_char 10 (universal s) in
  match last l [0] with [] => removelast l | _ => l end.

(** [s.replace(p, r)] for a non-empty [p]. *)
Fixpoint replace_sub (fuel : nat) (p r s : pystr) : pystr :=
  match fuel with
  | O => s
  | S n => if startswith p s then r ++ replace_sub n p r (skipn (List.length p) s)
           else match s with [] => [] | c :: s' => c :: replace_sub n p r s' end
  end.

(** [line[: line.find(";")]] if there is a comment. *)
Fixpoint before (c : Z) (s : pystr) : pystr :=
  match s with [] => [] | x :: s' => if x =? c then [] else x :: before c s' end.

(** [_api.py:157-172]: conversion of a value; [tofloat] is Python's float(). *)
Definition convert (tofloat : pystr -> option Z) (k v : pystr) : res rval :=
  match lookup k rpl_keys with
  | None | Some KTstr => Ok (RStr v)
  | Some KTint => let! z := parse_int v in Ok (RInt z)
  | Some KTfloat => match tofloat v with Some f => Ok (RFloat f) | None => Err ValueError end
  | Some (KTsel l) => if existsb (eqb_str v) l then Ok (RStr v) else Err IOError
  end.

(** [_api.py:148-174]: one line that is neither empty nor a comment.  (strip("\r\n") does
    nothing: universal newlines leave no such character in a line.) *)
Definition parse_line (tofloat : pystr -> option Z) (line : pystr) (d : list (pystr * rval)) : res (list (pystr * rval)) :=
  let line := replace_sub (List.length line) (str "data-Length") (str "data-length") line in
  match line with
  | [] => Ok d
  | c :: _ =>
      if c =? 59 then Ok d
      else match map strip (split_char 9 (before 59 line)) with
           | k :: v :: _ => let! w := convert tofloat k v in Ok (put k w d)
           | _ => Err IOError
           end
  end.

Fixpoint parse_lines (tofloat : pystr -> option Z) (l : list pystr) (d : list (pystr * rval)) : res (list (pystr * rval)) :=
  match l with
  | [] => Ok d
  | line :: l' => let! d' := parse_line tofloat line d in parse_lines tofloat l' d'
  end.

Definition get_key (k : string) (d : list (pystr * rval)) : res rval :=
  match lookup (str k) d with Some v => Ok v | None => Err KeyError end.
Definition is_str (v : rval) (s : string) : bool :=
  match v with RStr t => eqb_str t (str s) | _ => false end.

(** [_api.py:176-193]: consistency checks (evaluated left to right, as Python's "and"). *)
Definition check_info (d : list (pystr * rval)) : res unit :=
  let! depth := get_key "depth" d in
  let! c1 := match depth with
             | RInt 1 => let! r := get_key "record-by" d in Ok (negb (is_str r "dont-care"))
             | _ => Ok false
             end in
  if c1 : bool then Err IOError else
  let! ty := get_key "data-type" d in
  let! c2 := if is_str ty "float" then
               let! len := get_key "data-length" d in
               match len with
               | RStr s => let! n := parse_int s in Ok (n <? 4)
               | RInt n => Ok (n <? 4)
               | RFloat _ => Err TypeError
               end
             else Ok false in
  if c2 : bool then Err IOError else
  let! len := get_key "data-length" d in
  let! c3 := if is_str len "1" then let! b := get_key "byte-order" d in Ok (negb (is_str b "dont-care")) else Ok false in
  if c3 : bool then Err IOError else Ok tt.

(** [_api.py:139-193] parse_ripple.  The correction of the INCA format, applied when the
    first line contains "(", is not modelled. *)
Definition parse_ripple (tofloat : pystr -> option Z) (file : pystr) : res (list (pystr * rval)) :=
  let lines := file_lines file in
  match lines with
  | l :: _ => if existsb (Z.eqb 40) l then Err NotImplementedError
              else let! d := parse_lines tofloat lines [] in let! _ := check_info d in Ok d
  | [] => let! _ := check_info [] in Ok []
  end.

(** [_api.py:633-642] write_rpl; values already converted by str().  Characters outside
    latin-1 are dropped (errors="ignore"). *)
Definition latin1 (s : pystr) : pystr := filter (fun c => c <? 256) s.
Definition write_rpl (version : pystr) (d : list (pystr * pystr)) : pystr :=
  latin1 (str ";File created by RosettaSciIO version " ++ version ++ [10] ++ str "key" ++ [9] ++ str "value" ++ [10] ++
  flat_map (fun p => fst p ++ [9] ++ snd p ++ [10]) (sort_items d)).

(** * The .raw file *)

(** Element types, [_api.py:55-62] dtype2keys: name written and bytes per element. *)
Inductive dtype := F64 | F32 | U8 | U16 | I32 | I64.
Definition dtype_key (t : dtype) : pystr :=
  match t with F64 | F32 => str "float" | U8 | U16 => str "unsigned" | I32 | I64 => str "signed" end.
Definition dtype_len (t : dtype) : nat :=
  match t with F64 => 8 | F32 => 4 | U8 => 1 | U16 => 2 | I32 => 4 | I64 => 8 end.

(** A signal: element type, byte order as recorded in the dtype (None: native, which is
    little endian here), axes (size, navigate) in array order, and elements as unsigned
    bit patterns, by index. *)
Record rsig := { g_type : dtype; g_order : option bool; g_axes : list (Z * bool); g_get : list Z -> Z }.

Definition big_of (o : option bool) : bool := match o with Some b => b | None => false end.
(** [endianess2rpl], [_api.py:64]; one-byte types have no order ("|"). *)
Definition order_key (t : dtype) (o : option bool) : pystr :=
  match t, o with
  | U8, _ | _, None => str "dont-care"
  | _, Some false => str "little-endian"
  | _, Some true => str "big-endian"
  end.

(** The keys that matter for the raw file. *)
Record info := { i_width : Z; i_height : Z; i_depth : Z; i_type : pystr; i_len : Z; i_order : pystr; i_record : pystr }.

Fixpoint positions (want : bool) (i : nat) (axes : list (Z * bool)) : list nat :=
  match axes with
  | [] => []
  | (_, nav) :: axes' => if Bool.eqb nav want then i :: positions want (S i) axes' else positions want (S i) axes'
  end.

(** An array: shape, elements by index. *)
Definition ravel (sh : list Z) (get : list Z -> Z) : list Z := map get (box_indices sh).

(** Transposition: axis [k] of the result is axis [nth k perm] of the argument. *)
Fixpoint index_of (j : nat) (perm : list nat) : nat :=
  match perm with [] => 0%nat | p :: perm' => if Nat.eqb p j then 0%nat else S (index_of j perm') end.
Definition unpermute (perm : list nat) (idx : list Z) : list Z :=
  map (fun j => nth (index_of j perm) idx 0) (seq 0 (List.length perm)).
Definition permute (perm : list nat) (sh : list Z) : list Z := map (fun p => nth p sh 0) perm.

(** np.rollaxis(a, i, n) for the last position and np.rollaxis(a, i, 0). *)
Definition roll_last (n i : nat) : list nat := filter (fun j => negb (Nat.eqb j i)) (seq 0 n) ++ [i].
Definition roll_first (n i : nat) : list nat := i :: filter (fun j => negb (Nat.eqb j i)) (seq 0 n).

(** [_api.py:489-623] file_writer and [645-676] write_raw: the header values and the
    bytes of the raw file; [None] when nothing is written (line 571-573). *)
Definition write_raw_file (s : rsig) : res (option (info * list Z)) :=
  let axes := g_axes s in
  let n := List.length axes in
  if (3 <? n)%nat then Err IOError else
  let size i := fst (nth i axes (0, false)) in
  let sigs := rev (positions false 0 axes) in
  let navs := rev (positions true 0 axes) in
  let mk w h d rec := {| i_width := w; i_height := h; i_depth := d; i_type := dtype_key (g_type s);
                         i_len := Z.of_nat (dtype_len (g_type s)); i_order := order_key (g_type s) (g_order s); i_record := rec |} in
  let tofile perm :=
    flat_map (enc (big_of (g_order s)) (dtype_len (g_type s)))
      (ravel (permute perm (map fst axes)) (fun idx => g_get s (unpermute perm idx))) in
  match sigs with
  | [d] =>
      match n, navs with
      | 3%nat, [w; h] => Ok (Some (mk (size w) (size h) (size d) (str "vector"), tofile (roll_last 3 d)))
      | 2%nat, w :: _ => Ok (Some (mk (size w) 1 (size d) (str "vector"), tofile (roll_last 2 d)))
      | 1%nat, _ => Ok (Some (mk 1 1 (size d) (str "vector"), tofile [0%nat]))
      | _, _ => Err ValueError
      end
  | [w; h] =>
      match n, navs with
      | 3%nat, d :: _ => Ok (Some (mk (size w) (size h) (size d) (str "image"), tofile (roll_first 3 d)))
      | 2%nat, _ => Ok (Some (mk (size w) (size h) 1 (str "dont-care"), tofile [0%nat; 1%nat]))
      | _, _ => Err ValueError
      end
  | _ => Ok None
  end.

(** What is read: shape, elements in row-major order, and axes. *)
Record rdata := { d_type : dtype; d_shape : list Z; d_flat : list Z; d_axes : list (Z * bool) }.

Definition dtype_of (ty : pystr) (len : Z) : res dtype :=
  if eqb_str ty (str "float") then (if len =? 8 then Ok F64 else if len =? 4 then Ok F32 else Err NotImplementedError)
  else if eqb_str ty (str "unsigned") then (if len =? 1 then Ok U8 else if len =? 2 then Ok U16 else Err NotImplementedError)
  else if eqb_str ty (str "signed") then (if len =? 4 then Ok I32 else if len =? 8 then Ok I64 else Err NotImplementedError)
  else Err TypeError.

(** [_api.py:198-263] read_raw (offset 0) and the axes of file_reader, [301-335, 443-461].
    Element types that are never written are not modelled.  The native order is little
    endian.  The checks of parse_ripple are in [check_info]; here the one on depth. *)
Definition read_raw_file (i : info) (file : list Z) : res rdata :=
  if (i_depth i =? 1) && negb (eqb_str (i_record i) (str "dont-care")) then Err IOError else
  let! t := dtype_of (i_type i) (i_len i) in
  let big := eqb_str (i_order i) (str "big-endian") in
  let! full := if eqb_str (i_record i) (str "vector") then Ok [i_height i; i_width i; i_depth i]
               else if eqb_str (i_record i) (str "image") then Ok [i_depth i; i_height i; i_width i]
               else if eqb_str (i_record i) (str "dont-care") then Ok [i_height i; i_width i]
               else Err TypeError in
  let sh := filter (fun n => 1 <? n) full in
  let count := Z.to_nat (fold_right Z.mul 1 sh) in
  let len := dtype_len t in
  if (List.length file <? count * len)%nat then Err ValueError else
  let names := if eqb_str (i_record i) (str "vector") then [i_height i; i_width i; i_depth i]
               else [i_depth i; i_height i; i_width i] in
  let navigate := if eqb_str (i_record i) (str "vector") then [true; true; false]
                  else if eqb_str (i_record i) (str "image") then [true; false; false]
                  else if (List.length sh =? 1)%nat then [true; true; false] else [true; false; false] in
  Ok {| d_type := t; d_shape := sh; d_flat := map (dec_int big) (records count len file);
        d_axes := filter (fun p => 1 <? fst p) (combine names navigate) |}.
