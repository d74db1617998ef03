(** Model of npy files: inspect_npy_bytes in /repo/rsciio/utils/_tools.py lines 134-190 and
    /repo/rsciio/numpy/_api.py lines 76-158.
    Simplifications: the array interface is the list of the bytes of its elements; ast.literal_eval
    reads dictionaries of plain strings, booleans and tuples of numbers, which is what
    numpy writes for plain types (structured types have lists here; they are an error);
    memmap_distributed is the memory map it is made of (its chunks are in DistModel). *)
From Verif Require Import Base Text Bytes Utf8 RowMajor HierModel SfsModel.

(** * ast.literal_eval of a header *)
Inductive lit := LStr (s : pystr) | LBool (b : bool) | LTuple (l : list Z).
Fixpoint skip_ws (s : pystr) : pystr := match s with c :: s' => if is_space c then skip_ws s' else s | [] => [] end.
Fixpoint until_quote (s : pystr) : res (pystr * pystr) :=
  match s with [] => Err ValueError | c :: s' => if c =? 39 then Ok ([], s') else let! (a, r) := until_quote s' in Ok (c :: a, r) end.
(** Digits at the start *)
Fixpoint take_digits (s : pystr) : pystr * pystr :=
  match s with c :: s' => if is_digit c then let (a, r) := take_digits s' in (c :: a, r) else ([], s) | [] => ([], []) end.
(** Numbers of a tuple; (n) without a comma is a number, not a tuple *)
Fixpoint numbers (fuel : nat) (first : bool) (s : pystr) : res (list Z * pystr) :=
  match fuel with
  | O => Err OutOfFuel
  | S k =>
      let s1 := skip_ws s in
      match s1 with
      | 41 :: r => Ok ([], r)
      | _ =>
          let (d, r) := take_digits s1 in
          match undec d with
          | None => Err ValueError
          | Some n =>
              match skip_ws r with
              | 44 :: r2 => let! (l, r3) := numbers k false r2 in Ok (n :: l, r3)
              | 41 :: r2 => if first then Err TypeError else Ok ([n], r2)
              | _ => Err ValueError
              end
          end
      end
  end.
Definition value (fuel : nat) (s : pystr) : res (lit * pystr) :=
  match s with
  | 39 :: r => let! (a, r) := until_quote r in Ok (LStr a, r)
  | 40 :: r => let! (l, r) := numbers fuel true r in Ok (LTuple l, r)
  | _ =>
      if startswith (str "True") s then Ok (LBool true, skipn 4 s)
      else if startswith (str "False") s then Ok (LBool false, skipn 5 s)
      else Err ValueError
  end.
Fixpoint items (fuel : nat) (s : pystr) (d : list (pystr * lit)) : res (list (pystr * lit) * pystr) :=
  match fuel with
  | O => Err OutOfFuel
  | S k =>
      match skip_ws s with
      | 125 :: r => Ok (d, r)
      | 39 :: r =>
          let! (key, r) := until_quote r in
          match skip_ws r with
          | 58 :: r =>
              let! (v, r) := value k (skip_ws r) in
              let d := put key v d in
              match skip_ws r with
              | 44 :: r => items k r d
              | 125 :: r => Ok (d, r)
              | _ => Err ValueError
              end
          | _ => Err ValueError
          end
      | _ => Err ValueError
      end
  end.
Definition literal_eval (s : pystr) : res (list (pystr * lit)) :=
  match s with
  | 123 :: r => let! (d, r) := items (S (List.length s)) r [] in match skip_ws r with [] => Ok d | _ => Err ValueError end
  | _ => Err ValueError
  end.

(** * inspect_npy_bytes (lines 163-190): offset, shape and type *)
(** file_.read(n) *)
Definition read (n : Z) (f : list Z) : list Z * list Z := (firstz n f, skipz n f).
Definition inspect (f : list Z) : res (Z * list Z * pystr * list (pystr * lit)) :=
  let (_, f1) := read 6 f in
  let (v, f2) := read 2 f1 in
  match v with
  | [major; _] =>
      let! (size, latin) := (if major =? 1 then Ok (2, true) else if (major =? 2) || (major =? 3) then Ok (4, negb (major =? 3)) else Err ValueError) in
      let (b, f3) := read size f2 in
      if negb (zlen b =? size) then Err StructError
      else
        let len := le_val b in
        let (h, _) := read len f3 in
        let! text := (if latin : bool then Ok h else utf8_decode h) in
        let! d := literal_eval text in
        let! sh := (match lookup (str "shape") d with Some (LTuple l) => Ok l | Some _ => Err TypeError | None => Err KeyError end) in
        let! dt := (match lookup (str "descr") d with Some (LStr s) => Ok s | Some _ => Err TypeError | None => Err KeyError end) in
        Ok (6 + 2 + size + len, sh, dt, d)
  | _ => Err StructError
  end.

(** np.dtype(descr).itemsize for texts like <f8 *)
Definition itemsize (dt : pystr) : res Z := let! n := parse_int (skipn 2 dt) in if n <=? 0 then Err TypeError else Ok n.
(** np.memmap(filename, offset, shape, dtype): elements in C order *)
Definition map_file (f : list Z) (offset : Z) (sh : list Z) (dt : pystr) : res (list (list Z)) :=
  let! n := itemsize dt in
  if zlen f <? offset + prodZ sh * n then Err ValueError
  else Ok (records (Z.to_nat (prodZ sh)) (Z.to_nat n) (skipz offset f)).

(** * numpy plugin *)
(** file_reader with lazy=True (lines 112-121): shape and elements *)
Definition read_lazy (f : list Z) : res (list Z * list (list Z)) :=
  let! (q, _) := inspect f in
  let '(offset, sh, dt) := q in
  let! l := map_file f offset sh dt in Ok (sh, l).
(** The axes (lines 125-148): size, index and whether they navigate *)
Fixpoint axes_of (navigation : list Z) (axis index : Z) (sh : list Z) : list (Z * Z * bool) :=
  match sh with
  | [] => []
  | n :: sh' =>
      if 1 <? n then (n, index, existsb (fun a => a =? axis) navigation) :: axes_of navigation (axis + 1) (index + 1) sh'
      else axes_of navigation (axis + 1) index sh'
  end.
Definition axes (navigation sh : list Z) : list (Z * Z * bool) := axes_of navigation 0 0 sh.
