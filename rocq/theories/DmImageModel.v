(** Model of the class ImageObject of /repo/rsciio/digitalmicrograph/_api.py (lines 425-747)
    and of the selection of images (lines 425-447, 1300-1335). *)
From Verif Require Import Base Text Bytes RowMajor HierModel SfsModel RplModel PySlice DmModel.

(** * Packed complex images *)
(** Numbers are abstract: [zero] is the imaginary part of a real number, [neg] the sign
    change of conjugation.  Images are functions of row and column. *)
Section Packed.
Variables (T : Type) (zero : T) (neg : T -> T).
Definition cplx : Type := T * T.
Definition conj (c : cplx) : cplx := (fst c, neg (snd c)).
Definition img : Type := Z -> Z -> cplx.

Definition item (l : list T) (p : Z) : res T := match nth_error l (Z.to_nat p) with Some x => Ok x | None => Err IndexError end.
(** tmpdata[start:stop:step] *)
Definition cut (l : list T) (start stop step : Z) : list T := map (fun p => nth (Z.to_nat p) l zero) (progression (indices (zlen l) (Some start) (Some stop) step)).
(** realpart + imagpart * 1j (lines 709-711); numbers of different count are refused (numpy
    repeats a single number). *)
Definition numbers (l : list T) (start stop step : Z) : res (list cplx) :=
  let re := cut l start stop step in
  let im := cut l (start + 1) (stop + 1) step in
  if (List.length re =? List.length im)%nat then Ok (combine re im) else Err ValueError.
(** data[i, j] = v *)
Definition point (d : img) (i j : Z) (v : cplx) : img := fun i' j' => if (i =? i') && (j =? j') then v else d i' j'.
(** data[rows, cols] = block of values *)
Definition block (d : img) (rows cols : Z * Z * Z) (v : Z -> Z -> cplx) : img :=
  fun i j => match position rows i, position cols j with Some a, Some b => v a b | _, _ => d i j end.
Definition size (p : Z * Z * Z) : Z := snd p.
Definition elem (p : Z * Z * Z) (k : Z) : Z := let '(a, s, _) := p in a + k * s.
(** data[rows, cols] = np.conjugate(data[rows', cols']) *)
Definition mirror (d : img) (rows cols rows' cols' : Z * Z * Z) : res img :=
  if (size rows =? size rows') && (size cols =? size cols') then Ok (block d rows cols (fun a b => conj (d (elem rows' a) (elem cols' b))))
  else Err ValueError.
(** data[rows, cols] = l.reshape(r, c) *)
Definition fill (d : img) (rows cols : Z * Z * Z) (l : list cplx) : res img :=
  if zlen l =? size rows * size cols then Ok (block d rows cols (fun a b => nth (Z.to_nat (a * size cols + b)) l (zero, zero))) else Err ValueError.

(** unpack_packed_complex (lines 683-747); [int(self.shape[0] / 2)] is exact below 2^53. *)
Fixpoint quarter (N : Z) (tmp : list T) (is : list Z) (d : img) : res img :=
  match is with
  | [] => Ok d
  | i :: is' =>
      let start := 2 * i * N + 2 in
      let stop := start + 2 * (N - 1) - 1 in
      let! l := numbers tmp start stop 2 in
      let! d := fill d (i, 1, 1) (indices (2 * N) (Some (N + 1)) (Some (2 * N)) 1) l in
      quarter N tmp is' d
  end.
Definition unpack_packed (shape : list Z) (tmp : list T) : res img :=
  match shape with
  | [s0; s1] =>
      if negb (s0 =? s1) then Err IOError
      else
        let N := s0 / 2 in
        let sl a b := indices s0 (Some a) (Some b) 1 in
        let dn a b := indices s0 (Some a) (Some b) (-1) in
        let one i : Z * Z * Z := (i, 1, 1) in
        let d : img := fun _ _ => (zero, zero) in
        let! x := item tmp 0 in let d := point d N 0 (x, zero) in
        let! x := item tmp 1 in let d := point d 0 0 (x, zero) in
        let! x := item tmp (2 * N ^ 2) in let d := point d N N (x, zero) in
        let! x := item tmp (2 * N ^ 2 + 1) in let d := point d 0 N (x, zero) in
        let! d := quarter N tmp (zseq 0 (Z.to_nat N)) d in
        let start := 2 * N in let stop := start + 2 * N * (N - 1) - 1 in
        let! l := numbers tmp start stop (2 * N) in
        let! d := fill d (sl (N + 1) (2 * N)) (one 0) l in
        let start := 2 * N ^ 2 + 2 in let stop := start + 2 * (N - 1) - 1 in
        let! l := numbers tmp start stop 2 in
        let! d := fill d (one N) (sl (N + 1) (2 * N)) l in
        let start := stop + 1 in let stop := start + 2 * N * (N - 1) - 1 in
        let! l := numbers tmp start stop 2 in
        let! d := fill d (sl (N + 1) (2 * N)) (sl N (2 * N)) l in
        let! d := mirror d (one 0) (sl 1 N) (one 0) (dn (-1) (- N)) in
        let! d := mirror d (one N) (sl 1 N) (one N) (dn (-1) (- N)) in
        let! d := mirror d (sl 1 N) (one 0) (dn (-1) (- N)) (one 0) in
        let! d := mirror d (sl 1 N) (one N) (dn (-1) (- N)) (one N) in
        let! d := mirror d (sl 1 N) (sl 1 N) (dn (-1) (- N)) (dn (-1) (- N)) in
        mirror d (sl (N + 1) (2 * N)) (sl 1 N) (dn (- N - 1) (-2 * N)) (dn (-1) (- N))
  | s0 :: s1 :: _ => Err IOError
  | _ => Err IndexError
  end.

(** unpack_new_packed_complex (lines 678-681), rows of complex numbers *)
Definition unpack_row (r : list cplx) : list cplx := rev r ++ map conj (removelast (tl r)).
Definition unpack_new (shape : list Z) (data : list cplx) : res (list (list cplx)) :=
  match shape with
  | s0 :: s1 :: _ =>
      let c := s1 / 2 + 1 in
      if zlen data =? s0 * c then Ok (map unpack_row (records (Z.to_nat s0) (Z.to_nat c) data)) else Err ValueError
  | _ => Err IndexError
  end.
End Packed.

(** * Images of a file *)
Definition field (k : pystr) (v : dval) : res dval :=
  match v with DDict d => match lookup k d with Some x => Ok x | None => Err KeyError end | _ => Err AttributeError end.
Definition values (v : dval) : res (list dval) := match v with DDict d => Ok (map snd d) | _ => Err AttributeError end.
Definition as_int (v : dval) : res Z := match v with DInt z => Ok z | _ => Err TypeError end.

(** get_image_dictionaries (lines 425-447); file_reader iterates over None when there is no
    ImageList (lines 1304-1307). *)
Definition has (k : pystr) (d : list (pystr * dval)) : bool := match lookup k d with Some _ => true | None => false end.
Definition image_number (k : pystr) : res Z := parse_int (replace_sub (List.length k) (str "TagGroup") [] k).
Definition is_number (n : Z) (v : dval) : bool := match v with DInt z => z =? n | _ => false end.
Fixpoint keep (thumbs : list dval) (l : list (pystr * dval)) : res (list dval) :=
  match l with
  | [] => Ok []
  | (k, v) :: l' =>
      let! n := image_number k in
      let! r := keep thumbs l' in
      Ok (if existsb (is_number n) thumbs then r else v :: r)
  end.
Definition images (tags : list (pystr * dval)) : res (list dval) :=
  if negb (has (str "ImageList") tags) then Err TypeError
  else
    let! thumbs := (if has (str "Thumbnails") tags
                    then let! t := field (str "Thumbnails") (DDict tags) in let! l := values t in mapM (field (str "ImageIndex")) l
                    else Ok []) in
    let! il := field (str "ImageList") (DDict tags) in
    match il with DDict d => keep thumbs d | _ => Err AttributeError end.

(** shape (lines 456-460) *)
Definition dimensions (im : dval) : res (list Z) :=
  let! x := field (str "ImageData") im in let! x := field (str "Dimensions") x in let! l := values x in mapM as_int l.
Definition shape (im : dval) : res (list Z) := let! l := dimensions im in Ok (rev l).
(** dtype (lines 571-602): the bytes of an element.  4 is refused, 0 is no type for numpy. *)
Definition dtype_size (t : Z) : res Z :=
  match t with
  | 4 => Err NotImplementedError
  | 0 => Err TypeError
  | 1 => Ok 2 | 2 => Ok 4 | 3 => Ok 8 | 5 => Ok 4 | 6 => Ok 1 | 7 => Ok 4 | 8 => Ok 4 | 9 => Ok 1
  | 10 => Ok 2 | 11 => Ok 4 | 12 => Ok 8 | 13 => Ok 16 | 14 => Ok 1 | 23 => Ok 4 | 27 => Ok 8 | 28 => Ok 16
  | _ => Err KeyError
  end.
(** np.fromfile: as many elements as there are *)
Definition fromfile (l : list Z) (itemsize count : Z) : list (list Z) :=
  records (Z.to_nat (Z.min count (zlen l / itemsize))) (Z.to_nat itemsize) l.
(** ABGR (lines 668-672): fields in the order R, G, B, A *)
Definition reorder (e : list Z) : list Z := match e with [b; g; r; a] => [r; g; b; a] | _ => e end.
Inductive payload :=
| Plain (shape : list Z) (elems : list (list Z))
| Packed (elems : list (list Z))
| NewPacked (elems : list (list Z)).
(** get_data, not lazy, order "C" (lines 629-676).  Elements are their bytes; the elements of
    a plain array are in row-major order. *)
Definition get_data (file : list Z) (im : dval) : res payload :=
  let! d := field (str "ImageData") im in
  let! data := field (str "Data") d in
  match data with
  | DSkip n _ off =>
      let! t := field (str "DataType") d in let! t := as_int t in
      let count := if (t =? 27) || (t =? 28) then n / 2 else n in
      let! sz := dtype_size t in
      let l := fromfile (skipz off file) sz count in
      if (t =? 27) || (t =? 28) then Ok (NewPacked l)
      else if t =? 5 then Ok (Packed l)
      else
        let l := if (t =? 8) || (t =? 23) then map reorder l else l in
        let! sh := shape im in
        if zlen l =? prodZ sh then Ok (Plain sh l) else Err ValueError
  | _ => Err AttributeError
  end.

(** offsets, scales, units and sizes of the axes (lines 470-499, 749-772): the calibration of
    each axis, or None for the default (scale 1, offset 0, no unit). *)
Definition calibrations (im : dval) : res (list dval) :=
  let! x := field (str "ImageData") im in let! x := field (str "Calibrations") x in let! x := field (str "Dimension") x in values x.
Definition axes (im : dval) : res (list (Z * option dval)) :=
  let! sh := shape im in
  let! cs := calibrations im in
  let padded := map Some cs ++ repeat None (List.length sh - List.length cs) in
  Ok (combine sh (rev padded)).
(** navigate (lines 535-551); [spectrum]: the format is spectrum or spectrum image *)
Definition navigate (spectrum : bool) (sh : list Z) (scales : list dval) : list bool :=
  let n := Nat.max (List.length sh) (List.length scales) in
  let all := repeat true (List.length sh) in
  if (n =? 1)%nat || (spectrum && (n =? 2)%nat) then firstn (List.length sh - 1) all ++ [false]
  else firstn (List.length sh - 2) all ++ [false; false].
