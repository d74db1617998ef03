(** Model of /repo/rsciio/tia/_api.py, the TIA ser files: get_lengths (lines 82-88),
    get_header_dtype_list (lines 91-128), get_data_dtype_list and the tags (lines 131-182),
    guess_record_by (lines 197-201), load_ser_file (lines 319-361), ser_reader without
    metadata (lines 505-655), load_only_data (lines 696-737), get_xml_info_from_emi (lines 364-375).
    Simplifications: numbers of the data are the bytes of an element; a calibration is
    given by its eight bytes, and its value by a function to rationals (arithmetic is exact);
    units are compared as bytes (decoding is left out); the units of images, which need the
    emi file, are an argument; products do not overflow. *)
From Coq Require Import QArith.
From Verif Require Import Base Text Bytes RowMajor SfsModel.
Local Open Scope Z_scope.

(** * Header *)
Record dim := { d_size : Z; d_offset : list Z; d_delta : list Z; d_element : Z; d_description : list Z; d_units : list Z }.
Record header := { h_order : Z; h_series : Z; h_version : Z; h_data_type : Z; h_tag_type : Z; h_total : Z; h_valid : Z; h_table : Z; h_dims : list dim }.
Definition xy_tag : Z := 16706.
Definition spectrum_id : Z := 16672.
Definition bytes_at (pos n : Z) (f : list Z) : list Z := firstz n (skipz pos f).
Definition uint_at (pos n : Z) (f : list Z) : Z := le_val (bytes_at pos n f).
(** Size of an entry of the offset table *)
Definition word (version : Z) : Z := if version <=? 528 then 4 else 8.
(** struct.unpack of a short read *)
Definition read_uint (pos n : Z) (f : list Z) : res Z := if zlen f <? pos + n then Err StructError else Ok (uint_at pos n f).
(** get_lengths: lengths of the description and of the units, and the next position *)
Definition get_lengths (pos : Z) (f : list Z) : res (Z * Z * Z) :=
  let! dl := read_uint (pos + 24) 4 f in
  let! ul := read_uint (pos + 28 + dl) 4 f in
  Ok (dl, ul, pos + 32 + dl + ul).
Fixpoint all_lengths (n : nat) (pos : Z) (f : list Z) : res (list (Z * Z)) :=
  match n with
  | O => Ok []
  | S n' => let! (dl, ul, pos') := get_lengths pos f in let! l := all_lengths n' pos' f in Ok ((dl, ul) :: l)
  end.
(** dimension_array_dtype: the fields of a dimension (lines 67-79) *)
Fixpoint dims_at (lens : list (Z * Z)) (pos : Z) (f : list Z) : list dim :=
  match lens with
  | [] => []
  | (dl, ul) :: lens' =>
      {| d_size := uint_at pos 4 f; d_offset := bytes_at (pos + 4) 8 f; d_delta := bytes_at (pos + 12) 8 f; d_element := uint_at (pos + 20) 4 f;
         d_description := bytes_at (pos + 28) dl f; d_units := bytes_at (pos + 32 + dl) ul f |} :: dims_at lens' (pos + 32 + dl + ul) f
  end.
Definition dims_size (lens : list (Z * Z)) : Z := sumZ (map (fun p => 32 + fst p + snd p) lens).
Definition read_header (f : list Z) : res header :=
  if zlen f <? 22 then Err IndexError
  else
    let version := uint_at 4 2 f in
    let w := word version in
    if zlen f <? 22 + w + 4 then Err IndexError
    else
      let ndim := uint_at (22 + w) 4 f in
      let! lens := all_lengths (Z.to_nat ndim) (26 + w) f in
      if zlen f <? 26 + w + dims_size lens then Err IndexError
      else Ok {| h_order := uint_at 0 2 f; h_series := uint_at 2 2 f; h_version := version; h_data_type := uint_at 6 4 f; h_tag_type := uint_at 10 4 f;
                 h_total := uint_at 14 4 f; h_valid := uint_at 18 4 f; h_table := uint_at 22 w f; h_dims := dims_at lens (26 + w) f |}.

(** * Elements *)
(** data_types: bytes of a number *)
Definition item_size (data_type : Z) : res Z :=
  match data_type with
  | 1 => Ok 1 | 2 => Ok 2 | 3 => Ok 4 | 4 => Ok 1 | 5 => Ok 2 | 6 => Ok 4 | 7 => Ok 4 | 8 => Ok 8 | 9 => Ok 8 | 10 => Ok 16
  | _ => Err KeyError
  end.
(** offset, delta and element of a calibration *)
Definition calibration := (list Z * list Z * Z)%type.
(** Calibrations and sizes: one of a spectrum; of x, then of y of an image *)
Record elem := { e_cal : list calibration; e_type : Z; e_sizes : list Z; e_items : list (list Z); e_tag : Z; e_unknown : Z; e_time : Z; e_pos : option (list Z * list Z) }.
Definition cal_at (pos : Z) (f : list Z) : calibration := (bytes_at pos 8 f, bytes_at (pos + 8) 8 f, uint_at (pos + 16) 4 f).
(** Number of signal dimensions *)
Definition signal_dims (h : header) : nat := if h_data_type h =? spectrum_id then 1 else 2.
Definition elem_head (k : nat) : Z := 24 * Z.of_nat k + 2.
Definition tag_size (xy : bool) : Z := if xy then 24 else 8.
Definition elem_at (k : nat) (xy : bool) (size count pos : Z) (f : list Z) : elem :=
  let kz := Z.of_nat k in
  let tag := pos + elem_head k + count * size in
  {| e_cal := map (fun i => cal_at (pos + 20 * i) f) (zseq 0 k); e_type := uint_at (pos + 20 * kz) 2 f;
     e_sizes := map (fun i => uint_at (pos + 20 * kz + 2 + 4 * i) 4 f) (zseq 0 k);
     e_items := records (Z.to_nat count) (Z.to_nat size) (bytes_at (pos + elem_head k) (count * size) f);
     e_tag := uint_at tag 2 f; e_unknown := uint_at (tag + 2) 2 f; e_time := uint_at (tag + 4) 4 f;
     e_pos := if xy then Some (bytes_at (tag + 8) 8 f, bytes_at (tag + 16) 8 f) else None |}.
(** np.fromfile of one record; an empty result does not fit into data[i] *)
Definition read_elem (k : nat) (xy : bool) (size count pos : Z) (f : list Z) : res elem :=
  if zlen f <? pos + elem_head k + count * size + tag_size xy then Err ValueError else Ok (elem_at k xy size count pos f).
(** The loop over the offsets: an element is read, then the position of the next one set (lines 353-357) *)
Fixpoint read_elems (k : nat) (xy : bool) (size count pos : Z) (offsets : list Z) (f : list Z) : res (list elem) :=
  match offsets with
  | [] => Ok []
  | o :: offsets' => let! e := read_elem k xy size count pos f in let! es := read_elems k xy size count o offsets' f in Ok (e :: es)
  end.
(** np.fromfile of at most n words *)
Definition words_at (pos w n : Z) (f : list Z) : list Z :=
  map le_val (records (Z.to_nat (Z.min n (Z.max 0 (zlen f - pos) / w))) (Z.to_nat w) (skipz pos f)).
(** load_ser_file; an element that is not read keeps what np.empty gave: None *)
Definition load (f : list Z) : res (header * Z * list (option elem)) :=
  let! h := read_header f in
  if h_valid h =? 0 then Err IOError
  else
    let w := word (h_version h) in
    let! first := read_uint (h_table h) w f in
    let offsets := words_at (h_table h + w) w (h_valid h) f in
    let k := signal_dims h in
    let! t := read_uint (first + 20 * Z.of_nat k) 2 f in
    let! sizes := mapM (fun i => read_uint (first + 20 * Z.of_nat k + 2 + 4 * i) 4 f) (zseq 0 k) in
    let! size := item_size t in
    let count := prodZ sizes in
    let! es := read_elems k (h_tag_type h =? xy_tag) size count first offsets f in
    Ok (h, t, map Some es ++ repeat None (Z.to_nat (h_valid h - zlen es))).

(** * Axes *)
(** Values of eight bytes compared as floats *)
Definition is_nan (b : list Z) : bool := let m := le_val b mod 2 ^ 63 in 2047 * 2 ^ 52 <? m.
Definition float_eq (a b : list Z) : bool :=
  negb (is_nan a) && negb (is_nan b) && ((le_val a =? le_val b) || ((le_val a mod 2 ^ 63 =? 0) && (le_val b mod 2 ^ 63 =? 0))).
(** x varies first: the positions of the first two elements have the same y (lines 525-535) *)
Definition f_order (xy : bool) (es : list elem) : bool :=
  match es with
  | a :: b :: _ => xy && match e_pos a, e_pos b with Some (_, ya), Some (_, yb) => float_eq ya yb | _, _ => false end
  | _ => false
  end.
Record axis := { a_name : option pystr; a_offset : Q; a_scale : Q; a_units : option (list Z); a_size : Z; a_navigate : bool }.
Fixpoint drop_zeros (l : list Z) : list Z := match l with 0 :: l' => drop_zeros l' | _ => l end.
(** A value of type S: trailing zeros are not part of it *)
Definition units_of (d : dim) : option (list Z) := match d_units d with [] => None | u => Some (rev (drop_zeros (rev u))) end.
Definition is_text (u : option (list Z)) (s : pystr) : bool := match u with Some u => eqb_str u s | None => false end.
Definition pop {A} (l : list A) : res (A * list A) := match rev l with [] => Err IndexError | x :: r => Ok (x, rev r) end.
Section Axes.
  (** Value of the eight bytes of a float *)
  Variable fv : list Z -> Q.
  (** The loop over the dimensions (lines 547-576): axes and array_shape *)
  Fixpoint nav_axes (spectrum order_f : bool) (dims : list dim) (ndim : Z) (todo : list Z) (names : list pystr) : res (list axis * list (option Z)) :=
    match todo with
    | [] => Ok ([], [])
    | i :: todo' =>
        let idim := if order_f then ndim - i else i + 1 in
        match nth_error dims (Z.to_nat i), nth_error dims (Z.to_nat (idim - 1)) with
        | Some di, Some d =>
            if spectrum || negb (d_size di =? 1) then
              let units := units_of d in
              let! (name, names') := (if is_text units (str "meters") then let! (x, r) := pop names in Ok (Some x, r) else Ok (None, names)) in
              let! (axes, shape) := nav_axes spectrum order_f dims ndim todo' names' in
              Ok ({| a_name := name; a_offset := fv (d_offset d); a_scale := fv (d_delta d); a_units := units; a_size := d_size d; a_navigate := true |} :: axes,
                  Some (d_size d) :: shape)
            else let! (axes, shape) := nav_axes spectrum order_f dims ndim todo' names in Ok (axes, None :: shape)
        | _, _ => Err IndexError
        end
    end.
  Definition set_size (a : axis) (n : Z) : axis :=
    {| a_name := a_name a; a_offset := a_offset a; a_scale := a_scale a; a_units := a_units a; a_size := n; a_navigate := a_navigate a |}.
  (** Fewer elements than wanted along one dimension (lines 578-592) *)
  Definition cut_series (only_valid : bool) (h : header) (p : list axis * list (option Z)) : res (list axis * list (option Z)) :=
    match h_dims h with
    | [_] =>
        if negb (h_total h =? h_valid h) && only_valid then
          if h_valid h =? 1 then Ok ([], [])
          else match fst p with a :: axes => Ok (set_size a (h_valid h) :: axes, Some (h_valid h) :: tl (snd p)) | [] => Err IndexError end
        else Ok p
    | _ => Ok p
    end.
  Definition image_axis (name : pystr) (units : list Z) (c : calibration) (n : Z) : axis :=
    let '(o, d, e) := c in
    {| a_name := Some name; a_offset := fv o - inject_Z e * fv d; a_scale := fv d; a_units := Some units; a_size := n; a_navigate := false |}.
  (** The axes of the signal (lines 594-642), from the first element *)
  Definition signal_axes (units : list Z) (e : elem) : res (list axis) :=
    match e_cal e, e_sizes e with
    | [(o, d, _)], [n] => Ok [{| a_name := Some (str "Energy"); a_offset := fv o; a_scale := fv d; a_units := Some (str "eV"); a_size := n; a_navigate := false |}]
    | [cx; cy], [nx; ny] => Ok [image_axis (str "y") units cy ny; image_axis (str "x") units cx nx]
    | _, _ => Err KeyError
    end.
  (** SI units are changed (lines 644-652) *)
  Definition to_nm (a : axis) : axis :=
    if is_text (a_units a) (str "meters") then
      {| a_name := a_name a; a_offset := a_offset a; a_scale := a_scale a * inject_Z (10 ^ 9); a_units := Some (str "nm"); a_size := a_size a; a_navigate := a_navigate a |}
    else if is_text (a_units a) (str "1/meters") then
      {| a_name := a_name a; a_offset := a_offset a; a_scale := a_scale a / inject_Z (10 ^ 9); a_units := Some (str "1 / nm"); a_size := a_size a; a_navigate := a_navigate a |}
    else a.
  Definition first_elem (es : list (option elem)) : res elem := match es with Some e :: _ => Ok e | _ => Err OtherError end.
  Definition axes_of (only_valid : bool) (units : list Z) (h : header) (es : list (option elem)) : res (list axis * list Z) :=
    let ndim := zlen (h_dims h) in
    (* get_axes_from_position indexes the records with bytes *)
    if ndim =? 0 then Err IndexError
    else
      let! e := first_elem es in
      let order_f := f_order (h_tag_type h =? xy_tag) (flat_map (fun o => match o with Some e => [e] | None => [] end) es) in
      let! p := nav_axes (h_data_type h =? spectrum_id) order_f (h_dims h) ndim (zseq 0 (Z.to_nat ndim)) (firstz ndim [str "x"; str "y"]) in
      let! (axes, shape) := cut_series only_valid h p in
      let! signal := signal_axes units e in
      Ok (map to_nm (axes ++ signal), flat_map (fun o => match o with Some n => [n] | None => [] end) shape ++ map a_size signal).
End Axes.

(** * Data *)
(** Bytes of the file, the filling, or memory that was not written *)
Inductive cell := Raw (b : list Z) | Zero | Nan | Unset.
Definition cells (count : Z) (o : option elem) : list cell := match o with Some e => map Raw (e_items e) | None => repeat Unset (Z.to_nat count) end.
Definition filling (data_type : Z) : cell := if (data_type =? 7) || (data_type =? 8) then Nan else Zero.
(** dc[..., ::-1, :] *)
Definition flip (y x : Z) (l : list cell) : list cell :=
  let size := Z.to_nat (y * x) in
  List.concat (map (fun im => List.concat (rev (records (Z.to_nat y) (Z.to_nat x) im))) (records (Nat.div (List.length l) size) size l)).
Definition squeeze (sh : list Z) : list Z := filter (fun n => negb (n =? 1)) sh.
Definition set_first (n : Z) (sh : list Z) : list Z := match sh with _ :: r => n :: r | [] => [] end.
(** load_only_data: the shape and the numbers in C order *)
Definition load_data (only_valid image : bool) (h : header) (data_type count num_axes : Z) (sh : list Z) (es : list (option elem)) : res (list Z * list cell) :=
  let data := List.concat (map (cells count) es) in
  let! (sh, dc) :=
    (if prodZ sh =? zlen es * count then Ok (sh, data)
     else if (zlen (h_dims h) =? 1) && only_valid then Ok (set_first (h_valid h) sh, data)
     else if prodZ sh <? zlen data then Err ValueError
     else Ok (sh, data ++ repeat (filling data_type) (Z.to_nat (prodZ sh - zlen data)))) in
  if negb (prodZ sh =? zlen dc) then Err ValueError
  else
    let dc := (if image then match rev sh with x :: y :: _ => flip y x dc | _ => dc end else dc) in
    let sh := (if num_axes =? zlen sh then sh else squeeze sh) in
    if num_axes =? zlen sh then Ok (sh, dc) else Err IOError.
Definition read_ser (fv : list Z -> Q) (only_valid : bool) (units : list Z) (f : list Z) : res (list axis * list Z * list cell) :=
  let! (h, t, es) := load f in
  let! (axes, sh) := axes_of fv only_valid units h es in
  let! e := first_elem es in
  let! (sh, dc) := load_data only_valid (negb (h_data_type h =? spectrum_id)) h t (prodZ (e_sizes e)) (zlen axes) sh es in
  Ok (axes, sh, dc).
