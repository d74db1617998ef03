(** Model of /repo/rsciio/digitalsurf/_api.py: reading and writing of sur and pro files.
    Header fields: lines 191-515 and 2050-2149; writing: _write_sur_file (545-558),
    _build_sur_file_contents (560-623), the split methods (627-901), _norm_data,
    _norm_signed_int and _norm_float (903-1011), _build_workdict (1033-1189), _pack_data and
    _compress_data (2291-2343); reading: _read_sur_file (1192-1231), _unpack_data (2151-2289),
    _build_sur_dict and the build methods (1246-1616).
    Simplifications: finite floats are rationals; double arithmetic is exact; zlib is a pair of
    functions; RGBA data are RGB data without the last channel; the shape of the data is given by
    the axes; the date, the name and unit of Z and the comment are arguments (see SurMetaModel.v);
    the post processing done by hyperspy is left out. *)
From Coq Require Import QArith Qabs.
From Verif Require Import Base Text Bytes RowMajor SfsModel SurFloat.
Local Open Scope Z_scope.

(** * Fields *)
Inductive kind := KS (n : nat) | KI16 | KU16 | KI32 | KU32 | KF | KB (n : nat).
Inductive fval := FI (z : Z) | FF (q : Q) | FS (s : pystr) | FB (b : list Z).
(** Fields 1 to 59 of the header *)
Definition layout : list kind :=
  [KS 12; KI16; KU16; KI16; KI16; KS 30; KS 30; KI16; KI16; KI16; KI16; KI16; KF; KU32; KI16; KI32; KI32; KI32; KI32; KI32; KF; KF; KF] ++
  repeat (KS 16) 9 ++ [KF; KF; KF; KI16; KI16; KI16; KB 12] ++ repeat KI16 7 ++ [KF; KU32; KB 6; KI16; KI16; KB 128; KF; KF; KF; KF; KF; KS 13; KS 13].
Definition fld (h : list fval) (i : nat) : fval := nth (i - 1) h (FI 0).
Definition int_at (h : list fval) (i : nat) : Z := match fld h i with FI z => z | _ => 0 end.
Definition float_at (h : list fval) (i : nat) : Q := match fld h i with FF q => q | _ => 0%Q end.
Definition str_at (h : list fval) (i : nat) : pystr := match fld h i with FS s => s | _ => [] end.
Definition latin1 (s : pystr) : bool := forallb (fun c => (0 <=? c) && (c <? 256)) s.
(** struct.pack of a string type: cut, or filled with zeros *)
Definition pack_s (n : nat) (b : list Z) : list Z := firstn n b ++ repeat 0 (n - List.length b).
(** _set_str *)
Definition set_str (n : nat) (s : pystr) : res (list Z) :=
  let t := s ++ repeat 32 (n - List.length s) in if latin1 t then Ok (pack_s n t) else Err UnicodeError.
(** strip(" \t\n") *)
Definition blank (c : Z) : bool := (c =? 32) || (c =? 9) || (c =? 10).
Fixpoint trim_left (s : pystr) : pystr := match s with c :: s' => if blank c then trim_left s' else s | [] => [] end.
Definition trim (s : pystr) : pystr := rev (trim_left (rev (trim_left s))).
Definition set_int (lo hi : Z) (n : nat) (z : Z) : res (list Z) := if (lo <=? z) && (z <? hi) then Ok (le n z) else Err StructError.
Definition set_field (k : kind) (v : fval) : res (list Z) :=
  match k, v with
  | KS n, FS s => set_str n s
  | KI16, FI z => set_int (- 2 ^ 15) (2 ^ 15) 2 z
  | KU16, FI z => set_int 0 (2 ^ 16) 2 z
  | KI32, FI z => set_int (- 2 ^ 31) (2 ^ 31) 4 z
  | KU32, FI z => set_int 0 (2 ^ 32) 4 z
  | KF, FF q => let! w := pack32 q in Ok (le 4 w)
  | KB n, FB b => Ok (pack_s n b)
  | _, _ => Err StructError
  end.
Fixpoint set_fields (ks : list kind) (vs : list fval) : res (list Z) :=
  match ks, vs with
  | [], _ => Ok []
  | k :: ks', v :: vs' => let! a := set_field k v in let! b := set_fields ks' vs' in Ok (a ++ b)
  | _ :: _, [] => Err KeyError
  end.
Definition take (n : nat) (f : list Z) : res (list Z * list Z) := if (List.length f <? n)%nat then Err StructError else Ok (firstn n f, skipn n f).
Definition get_field (k : kind) (f : list Z) : res (fval * list Z) :=
  match k with
  | KS n => Ok (FS (trim (firstn n f)), skipn n f)
  | KB n => Ok (FB (firstn n f), skipn n f)
  | KI16 => let! (b, f') := take 2 f in Ok (FI (signed 2 (le_val b)), f')
  | KU16 => let! (b, f') := take 2 f in Ok (FI (le_val b), f')
  | KI32 => let! (b, f') := take 4 f in Ok (FI (signed 4 (le_val b)), f')
  | KU32 => let! (b, f') := take 4 f in Ok (FI (le_val b), f')
  | KF => let! (b, f') := take 4 f in let! q := val32 (le_val b) in Ok (FF q, f')
  end.
Fixpoint get_fields (ks : list kind) (f : list Z) : res (list fval * list Z) :=
  match ks with
  | [] => Ok ([], f)
  | k :: ks' => let! (v, f') := get_field k f in let! (vs, f'') := get_fields ks' f' in Ok (v :: vs, f'')
  end.

(** * Objects *)
Record content := { c_fields : list fval; c_comment : pystr; c_private : list Z; c_points : list Z }.
(** A point as read: an integer, a float or NaN *)
Inductive point := PI (z : Z) | PF (q : Q) | PN.
Record object := { o_fields : list fval; o_comment : pystr; o_private : pystr; o_points : list point }.
(** repr of bytes *)
Definition hex (d : Z) : Z := if d <? 10 then 48 + d else 87 + d.
Definition escape (quote b : Z) : pystr :=
  if (b =? quote) || (b =? 92) then [92; b] else if b =? 9 then [92; 116] else if b =? 10 then [92; 110] else if b =? 13 then [92; 114]
  else if (b <? 32) || (127 <=? b) then [92; 120; hex (b / 16); hex (b mod 16)] else [b].
Definition bytes_repr (b : list Z) : pystr :=
  let quote := if existsb (Z.eqb 39) b && negb (existsb (Z.eqb 34) b) then 34 else 39 in
  98 :: quote :: flat_map (escape quote) b ++ [quote].
Definition signature (h : list fval) : bool := eqb_str (str_at h 1) (str "DSCOMPRESSED").
Definition psize (h : list fval) : Z := Z.quot (int_at h 15) 8.
Definition raw_size (h : list fval) : Z := int_at h 20 * Z.max (int_at h 14) 1 * psize h.
Definition sized {A} (n : Z) (r : nat -> res A) : res A := if n <? 0 then Err StructError else r (Z.to_nat n).
Definition write_object (c : content) : res (list Z) :=
  let h := c_fields c in
  let! a := set_fields layout h in
  let! b := sized (int_at h 50) (fun n => set_str n (c_comment c)) in
  let! p := sized (int_at h 51) (fun n => set_str n (bytes_repr (c_private c))) in
  let! d := sized (if signature h then int_at h 48 else raw_size h) (fun n => Ok (pack_s n (c_points c))) in
  Ok (a ++ b ++ p ++ d).
Fixpoint write_objects (cs : list content) : res (list Z) :=
  match cs with [] => Ok [] | c :: cs' => let! a := write_object c in let! b := write_objects cs' in Ok (a ++ b) end.
(** file.read *)
Definition read_n (size : Z) (f : list Z) : res (list Z * list Z) :=
  if size =? -1 then Ok (f, []) else if size <? 0 then Err ValueError else Ok (firstz size f, skipz size f).
(** np.frombuffer *)
Definition frombuffer (w : nat) (b : list Z) : res (list Z) :=
  if Nat.eqb (Nat.modulo (List.length b) w) 0 then Ok (map (fun r => signed w (le_val r)) (records (Nat.div (List.length b) w) w b)) else Err ValueError.
Definition obj_types : list Z := zseq (-1) 20 ++ [20; 21].
(** astype(int) of a rounded float *)
Definition round_q (q : Q) : Z := round_div (Qnum q) (Zpos (Qden q)).
Definition is_integer (q : Q) : bool := Qnum q mod Zpos (Qden q) =? 0.
Definition scaled (zmin : Z) (scale offset : Q) (p : Z) : Q := Qred (inject_Z (p - zmin) * scale + offset).
Definition decode_points (h : list fval) (raw : list Z) : res (list point) :=
  let zmin := int_at h 16 in
  if Qnum (float_at h 35) =? 0 then Err ZeroDivisionError
  else
    let scale := Qred (float_at h 23 / float_at h 35) in
    let offset := float_at h 55 in
    let t := int_at h 5 in
    if negb (existsb (Z.eqb t) obj_types) then Err KeyError
    else if ((t =? 2) || (t =? 5)) && is_integer scale && is_integer offset then Ok (map PI raw)
    else if (t =? 12) || (t =? 18) || (t =? 10) then Ok (map (fun p => PI (round_q (scaled zmin scale offset p))) raw)
    else if t =? 3 then Ok (map PI raw)
    else Ok (map (fun p => if (int_at h 11 =? 1) && (p =? zmin - 2) then PN else PF (scaled zmin scale offset p)) raw).

Section Zlib.
  Variable zip : list Z -> list Z.
  Variable unzip : list Z -> res (list Z).
  (** The sizes of the streams *)
  Fixpoint stream_sizes (n : nat) (f : list Z) : res (list Z * list Z) :=
    match n with
    | O => Ok ([], f)
    | S n' => let! (_, f1) := take 4 f in let! (b, f2) := take 4 f1 in let! (l, f3) := stream_sizes n' f2 in Ok (le_val b :: l, f3)
    end.
  Fixpoint unzip_streams (sizes : list Z) (f : list Z) : res (list Z * list Z) :=
    match sizes with
    | [] => Ok ([], f)
    | s :: sizes' => let! d := unzip (firstz s f) in let! (l, f') := unzip_streams sizes' (skipz s f) in Ok (d ++ l, f')
    end.
  Definition read_raw (h : list fval) (f : list Z) : res (list Z * list Z) :=
    if signature h then
      let! (b, f1) := take 4 f in
      let! (sizes, f2) := stream_sizes (Z.to_nat (le_val b)) f1 in
      unzip_streams sizes f2
    else read_n (raw_size h) f.
  Definition read_object (f : list Z) : res (object * list Z) :=
    let! (h, f1) := get_fields layout f in
    let! (c, f2) := read_n (int_at h 50) f1 in
    let! (p, f3) := read_n (int_at h 51) f2 in
    let! (d, f4) := read_raw h f3 in
    let! raw := frombuffer (if psize h =? 2 then 2 else 4) d in
    let! points := decode_points h raw in
    Ok ({| o_fields := h; o_comment := trim c; o_private := trim p; o_points := points |}, f4).
  Fixpoint read_objects (n : nat) (f : list Z) : res (list object * list Z) :=
    match n with
    | O => Ok ([], f)
    | S n' => let! (o, f') := read_object f in let! (os, f'') := read_objects n' f' in Ok (o :: os, f'')
    end.
  Definition read_sur (f : list Z) : res (list object) :=
    let! (o, f') := read_object f in
    let n := Z.max (int_at (o_fields o) 8) 1 * Z.max (int_at (o_fields o) 3) 1 in
    let! (os, _) := read_objects (Z.to_nat (n - 1)) f' in
    Ok (o :: os).

  (** * Writing signals *)
  (** _compress_data *)
  Definition compress_data (nstreams : Z) (w : nat) (data : list Z) : res (list Z) :=
    if (nstreams <=? 0) || (8 <? nstreams) then Err OtherError
    else
      let tot := zlen data in
      let streamlen := if tot mod nstreams =? 0 then tot / nstreams else tot / nstreams + 1 in
      let pieces := map (fun i => firstz streamlen (skipz (i * streamlen) data)) (zseq 0 (Z.to_nat nstreams)) in
      let zipped := map (fun p => zip (List.concat (map (le w) p))) pieces in
      let! sizes := mapM (fun pz : list Z * list Z => let (p, z) := pz in let! a := set_int 0 (2 ^ 32) 4 (zlen p * Z.of_nat w) in let! b := set_int 0 (2 ^ 32) 4 (zlen z) in Ok (a ++ b)) (combine pieces zipped) in
      Ok (le 4 nstreams ++ List.concat sizes ++ List.concat zipped).
End Zlib.

Record axis := { a_name : pystr; a_units : pystr; a_size : Z; a_scale : Q; a_offset : Q; a_nav : bool }.
Inductive itype := TBool | TU8 | TI8 | TU16 | TI16 | TI32 | TOther.
(** single: the type is float32 *)
Inductive array := Ints (t : itype) (l : list Z) | Floats (single : bool) (l : list (option Q)) | Rgb (l : list (Z * Z * Z)) | Complex.
Record signal := { s_axes : list axis; s_data : array }.
Definition imin (t : itype) : Z := match t with TI8 => - 2 ^ 7 | TI16 => - 2 ^ 15 | TI32 => - 2 ^ 31 | _ => 0 end.
Definition imax (t : itype) : Z := match t with TU8 => 2 ^ 8 - 1 | TI8 => 2 ^ 7 - 1 | TU16 => 2 ^ 16 - 1 | TI16 => 2 ^ 15 - 1 | _ => 2 ^ 31 - 1 end.
Definition minl (x : Z) (l : list Z) : Z := fold_left Z.min l x.
Definition maxl (x : Z) (l : list Z) : Z := fold_left Z.max l x.
Definition qmin (a b : Q) : Q := if Qle_bool a b then a else b.
Definition qmax (a b : Q) : Q := if Qle_bool a b then b else a.
(** _norm_signed_int *)
Definition norm_int (t : itype) (special : bool) (l : list Z) : res (Z * Z * Q * Q) :=
  match l with
  | [] => Err ValueError
  | x :: l' =>
      let zmin := if special && existsb (Z.eqb (imin t)) l then imin t + 1 else minl x l' in
      let zmax := if special && existsb (Z.eqb (imax t)) l then imax t - 1 else maxl x l' in
      Ok (zmin, zmax, 1%Q, inject_Z zmin)
  end.
Section Floats.
  (** What a cast to int32 gives for NaN and for numbers out of range *)
  Variable bad : Z.
  Definition cast32 (q : Q) : Z := let t := Z.quot (Qnum q) (Zpos (Qden q)) in if (- 2 ^ 31 <=? t) && (t <? 2 ^ 31) then t else bad.
  Definition present (l : list (option Q)) : list Q := flat_map (fun o => match o with Some q => [q] | None => [] end) l.
  Definition is_none {A} (o : option A) : bool := match o with None => true | _ => false end.
  (** _norm_float; rnd rounds to the type of the data *)
  Definition norm_float (rnd : Q -> Q) (special : bool) (l : list (option Q)) : res (Z * Z * Q * Q * list Z) :=
    match present l with
    | [] => Err NotImplementedError
    | x :: r =>
        let off := fold_left qmin r x in
        let mx := fold_left qmax r x in
        let nan := special && existsb is_none l in
        let zmin := if nan then - 2 ^ 31 + 2 else - 2 ^ 31 in
        let zmax := if nan then 2 ^ 32 + zmin - 3 else 2 ^ 32 + zmin - 1 in
        let scale := rnd (rnd (mx - off) / rnd (inject_Z (zmax - zmin)))%Q in
        let conv (o : option Q) := match o with
          | Some v => if Qnum scale =? 0 then bad else cast32 (rnd (rnd (rnd (v - off) / scale) + inject_Z zmin))%Q
          | None => if nan then zmin - 2 else bad
          end in
        Ok (zmin, zmax, scale, off, map conv l)
    end.
  Definition wrap16 (z : Z) : Z := signed 2 (z mod 2 ^ 16).
  (** _norm_data: point size, Zmin, Zmax, scale, offset, integers *)
  Definition norm_data (special : bool) (d : array) : res (Z * Z * Z * Q * Q * list Z) :=
    match d with
    | Complex | Ints TOther _ | Rgb _ => Err OtherError
    | Ints TBool l => Ok (16, 0, 1, 1%Q, 0%Q, l)
    | Ints t l => let! (zmin, zmax, s, o) := norm_int t special l in Ok (match t with TU16 | TI32 => 32 | _ => 16 end, zmin, zmax, s, o, l)
    | Floats single l => let! (zmin, zmax, s, o, i) := norm_float (if single then fun q => nearest q else fun q => Qred q) special l in Ok (32, zmin, zmax, s, o, i)
    end.

  Record split := { p_x : option axis; p_y : option axis; p_t : option axis; p_types : list Z; p_data : list array; p_objects : Z; p_channels : Z }.
  Definition one (t : Z) (x y ta : option axis) (d : array) : split := {| p_x := x; p_y := y; p_t := ta; p_types := [t]; p_data := [d]; p_objects := 1; p_channels := 1 |}.
  Definition spectrum_names : list pystr := [str "Wavelength"; str "Energy"; str "Energy Loss"; str "E"].
  Definition is_spectrum (axes : list axis) : bool := existsb (fun a => existsb (eqb_str (a_name a)) spectrum_names) axes.
  (** np.rollaxis(data, idx), one item after the other *)
  Definition along {A} (idx : nat) (shape : list Z) (l : list A) : list (list A) :=
    let before := Z.to_nat (prodZ (firstn idx shape)) in
    let n := Z.to_nat (nth idx shape 0) in
    let after := Z.to_nat (prodZ (skipn (S idx) shape)) in
    map (fun t => List.concat (map (fun a => slice ((a * n + t) * after) after l) (seq 0 before))) (seq 0 n).
  Definition split_array (idx : nat) (shape : list Z) (d : array) : list array :=
    match d with
    | Ints t l => map (Ints t) (along idx shape l)
    | Floats s l => map (Floats s) (along idx shape l)
    | Rgb l => map Rgb (along idx shape l)
    | Complex => []
    end.
  Fixpoint nav_index (axes : list axis) : nat := match axes with a :: axes' => if a_nav a then O else S (nav_index axes') | [] => O end.
  Definition set_head (t : Z) (l : list Z) : res (list Z) := match l with [] => Err IndexError | _ :: r => Ok (t :: r) end.
  Definition red (p : Z * Z * Z) : Z := let '(r, _, _) := p in r.
  Definition green (p : Z * Z * Z) : Z := let '(_, g, _) := p in g.
  Definition blue (p : Z * Z * Z) : Z := let '(_, _, b) := p in b.
  (** _split_signal_dict and the split methods *)
  Definition split_signal (s : signal) : res split :=
    let axes := s_axes s in
    let d := s_data s in
    let navs := filter a_nav axes in
    let sigs := filter (fun a => negb (a_nav a)) axes in
    let shape := map a_size axes in
    let series := split_array (nav_index axes) shape d in
    let image y x := match d with
      | Ints TBool _ => Ok (one 3 (Some x) (Some y) None d)
      | Rgb l => Ok {| p_x := Some x; p_y := Some y; p_t := None; p_types := [12; 10; 10];
                       p_data := [Ints TI32 (map red l); Ints TI32 (map green l); Ints TI32 (map blue l)]; p_objects := 1; p_channels := 3 |}
      | _ => Ok (one 2 (Some x) (Some y) None d)
      end in
    match navs, sigs with
    | [], [x] => Ok (one (if is_spectrum axes then 20 else 1) (Some x) None None d)
    | [], [y; x] => image y x
    | [x], [] => Ok (one 1 (Some x) None None d)
    | [y], [x] =>
        if is_spectrum axes then Ok (one 20 (Some x) (Some y) None d)
        else Ok {| p_x := Some x; p_y := None; p_t := Some y; p_types := 4 :: repeat 1 (List.length series - 1); p_data := series; p_objects := 1 + Z.of_nat (List.length series - 1); p_channels := 1 |}
    | [t], [y; x] =>
        match d with
        | Rgb l =>
            let! types := set_head 18 (List.concat (repeat [12; 10; 10] (Z.to_nat (a_size t)))) in
            Ok {| p_x := Some x; p_y := Some y; p_t := Some t; p_types := types;
                  p_data := flat_map (fun f => [Ints TI16 (map wrap16 (map red f)); Ints TI16 (map wrap16 (map green f)); Ints TI16 (map wrap16 (map blue f))]) (along (nav_index axes) shape l);
                  p_objects := a_size t; p_channels := 3 |}
        | _ =>
            let! types := set_head 5 (repeat 2 (List.length series)) in
            Ok {| p_x := Some x; p_y := Some y; p_t := Some t; p_types := types; p_data := series; p_objects := zlen series; p_channels := 1 |}
        end
    | [y; x], [] => image y x
    | [y; x], [t] => Ok (one 21 (Some x) (Some y) (Some t) d)
    | _, _ => Err OtherError
    end.

  Record options := { special : bool; compressed : bool; object_name : pystr; operator_name : pystr; absolute : Z; private_zone : list Z; client_zone : list Z;
                      date : list Z; z_name : pystr; z_unit : pystr }.
  Variable zip : list Z -> list Z.
  Definition axis_or {A} (f : axis -> A) (d : A) (a : option axis) : A := match a with Some a => f a | None => d end.
  Definition crop (n : Z) : Z := if 2 ^ 15 <=? n then 2 ^ 15 - 1 else n.
  (** _build_workdict; date holds seconds, minutes, hours, day, month, year and day of the week *)
  Definition build_workdict (o : options) (p : split) (comment : pystr) (d : array) (t : Z) : res content :=
    let! (bsize, zmin, zmax, scale, off, ints) := norm_data (special o) d in
    let w := if bsize =? 16 then 2%nat else 4%nat in
    let! data := (if compressed o then compress_data zip 1 w ints else Ok (List.concat (map (le w) ints))) in
    if negb (latin1 comment) then Err UnicodeError
    else
      let size a := axis_or a_size 1 a in
      let nx := axis_or a_name [] in let ux := axis_or a_units [] in let sx := axis_or a_scale 0%Q in let ox := axis_or a_offset 0%Q in
      let x := p_x p in let y := p_y p in let ta := p_t p in
      Ok {| c_fields :=
              [FS (if compressed o then str "DSCOMPRESSED" else str "DIGITAL SURF"); FI 0; FI (p_objects p); FI 1; FI t; FS (object_name o); FS (operator_name o); FI (p_channels p);
               FI 0; FI 0; FI (if special o then 1 else 0); FI (absolute o); FF 0; FI (if t =? 21 then axis_or a_size 0 ta else 0); FI bsize; FI zmin; FI zmax;
               FI (size x); FI (size y); FI (size x * size y); FF (sx x); FF (sx y); FF scale;
               FS (nx x); FS (nx y); FS (z_name o); FS (ux x); FS (ux y); FS (z_unit o); FS (ux x); FS (ux y); FS (z_unit o); FF 1; FF 1; FF 1;
               FI 0; FI 0; FI 0; FB []] ++ map FI (date o) ++
              [FF 0; FI (if compressed o then zlen data else 0); FB []; FI (crop (zlen comment)); FI (crop (zlen (private_zone o))); FB (client_zone o);
               FF (ox x); FF (ox y); FF off; FF (sx ta); FF (ox ta); FS (nx ta); FS (ux ta)];
            c_comment := comment; c_private := private_zone o; c_points := data |}.
  (** _build_sur_file_contents: only the first object has the comment *)
  Fixpoint build_contents (o : options) (p : split) (comment : pystr) (dts : list (array * Z)) : res (list content) :=
    match dts with
    | [] => Ok []
    | (d, t) :: dts' => let! c := build_workdict o p comment d t in let! cs := build_contents o p [] dts' in Ok (c :: cs)
    end.
  Definition write_sur (o : options) (comment : pystr) (s : signal) : res (list Z) :=
    let! p := split_signal s in
    let! cs := build_contents o p comment (combine (p_data p) (p_types p)) in
    write_objects cs.
End Floats.

(** * Reading signals *)
(** An axis and its index_in_array *)
Record result := { r_axes : list (axis * Z); r_shape : list Z; r_data : list point }.
Definition xax (nav : bool) (h : list fval) : axis := {| a_name := str_at h 24; a_units := str_at h 27; a_size := int_at h 18; a_scale := float_at h 21; a_offset := float_at h 53; a_nav := nav |}.
Definition yax (nav : bool) (h : list fval) : axis := {| a_name := str_at h 25; a_units := str_at h 28; a_size := int_at h 19; a_scale := float_at h 22; a_offset := float_at h 54; a_nav := nav |}.
Definition tax (size : nat) (nav : bool) (h : list fval) : axis :=
  {| a_name := str_at h 58; a_units := str_at h 59; a_size := int_at h size; a_scale := if Qnum (float_at h 56) =? 0 then 1%Q else float_at h 56; a_offset := float_at h 57; a_nav := nav |}.
Definition reshape (sh : list Z) (l : list point) : res (list point) := if (prodZ sh =? zlen l) && forallb (fun n => 0 <=? n) sh then Ok l else Err ValueError.
Definition as_float (p : point) : point := match p with PI z => PF (inject_Z z) | _ => p end.
Definition stack (sh : list Z) (os : list object) : res (list point) := let! ls := mapM (fun o => reshape sh (o_points o)) os in Ok (List.concat ls).
(** data[img, ..., chan], from the images one after the other *)
Definition channels_last (n nchan size : nat) (ls : list (list point)) : list point :=
  flat_map (fun i => flat_map (fun p => map (fun c => nth p (nth (i * nchan + c) ls []) PN) (seq 0 nchan)) (seq 0 size)) (seq 0 n).
Definition build_sur (os : list object) : res result :=
  match os with
  | [] => Err IndexError
  | o :: rest =>
      let h := o_fields o in
      let t := int_at h 5 in
      let xy := [int_at h 19; int_at h 18] in
      let surface := match rest with [] => let! d := reshape xy (o_points o) in Ok {| r_axes := [(yax false h, 0); (xax false h, 1)]; r_shape := xy; r_data := d |} | _ => Err OtherError end in
      let series n := let! d := stack xy os in Ok {| r_axes := [(tax n true h, 0); (yax false h, 1); (xax false h, 2)]; r_shape := zlen os :: xy; r_data := d |} in
      if t =? 21 then
        match rest with
        | [] => let sh := xy ++ [int_at h 14] in let! d := reshape sh (o_points o) in Ok {| r_axes := [(yax true h, 0); (xax true h, 1); (tax 14 false h, 2)]; r_shape := sh; r_data := d |}
        | _ => Err OtherError
        end
      else if t =? 20 then
        let! d := reshape xy (o_points o) in
        Ok {| r_axes := (if int_at h 19 =? 1 then [] else [(yax true h, 0)]) ++ [(xax false h, 1)]; r_shape := filter (fun n => negb (n =? 1)) xy; r_data := d |}
      else if t =? 1 then
        match rest with [] => Ok {| r_axes := [(xax false h, 0)]; r_shape := [zlen (o_points o)]; r_data := o_points o |} | _ => Err OtherError end
      else if t =? 4 then
        let! d := stack [zlen (o_points o)] os in
        Ok {| r_axes := [(tax 3 true h, 0); (xax false h, 1)]; r_shape := [zlen os; zlen (o_points o)]; r_data := d |}
      else if (t =? 3) || (t =? 2) || (t =? 10) then surface
      else if (t =? 5) || (t =? 8) then series 3%nat
      else if (t =? 13) || (t =? 12) || (t =? 16) then series 8%nat
      else if t =? 18 then
        let n := int_at h 3 in let c := int_at h 8 in
        let! ls := mapM (fun o => reshape xy (o_points o)) (firstz (n * c) os) in
        if zlen os <? n * c then Err IndexError
        else Ok {| r_axes := [(tax 3 false h, 0); (yax false h, 1); (xax false h, 2); (tax 8 true h, 3)]; r_shape := n :: xy ++ [c];
                   r_data := map as_float (channels_last (Z.to_nat n) (Z.to_nat c) (Z.to_nat (prodZ xy)) ls) |}
      else Err OtherError
  end.
Definition load_sur (unzip : list Z -> res (list Z)) (f : list Z) : res result := let! os := read_sur unzip f in build_sur os.
