(** Images and MRCZ files: /repo/rsciio/image/_api.py, /repo/rsciio/utils/_image.py, /repo/rsciio/mrcz/_api.py.
    The libraries that read and write files (imageio, pillow, matplotlib, mrcz) are left out: an image file is its
    array and its exif tags by name, a figure is its size and scale bar, an mrcz file is its array and header.
    Simplifications: numbers are exact; resolutions and origins are numbers, units whole numbers; lazy reading
    of images is left out; images to write have two dimensions, or two and colours. *)
From Coq Require Import QArith.
From Verif Require Import Base Text HierModel DistModel RowMajor SfsModel.
Local Open Scope Z_scope.

(** * Reading images *)
Inductive dtype := U8 | U16 | OtherType.
Record array := { a_type : dtype; a_shape : list Z; a_at : list Z -> Z }.
(** np.squeeze *)
Definition squeezed (shape : list Z) : list Z := filter (fun n => negb (n =? 1)) shape.
Fixpoint expand (shape idx : list Z) : list Z :=
  match shape with
  | [] => []
  | n :: s => if n =? 1 then 0 :: expand s idx else match idx with i :: idx' => i :: expand s idx' | [] => [] end
  end.
Definition squeeze (a : array) : array := {| a_type := a_type a; a_shape := squeezed (a_shape a); a_at := fun i => a_at a (expand (a_shape a) i) |}.
(** An array of numbers, or of colours: each element is the list of its channels *)
Record data := { d_type : dtype; d_colours : option Z; d_shape : list Z; d_at : list Z -> list Z }.
Definition plain (a : array) : data := {| d_type := a_type a; d_colours := None; d_shape := a_shape a; d_at := fun i => [a_at a i] |}.
(** rgb.regular_array2rgbx *)
Definition colours (a : array) : res data :=
  match rev (a_shape a) with
  | [] => Err IndexError
  | c :: r => if negb ((c =? 3) || (c =? 4)) then Err ValueError
              else match a_type a with
                   | OtherType => Err ValueError
                   | t => Ok {| d_type := t; d_colours := Some c; d_shape := rev r; d_at := fun i => map (fun k => a_at a (i ++ [k])) (zseq 0 (Z.to_nat c)) |}
                   end
  end.
(** _read_data (lines 266-283): channels 1 and 2 are compared twice *)
Definition read_data (file : array) : res data :=
  let a := squeeze file in
  match a_shape a with
  | h :: w :: c :: rest =>
      if c <? 3 then Err IndexError else
      let same := forallb (fun i => match i with y :: x :: r => a_at a (y :: x :: 1 :: r) =? a_at a (y :: x :: 2 :: r) | _ => true end) (box_indices (h :: w :: rest)) in
      if same && same then Ok {| d_type := a_type a; d_colours := None; d_shape := h :: w :: rest; d_at := fun i => match i with y :: x :: r => [a_at a (y :: x :: 0 :: r)] | _ => [] end |}
      else colours a
  | _ => Ok (plain a)
  end.
(** _parse_axes_from_metadata (utils/_image.py, lines 42-74) *)
Record exif := { e_origins : option (list Q); e_x : option Q; e_y : option Q; e_unit : option Z }.
Record axis := { x_name : pystr; x_units : option pystr; x_size : Z; x_scale : Q; x_offset : Q; x_index : Z }.
Definition unit_name (u : option Z) : res (option pystr) :=
  match u with
  | None => Ok None
  | Some u => if u =? 1 then Ok None else if u =? 2 then Ok (Some (str "inches")) else if u =? 3 then Ok (Some (str "cm")) else if u =? 4 then Ok (Some (str "mm")) else if u =? 5 then Ok (Some [181; 109]) else Err KeyError
  end.
Definition item {A} (l : list A) (i : nat) : res A := match nth_error l i with Some x => Ok x | None => Err IndexError end.
Definition get {A} (o : option A) (d : A) : A := match o with Some x => x | None => d end.
Definition make_axis (name : string) (i : nat) (size : Z) (offsets fields : list Q) (unit : option pystr) : res axis :=
  if size =? 0 then Err ZeroDivisionError else
  let! f := item fields i in let! o := item offsets i in
  Ok {| x_name := str name; x_units := unit; x_size := size; x_scale := (f / inject_Z size)%Q; x_offset := o; x_index := Z.of_nat i |}.
Definition parse_axes (e : option exif) (sizes : list Z) : res (list axis) :=
  match sizes with
  | h :: w :: _ =>
      let! t := match e with
                | None => Ok ([0; 0], [inject_Z w; inject_Z h], None)%Q
                | Some e => let! u := unit_name (e_unit e) in Ok (get (e_origins e) [0; 0], [get (e_x e) (inject_Z w); get (e_y e) (inject_Z h)], u)%Q
                end in
      let '(offsets, fields, unit) := t in
      let! y := make_axis "y" 1 h offsets fields unit in
      let! x := make_axis "x" 0 w offsets fields unit in
      Ok [y; x]
  | _ => Err IndexError
  end.
(** file_reader (lines 213-260) *)
Record image := { i_array : array; i_exif : option exif }.
Record signal := { s_data : data; s_axes : list axis }.
Definition image_reader (f : image) : res signal :=
  let! d := read_data (i_array f) in
  let! a := parse_axes (i_exif f) (d_shape d) in
  Ok {| s_data := d; s_axes := a |}.

(** * Writing images (lines 40-210) *)
Record waxis := { w_size : Z; w_scale : Q; w_units : option pystr; w_navigate : bool }.
Inductive size := NoSize | Width (w : Q) | Sizes (l : list Q).
Inductive aspect := NoAspect | Ratio (q : Q) | Word.
(** imshow_kwds: the aspect, and whether there are others *)
Record kwds := { k_aspect : aspect; k_more : bool }.
Record bar := { b_scale : Q; b_units : pystr; b_dimension : option pystr }.
Inductive written := Direct (a : array) | Figure (width height : Q) (b : option bar).
(** rgb.rgbx2regular_array *)
Definition regular (d : data) : array :=
  {| a_type := d_type d; a_shape := d_shape d ++ match d_colours d with Some c => [c] | None => [] end;
     a_at := match d_colours d with
             | Some _ => fun i => nth (Z.to_nat (last i 0)) (d_at d (removelast i)) 0
             | None => fun i => hd 0 (d_at d i)
             end |}.
Definition given (s : size) : bool := match s with NoSize => false | Width w => negb (Qeq_bool w 0) | Sizes l => match l with [] => false | _ => true end end.
Definition some_kwds (k : option kwds) : bool := match k with Some k => k_more k || match k_aspect k with NoAspect => false | _ => true end | None => false end.
Definition qabs (q : Q) : Q := if Qle_bool 0 q then q else (- q)%Q.
Definition qmax (a b : Q) : Q := if Qle_bool a b then b else a.
(** math.isclose *)
Definition isclose (a b rel : Q) : bool := Qeq_bool a b || Qle_bool (qabs (a - b)) (rel * qmax (qabs a) (qabs b)).
Section Writer.
  (** units as written by pint, and whether they are reciprocal lengths *)
  Variable pint : pystr -> res (pystr * bool).
  Definition two_axes (axes : list waxis) : res (waxis * waxis) :=
    match filter (fun a => negb (w_navigate a)) axes with
    | [a; b] => Ok (a, b)
    | _ => match filter w_navigate axes with [a; b] => Ok (a, b) | _ => Err OtherError end
    end.
  Definition ratio (k : option kwds) : res Q := match k with Some k => match k_aspect k with NoAspect => Ok 1%Q | Ratio q => Ok q | Word => Err TypeError end | None => Ok 1%Q end.
  Definition figure_size (s : size) (k : option kwds) (shape : list Z) (a b : waxis) : res (Q * Q) :=
    match s with
    | NoSize => let! r := ratio k in Ok (inject_Z (w_size b) * 1, inject_Z (w_size a) * r)%Q
    | Width w => match shape with
                 | h :: v :: _ => if v =? 0 then Err ZeroDivisionError else let! r := ratio k in Ok (w, w * (r * (inject_Z h / inject_Z v)))%Q
                 | _ => Err IndexError
                 end
    | Sizes [w; h] => Ok (w, h)
    | Sizes _ => Err ValueError
    end.
  Definition same_units (a b : option pystr) : bool := match a, b with None, None => true | Some s, Some t => eqb_str s t | _, _ => false end.
  Definition check_bar (a b : waxis) : res unit :=
    if negb (same_units (w_units a) (w_units b)) then Err ValueError
    else if w_size b =? 0 then Err ZeroDivisionError
    else if isclose (qabs (w_scale a)) (qabs (w_scale b)) ((1 # 10) / inject_Z (w_size b)) then Ok tt else Err ValueError.
  Definition make_bar (a : waxis) : res bar :=
    match w_units a with
    | None => Ok {| b_scale := w_scale a; b_units := str "px"; b_dimension := Some (str "pixel-length") |}
    | Some u => let! p := pint u in Ok {| b_scale := w_scale a; b_units := fst p; b_dimension := if snd p then Some (str "si-length-reciprocal") else None |}
    end.
  (** supported: the extension is one of matplotlib *)
  Definition image_writer (supported scalebar : bool) (s : size) (k : option kwds) (axes : list waxis) (d : data) : res written :=
    let a := regular d in
    if scalebar || given s || some_kwds k then
      let! p := two_axes axes in
      let! q := figure_size s k (a_shape a) (fst p) (snd p) in
      if negb supported then Err ValueError else
      if scalebar then
        let! _ := check_bar (fst p) (snd p) in
        let! b := make_bar (fst p) in
        Ok (Figure (fst q) (snd q) (Some b))
      else Ok (Figure (fst q) (snd q) None)
    else Ok (Direct a).
End Writer.

(** * MRCZ (mrcz/_api.py) *)
Inductive entry := Number (q : Q) | Other (n : Z).
Record mrcz := { m_shape : list Z; m_pixelsize : list Q; m_pixelunits : option pystr; m_header : list (pystr * entry) }.
Record maxis := { y_size : Z; y_index : Z; y_name : pystr; y_scale : Q; y_offset : Q; y_units : option pystr; y_navigate : bool }.
(** Lines 38-57 *)
Definition pop_from_header : list pystr := map str ["compressor"; "MRCtype"; "C3"; "dimensions"; "dtype"; "extendedBytes"; "gain"; "maxImage"; "minImage"; "meanImage"; "metaId"; "packedBytes"; "pixelsize"; "pixelunits"; "voltage"]%string.
Definition read_order : list Z := [1; 2; 0].
Definition write_order : list nat := [0; 1; 2]%nat.
Definition pop {A} (k : pystr) (d : list (pystr * A)) : res (list (pystr * A)) :=
  match lookup k d with Some _ => Ok (filter (fun kv => negb (eqb_str k (fst kv))) d) | None => Err KeyError end.
Fixpoint pop_all {A} (ks : list pystr) (d : list (pystr * A)) : res (list (pystr * A)) := match ks with [] => Ok d | k :: ks' => let! d := pop k d in pop_all ks' d end.
Definition mrcz_axis (f : mrcz) (t : Z * (string * bool)) : res maxis :=
  let '(i, (name, nav)) := t in
  let! n := item (m_shape f) (Z.to_nat i) in let! s := item (m_pixelsize f) (Z.to_nat i) in
  Ok {| y_size := n; y_index := i; y_name := str name; y_scale := s; y_offset := 0; y_units := m_pixelunits f; y_navigate := nav |}.
(** file_reader (lines 82-143); the mode "c" of memory maps *)
Record mrcz_signal := { n_axes : list maxis; n_metadata : list (pystr * entry); n_original : list (pystr * entry) }.
Definition mrcz_reader (mode : pystr) (f : mrcz) : res mrcz_signal :=
  if negb (eqb_str mode (str "c")) then Err ValueError else
  let! axes := mapM (mrcz_axis f) (combine read_order (combine ["y"; "x"; "z"]%string [false; false; true])) in
  match axes with
  | [y; x; z] => let! m := pop_all pop_from_header (m_header f) in Ok {| n_axes := [z; y; x]; n_metadata := m; n_original := m_header f |}
  | _ => Err IndexError
  end.
(** file_writer (lines 158-253): the pixel sizes and units given to the library, with voltage and gain *)
Definition at_path (md : list (pystr * entry)) (k : string) : option entry := lookup (str k) md.
Record mrcz_call := { c_pixelsize : list Q; c_pixelunits : option pystr; c_voltage : option entry; c_gain : entry; c_c3 : Q }.
Definition mrcz_writer (axes : list maxis) (metadata : list (pystr * entry)) : res mrcz_call :=
  match rev axes with
  | [] => Err IndexError
  | a :: _ =>
      let! ps := mapM (fun i => let! a := item axes i in Ok (y_scale a)) write_order in
      Ok {| c_pixelsize := ps; c_pixelunits := y_units a; c_voltage := at_path metadata "Acquisition_instrument.TEM.beam_energy";
            c_gain := match at_path metadata "Signal.Noise_properties.Variance_linear_model.gain_factor" with Some g => g | None => Number 1 end; c_c3 := 0 |}
  end.
