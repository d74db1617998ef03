(** Model of /repo/rsciio/hamamatsu/_api.py (streak camera images of Hamamatsu, img files).
    A file is a list of bytes.  Single and double precision numbers are words of the file.  Simplifications:
    float() of a text is a function to rational numbers or None (no infinities and nan), arithmetic on
    these numbers is exact; the line fitted to a uniform axis is a function; a negative width or height is an error (numpy would guess one
    that is -1); log messages and the signal type are left out. *)
From Coq Require Import QArith.
From Verif Require Import Base Text Bytes Utf8 SfsModel HierModel RowMajor RenModel.
Local Open Scope Z_scope.

(** * Header, comment and pixels (lines 121-192) *)
Inductive file_type := Bit8 | Compressed | Bit16 | Bit32 | UnknownFile.
Definition file_type_of (z : Z) : file_type := if z =? 0 then Bit8 else if z =? 1 then Compressed else if z =? 2 then Bit16 else if z =? 3 then Bit32 else UnknownFile.
Definition pixel_width (t : file_type) : option Z := match t with Bit8 => Some 1 | Bit16 => Some 2 | Bit32 => Some 4 | _ => None end.
Record header := { h_mark : pystr; h_comment : Z; h_width : Z; h_lines : Z; h_x : Z; h_y : Z; h_type : file_type; h_images : Z; h_channels : Z; h_channel : Z; h_time : Z; h_marker : pystr; h_info : pystr }.
Definition read_signed (w : Z) (b : list Z) : res (Z * list Z) := let! p := read_word w b in Ok (signed (Z.to_nat w) (fst p), snd p).
(** size 1 gives the number itself *)
Definition read_numbers (w n : Z) (b : list Z) : res (list Z) := match fst (read_words w n b) with [] => if n =? 1 then Err IndexError else Ok [] | l => Ok l end.
Definition parse_file (f : list Z) : res (header * pystr * list Z) :=
  let! p := read_utf8 2 f in let (mark, b) := p in
  let! p := read_signed 2 b in let (com, b) := p in
  let! p := read_signed 2 b in let (width, b) := p in
  let! p := read_signed 2 b in let (lines, b) := p in
  let! p := read_signed 2 b in let (x, b) := p in
  let! p := read_signed 2 b in let (y, b) := p in
  let! p := read_signed 2 b in let (type, b) := p in
  let! p := read_signed 4 b in let (images, b) := p in
  let! p := read_signed 2 b in let (channels, b) := p in
  let! p := read_signed 2 b in let (channel, b) := p in
  let! p := read_word 8 b in let (time, b) := p in
  let! p := read_utf8 4 b in let (marker, b) := p in
  let! p := read_utf8 30 b in let (more, b) := p in
  let! p := read_utf8 com b in let (comment, b) := p in
  match pixel_width (file_type_of type) with
  | None => Err OtherError
  | Some w =>
      let! data := read_numbers w (width * lines) b in
      Ok ({| h_mark := mark; h_comment := com; h_width := width; h_lines := lines; h_x := x; h_y := y; h_type := file_type_of type; h_images := images; h_channels := channels; h_channel := channel;
             h_time := time; h_marker := marker; h_info := more |}, comment, data)
  end.

(** * The comment (lines 294-352) *)
(** what is before and after the first c *)
Fixpoint cut (c : Z) (s : pystr) : option (pystr * pystr) :=
  match s with [] => None | x :: s' => if x =? c then Some ([], s') else match cut c s' with Some (a, b) => Some (x :: a, b) | None => None end end.
Fixpoint split_sections (l : list pystr) (out : list (pystr * pystr)) : res (list (pystr * pystr)) :=
  match l with
  | [] => Ok out
  | e :: l' => match cut 93 e with Some (name, r) => split_sections l' (put name (rstrip (tl r)) out) | None => Err ValueError end
  end.
Inductive section := Entries (d : list (pystr * pystr)) | Plain (s : pystr).
Definition count_char (c : Z) (s : pystr) : Z := countZ (fun x => x =? c) s.
Fixpoint entries (fuel : nat) (count total : Z) (s : pystr) (out : list (pystr * pystr)) : res (list (pystr * pystr)) :=
  match fuel with
  | O => Err OutOfFuel
  | S fuel' =>
      match s with
      | [] => Ok out
      | _ =>
          match cut 61 s with
          | None => Err ValueError
          | Some (key, r) =>
              match r with
              | [] => Err IndexError
              | 34 :: r' => match cut 34 r' with Some (v, r'') => entries fuel' (count + 1) total (tl r'') (put key v out) | None => Err ValueError end
              | _ => if count + 1 =? total then Ok (put key r out) else match cut 44 r with Some (v, r') => entries fuel' (count + 1) total r' (put key v out) | None => Err ValueError end
              end
          end
      end
  end.
Definition read_section (s : pystr) : res section :=
  let n := count_char 61 s in
  if n =? 0 then Ok (Plain s) else let! d := entries (S (List.length s)) 0 n s [] in Ok (Entries d).
Definition comment := list (pystr * section).
Definition process_comment (s : pystr) : res comment :=
  let! l := split_sections (split_char 91 (tl s)) [] in
  mapM (fun kv => let! v := read_section (snd kv) in Ok (fst kv, v)) l.

(** * Axes (lines 194-292) *)
Inductive scaling := Pixels | Fitted (offset scale : number) | Table (l : list Z).
Record axis := { a_name : pystr; a_units : option pystr; a_size : Z; a_scaling : scaling; a_index : Z }.
(** comment.get(name, {}).get *)
Definition get_section (c : comment) (name : string) : res (list (pystr * pystr)) :=
  match lookup (str name) c with Some (Entries d) => Ok d | Some (Plain _) => Err AttributeError | None => Ok [] end.
Definition get (d : list (pystr * pystr)) (k : string) : option pystr := lookup (str k) d.
Definition scaling_entry (d : list (pystr * pystr)) (attr : string) : option pystr * option pystr :=
  (lookup (str "ScalingX" ++ str attr) d, match lookup (str "ScalingY" ++ str attr) d with Some y => Some (if eqb_str y (str "us") then [181; 115] else y) | None => None end).
Definition int_of (v : option pystr) : res Z := match v with Some s => parse_int s | None => Err TypeError end.
Section Reader.
  Variable fit : list Z -> number * number.
  (** float(text) *)
  Variable float : pystr -> option Q.
  Definition calibration (f : list Z) (cal : option pystr) : res (list Z * bool) :=
    match cal with
    | None => Err TypeError
    | Some [] => Err IndexError
    | Some (35 :: s) =>
        match split_char 44 s with
        | [a; b] =>
            let! pos := parse_int a in let! size := parse_int b in
            if pos <? 0 then Err IOError else let! l := read_numbers 4 size (skipz pos f) in Ok (l, size =? 1)
        | _ => Err ValueError
        end
    | Some _ => Err OtherError
    end.
  Definition set_axis (uniform : bool) (h : header) (f : list Z) (wave : bool) (type : Z) (unit cal : option pystr) : res (axis * bool) :=
    if type =? 1 then
      Ok ({| a_name := if wave then str "Uncalibrated X axis" else str "Vertical CCD Position"; a_units := Some (str "px"); a_size := if wave then h_width h else h_lines h; a_scaling := Pixels; a_index := if wave then 1 else 0 |}, false)
    else if type =? 2 then
      let! p := calibration f cal in
      let (data, one) := p in
      let! r := if wave then match data with x0 :: x1 :: _ => Ok (gt32 x0 x1) | _ => Err IndexError end else Ok false in
      let data := if r : bool then rev data else data in
      let! s := if uniform then match data with [] => Err TypeError | _ => if one then Err TypeError else if zlen data =? 1 then Err ValueError else Ok (Fitted (fst (fit data)) (snd (fit data))) end else Ok (Table data) in
      Ok ({| a_name := if wave then str "Wavelength" else str "Time"; a_units := unit; a_size := zlen data; a_scaling := s; a_index := if wave then 1 else 0 |}, r)
    else Err ValueError.
  Definition get_axes (uniform : bool) (h : header) (f : list Z) (c : comment) : res (list axis * bool) :=
    let! d := get_section c "Scaling" in
    let (xc, yc) := scaling_entry d "ScalingFile" in
    let (xu, yu) := scaling_entry d "Unit" in
    let (xt, yt) := scaling_entry d "Type" in
    let! xt := int_of xt in let! yt := int_of yt in
    let! x := set_axis uniform h f true xt xu xc in
    let! y := set_axis uniform h f false yt yu yc in
    Ok ([fst y; fst x], snd x).
  (** numpy.reshape *)
  Definition reshape (axes : list axis) (reversed : bool) (data : list Z) : res (list Z) :=
    match map a_size axes with
    | [n; m] => if (0 <=? n) && (0 <=? m) && (n * m =? zlen data) then Ok (if reversed then List.concat (map (@rev Z) (records (Z.to_nat n) (Z.to_nat m) data)) else data) else Err ValueError
    | _ => Err ValueError
    end.

  (** * Metadata (lines 354-500) *)
  (** comment[name][key]: KeyError is caught *)
  Definition item (c : comment) (name : string) (keys : list string) : res (option (list pystr)) :=
    match lookup (str name) c with
    | None => Ok None
    | Some (Plain _) => Err TypeError
    | Some (Entries d) => Ok (fold_right (fun k r => match get d k, r with Some v, Some l => Some (v :: l) | _, _ => None end) (Some []) keys)
    end.
  Definition iso_date (s : pystr) : pystr :=
    let iso l := match l with [d; m; y] => Some (y ++ str "-" ++ m ++ str "-" ++ d) | _ => None end in
    match iso (split_char 47 s) with Some r => r | None => match iso (split_char 46 s) with Some r => r | None => s end end.
  Record general := { g_title : pystr; g_file : pystr; g_date : option (pystr * pystr) }.
  Definition map_general (name : pystr) (c : comment) : res general :=
    let! dt := item c "Application" ["Date"; "Time"]%string in
    Ok {| g_title := hd [] (split_char 46 name); g_file := name; g_date := match dt with Some [d; t] => Some (iso_date d, hd [] (split_char 46 t)) | _ => None end |}.
  Definition map_signal (c : comment) : res (option pystr) :=
    let! q := item c "Acquisition" ["ZAxisLabel"; "ZAxisUnit"]%string in
    Ok (match q with Some [a; u] => Some (a ++ str " (" ++ (if eqb_str u (str "Count") then str "Counts" else u) ++ str ")") | _ => None end).
  Definition num_int (v : option pystr) : option Z := match v with Some s => match parse_int s with Ok n => Some n | Err _ => None end | None => None end.
  Definition num_float (v : option pystr) : option Q := match v with Some s => float s | None => None end.
  Definition bool_of (v : option pystr) : option bool := match v with Some s => if eqb_str s (str "-1") then Some true else if eqb_str s (str "0") then Some false else None | None => None end.
  Definition mode_name (z : Z) : pystr := if z =? 1 then str "live" else if z =? 2 then str "acquire" else if z =? 3 then str "photon_counting" else if z =? 4 then str "analog_integration" else str "Unknown".
  Record detector := { d_frames : option Z; d_time : option Q; d_binning : option (Z * Z); d_shading : option bool; d_background : option bool; d_curvature : option bool; d_defect : option bool; d_model : option pystr; d_gain : option Q;
    d_range : option Q; d_range_units : option pystr; d_mode : pystr }.
  Definition map_detector (c : comment) : res detector :=
    let! acq := match lookup (str "Acquisition") c with Some (Entries d) => Ok d | Some (Plain _) => Err AttributeError | None => Ok [] end in
    let frames := num_int (get acq "NrExposure") in
    let! time := match get acq "ExposureTime" with
                 | None => Ok None
                 | Some s => match split_char 32 s with
                             | [a; u] => let t := float a in
                                 let! t := if eqb_str u (str "ms") then match t with Some q => Ok (Some (q / 1000)%Q) | None => Err TypeError end else Ok t in
                                 match t, frames with Some q, Some n => Ok (Some (q * inject_Z n)%Q) | _, _ => Err TypeError end
                             | _ => Ok None
                             end
                 end in
    let! bin := match get acq "pntBinning" with
                | Some s => match split_char 44 s with [a; b] => let! a := parse_int a in let! b := parse_int b in Ok (Some (a, b)) | _ => Ok None end
                | None => Ok None
                end in
    let! streak := get_section c "Streak camera" in
    let (range, units) := match get streak "Time Range" with
                 | None => (None, None)
                 | Some s => match split_char 32 s with [a; u] => (float a, Some (if eqb_str u (str "us") then [181; 115] else u)) | _ => (float s, None) end
                 end in
    let! mode := int_of (get acq "AcqMode") in
    Ok {| d_frames := frames; d_time := time; d_binning := bin; d_shading := bool_of (get acq "ShadingCorr"); d_background := bool_of (get acq "BacksubCorr"); d_curvature := bool_of (get acq "CurveCorr"); d_defect := bool_of (get acq "DefectCorrection");
          d_model := get streak "DeviceName"; d_gain := num_float (get streak "MCP Gain"); d_range := range; d_range_units := units; d_mode := mode_name mode |}.
  Record spectrometer := { p_grating : option (option Q * option Q); p_model : option pystr; p_slit : option Q; p_wavelength : option Q }.
  (** get("Blaze") != 0 compares a text with a number *)
  Definition map_spectrometer (c : comment) : res spectrometer :=
    let! d := match lookup (str "Spectrograph") c with Some (Entries d) => Ok d | Some (Plain _) => Err TypeError | None => Ok [] end in
    let groove := match get d "Grating" with
                  | None => None
                  | Some s => match split_char 32 s with [a; _] => match parse_int a with Ok n => Some (inject_Z n) | Err _ => None end | _ => float s end
                  end in
    Ok {| p_grating := if match get d "Ruling" with Some s => eqb_str s (str "0") | None => false end then None else Some (num_float (get d "Blaze"), groove);
          p_model := get d "DeviceName"; p_slit := num_float (get d "Side Ent. Slitw."); p_wavelength := num_float (get d "Wavelength") |}.

  (** * file_reader (lines 104-119, 503-547) *)
  Record signal := { s_header : header; s_comment : comment; s_axes : list axis; s_data : list Z; s_general : general; s_quantity : option pystr; s_detector : detector; s_spectrometer : spectrometer }.
  Definition file_reader (uniform : bool) (name : pystr) (f : list Z) : res signal :=
    let! p := parse_file f in let '(h, text, data) := p in
    let! c := process_comment text in
    let! p := get_axes uniform h f c in let (axes, reversed) := p in
    let! data := reshape axes reversed data in
    let! g := map_general name c in
    let! q := map_signal c in
    let! d := map_detector c in
    let! s := map_spectrometer c in
    Ok {| s_header := h; s_comment := c; s_axes := axes; s_data := data; s_general := g; s_quantity := q; s_detector := d; s_spectrometer := s |}.
End Reader.
