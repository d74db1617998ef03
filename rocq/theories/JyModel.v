(** Model of /repo/rsciio/jobinyvon/_api.py (spectra of Horiba Jobin Yvon, xml files).
    A file is a parsed element; an element without text has an empty one (text None of the code).  Simplifications:
    float() of a text is a function to rational numbers or None, np.fromstring a function to a list of
    them (no infinities and nan), arithmetic on these numbers is exact; the line fitted to a uniform
    axis is a function; log messages and the signal type are left out; an angle in degrees is kept in radians. *)
From Coq Require Import QArith.
From Verif Require Import Base Text HierModel SfsModel RowMajor XmlModel.
Local Open Scope Z_scope.

(** * Positions in the file (lines 92-145) *)
Definition get_id (e : xml) : res pystr := match lookup (str "ID") (x_attrs e) with Some s => Ok s | None => Err KeyError end.
Definition get_size (e : xml) : res Z := match lookup (str "Size") (x_attrs e) with Some s => parse_int s | None => Err KeyError end.
Definition findall (e : xml) (tag : string) : list xml := filter (fun c => eqb_str (x_tag c) (str tag)) (x_children e).
Fixpoint foldM {A B} (f : A -> B -> res A) (a : A) (l : list B) : res A := match l with [] => Ok a | x :: l' => let! a := f a x in foldM f a l' end.
Definition is_id (id : pystr) (s : string) : bool := eqb_str id (str s).
Record places := { p_metadata : option xml; p_title : option pystr; p_type : option pystr; p_angle : option pystr; p_axes : option xml }.
Definition place (p : places) (c : xml) : res places :=
  let! id := get_id c in
  let p := if is_id id "0x6C62D4D9" then {| p_metadata := Some c; p_title := p_title p; p_type := p_type p; p_angle := p_angle p; p_axes := p_axes p |} else p in
  let p := if is_id id "0x6C7469D9" then {| p_metadata := p_metadata p; p_title := Some (x_text c); p_type := p_type p; p_angle := p_angle p; p_axes := p_axes p |} else p in
  let p := if is_id id "0x6D707974" then {| p_metadata := p_metadata p; p_title := p_title p; p_type := Some (x_text c); p_angle := p_angle p; p_axes := p_axes p |} else p in
  let! p := if is_id id "0x6C676EC6"
            then foldM (fun p c2 => let! id2 := get_id c2 in Ok (if is_id id2 "0x0" then {| p_metadata := p_metadata p; p_title := p_title p; p_type := p_type p; p_angle := Some (x_text c2); p_axes := p_axes p |} else p)) p (x_children c)
            else Ok p in
  if is_id id "0x7A74D9D6"
  then foldM (fun p c2 => let! id2 := get_id c2 in Ok (if is_id id2 "0x7B697861" then {| p_metadata := p_metadata p; p_title := p_title p; p_type := p_type p; p_angle := p_angle p; p_axes := Some c2 |} else p)) p (x_children c)
  else Ok p.
(** The places, and the matrix of data *)
Definition parse_file (root : xml) : res (places * xml) :=
  match findall root "LSX_Tree" with
  | [] => Err IndexError
  | tree :: _ =>
      match findall root "LSX_Matrix" with
      | [] => Err IndexError
      | matrix :: _ =>
          let! p := foldM place {| p_metadata := None; p_title := None; p_type := None; p_angle := None; p_axes := None |} (x_children tree) in
          Ok (p, matrix)
      end
  end.

(** * Original metadata (lines 147-315) *)
(** Values: the first and second text of an entry; a text; a number *)
Inductive value := Pair (first second : option pystr) | Text (s : pystr) | Num (q : Q).
Definition dict := list (pystr * value).
(** the key of an entry is kept for the next one *)
Definition entry_values (key : option pystr) (c : xml) : res (option pystr * (option pystr * option pystr)) :=
  foldM (fun st c2 =>
    let '(key, (v1, v2)) := st in
    let! id := get_id c2 in
    let key := if is_id id "0x6D6D616E" then Some (x_text c2) else key in
    let v1 := if is_id id "0x7D6C61DB" then Some (x_text c2) else v1 in
    let v2 := if is_id id "0x8736F70" then Some (x_text c2) else v2 in
    Ok (key, (v1, v2))) (key, (None, None)) (x_children c).
Definition metadata_values (e : xml) : res dict :=
  let! st := foldM (fun st c =>
    let '(key, d) := st in
    let! kv := entry_values key c in
    let '(key, (v1, v2)) := kv in
    match key with Some k => Ok (key, put k (Pair v1 v2) d) | None => Err NameError end) (None, []) (x_children e) in
  Ok (snd st).
Definition degrees : pystr := [176].
Definition micro : pystr := [181].
Definition to_number : list pystr :=
  [str "Acq. time (s)"; str "Accumulations"; str "Delay time (s)"; str "Binning"; str "Detector temperature (" ++ degrees ++ str "C)"; str "Objective"; str "Grating"; str "ND Filter"; str "Laser (nm)"; str "Spectro (nm)"; str "Hole";
   str "Laser Pol. (" ++ degrees ++ str ")"; str "Raman Pol. (" ++ degrees ++ str ")"; str "X (" ++ micro ++ str "m)"; str "Y (" ++ micro ++ str "m)"; str "Z (" ++ micro ++ str "m)"; str "Full time(s)"; str "rotation angle (rad)"; str "Windows"].
Definition to_second : list pystr := [str "Objective"; str "Grating"; str "ND Filter"; str "Laser (nm)"; str "Spectro (nm)"].
Definition use_second (d : dict) (k : pystr) : res dict :=
  match lookup k d with None => Ok d | Some (Pair _ (Some s)) => Ok (put k (Text s) d) | Some (Pair _ None) => Ok d | Some _ => Err TypeError end.
Definition use_first (d : dict) : res dict :=
  mapM (fun kv => match snd kv with Pair (Some s) _ => Ok (fst kv, Text s) | Pair None (Some _) => Err KeyError | v => Ok (fst kv, v) end) d.
Fixpoint remove (k : pystr) (d : dict) : dict := match d with [] => [] | (k', v) :: d' => if eqb_str k k' then d' else (k', v) :: remove k d' end.
Definition rename (old new : pystr) (d : dict) : dict := match lookup old d with Some v => put new v (remove old d) | None => d end.
Section Reader.
  (** float(text) *)
  Variable float : pystr -> option Q.
  (** np.fromstring(text, sep=" ") *)
  Variable numbers : pystr -> list Q.
  Variable fit : list Q -> Q * Q.
  Definition convert (d : dict) (k : pystr) : res dict :=
    match lookup k d with
    | None | Some (Num _) => Ok d
    | Some (Pair _ _) | Some (Text []) => Err TypeError
    | Some (Text s) => match float s with Some q => Ok (put k (Num q) d) | None => Err ValueError end
    end.
  Record original := { o_date : dict; o_setup : dict; o_file : dict }.
  Definition set_text (k : string) (v : option pystr) (d : dict) : dict := match v with Some s => put (str k) (Text s) d | None => d end.
  Definition clean_up (date setup file : dict) : res original :=
    let! setup := foldM use_second setup to_second in
    let! setup := use_first setup in
    let! date := use_first date in
    let! file := use_first file in
    let! setup := foldM convert setup to_number in
    Ok {| o_date := date; o_setup := rename (str "ND Filter") (str "ND Filter (%)") (rename (str "Grating") (str "Grating (gr/mm)") setup); o_file := file |}.
  Definition get_original (p : places) : res original :=
    match p_metadata p with
    | None => Err AttributeError
    | Some m =>
        let! roots := foldM (fun st c => let '(date, setup, file) := st in let! id := get_id c in
          Ok (if is_id id "0x7CECDBD7" then Some c else date, if is_id id "0x8716361" then Some c else setup, if is_id id "0x7C73E2D2" then Some c else file)) (None, None, None) (x_children m) in
        let '(date, setup, file) := roots in
        match date with None => Err NameError | Some date => let! date := metadata_values date in
        match setup with None => Err NameError | Some setup => let! setup := metadata_values setup in
        match file with None => Err NameError | Some file => let! file := metadata_values file in
        clean_up date (set_text "rotation angle (rad)" (p_angle p) (set_text "title" (p_title p) (set_text "measurement_type" (p_type p) setup))) file
        end end end
    end.

  (** * Axes (lines 317-467) *)
  Inductive scale := Uniform (offset scale : Q) (size : Z) | Values (l : list Q) | NoScale.
  Record axis := { a_name : option pystr; a_units : option pystr; a_scale : scale; a_navigate : bool; a_index : Z }.
  Definition fromstring (e : xml) : res (list Q) := match x_text e with [] => Err AttributeError | s => Ok (numbers (strip s)) end.
  Definition set_signal_type (setup : dict) (e : xml) : res dict :=
    foldM (fun d c => let! id := get_id c in
      let d := if is_id id "0x6D707974" then put (str "signal type") (Text (x_text c)) d else d in
      Ok (if is_id id "0x7C696E75" then put (str "signal units") (Text (x_text c)) d else d)) setup (x_children e).
  (** The axis when there is one, and its size *)
  Definition set_nav_axis (e : xml) : res (option axis * Z) :=
    let! st := foldM (fun st c =>
      let '(has, name, units, sc, size) := st in
      let! id := get_id c in
      let name := if is_id id "0x6D707974" then Some (x_text c) else name in
      let units := if is_id id "0x7C696E75" then Some (x_text c) else units in
      if is_id id "0x7D6CD4DB"
      then let! l := fromstring c in
           match l with
           | x0 :: x1 :: _ => Ok (has, name, units, Uniform x0 (x1 - x0)%Q (zlen l), Some (zlen l))
           | _ => Ok (false, name, units, sc, Some (zlen l))
           end
      else Ok (has, name, units, sc, size)) (true, None, None, NoScale, None) (x_children e) in
    let '(has, name, units, sc, size) := st in
    match size with
    | None => Err NameError
    | Some n => Ok (if has : bool then Some {| a_name := name; a_units := units; a_scale := sc; a_navigate := true; a_index := 0 |} else None, n)
    end.
  Definition above (x y : Q) : bool := negb (Qle_bool x y).
  Definition has_char (c : Z) (s : pystr) : bool := existsb (fun x => x =? c) s.
  (** s[-n:] and s[:-n] *)
  Definition last_n (n : nat) (s : pystr) : pystr := skipn (List.length s - n) s.
  Definition but_n (n : nat) (s : pystr) : pystr := firstn (List.length s - n) s.
  Definition signal_units (u : pystr) : pystr * pystr :=
    if has_char 47 u && eqb_str (last_n 3 u) (str "abs") then (str "Wavenumber", but_n 4 u)
    else if has_char 47 u && eqb_str (last_n 1 u) (str "m") then (str "Raman Shift", u)
    else if eqb_str (last_n 2 u) (str "eV") then (str "Energy", u)
    else if negb (has_char 47 u) && eqb_str (last_n 1 u) (str "m") then (str "Wavelength", u)
    else (str "Wavelength", u).
  (** The axis, and the new _reverse_signal *)
  Definition set_signal_axis (uniform : bool) (reverse : option bool) (e : xml) : res (axis * option bool) :=
    let! st := foldM (fun st c =>
      let '(name, units, sc, rv) := st in
      let! id := get_id c in
      let! st := if is_id id "0x7D6CD4DB"
                 then let! l := fromstring c in
                      match l with
                      | x0 :: x1 :: _ => let r := above x0 x1 in let l := if r then rev l else l in
                                         Ok (if uniform then Uniform (fst (fit l)) (snd (fit l)) (zlen l) else Values l, Some r)
                      | _ => Ok (Values l, rv)
                      end
                 else Ok (sc, rv) in
      let (sc, rv) := st in
      if is_id id "0x7C696E75"
      then match x_text c with [] => Err TypeError | u => Ok (Some (fst (signal_units u)), Some (snd (signal_units u)), sc, rv) end
      else Ok (name, units, sc, rv)) (None, None, NoScale, reverse) (x_children e) in
    let '(name, units, sc, rv) := st in
    Ok ({| a_name := name; a_units := units; a_scale := sc; a_navigate := false; a_index := 0 |}, rv).
  Definition at_index (i : Z) (a : axis) : axis := {| a_name := a_name a; a_units := a_units a; a_scale := a_scale a; a_navigate := a_navigate a; a_index := i |}.
  (** Axes in the dictionary, and has_nav with the size *)
  Record state := { t_setup : dict; t_signal : option axis; t_reverse : option bool; t_nav1 : option axis; t_has1 : bool; t_size1 : Z; t_nav2 : option axis; t_has2 : bool; t_size2 : Z }.
  Definition axis_step (uniform : bool) (t : state) (c : xml) : res state :=
    let! id := get_id c in
    if is_id id "0x0" then let! d := set_signal_type (t_setup t) c in
      Ok {| t_setup := d; t_signal := t_signal t; t_reverse := t_reverse t; t_nav1 := t_nav1 t; t_has1 := t_has1 t; t_size1 := t_size1 t; t_nav2 := t_nav2 t; t_has2 := t_has2 t; t_size2 := t_size2 t |}
    else if is_id id "0x1" then let! p := set_signal_axis uniform (t_reverse t) c in
      Ok {| t_setup := t_setup t; t_signal := Some (fst p); t_reverse := snd p; t_nav1 := t_nav1 t; t_has1 := t_has1 t; t_size1 := t_size1 t; t_nav2 := t_nav2 t; t_has2 := t_has2 t; t_size2 := t_size2 t |}
    else if is_id id "0x2" then let! p := set_nav_axis c in
      Ok {| t_setup := t_setup t; t_signal := t_signal t; t_reverse := t_reverse t; t_nav1 := match fst p with Some a => Some a | None => t_nav1 t end; t_has1 := match fst p with Some _ => true | None => false end; t_size1 := snd p;
            t_nav2 := t_nav2 t; t_has2 := t_has2 t; t_size2 := t_size2 t |}
    else if is_id id "0x3" then let! p := set_nav_axis c in
      Ok {| t_setup := t_setup t; t_signal := t_signal t; t_reverse := t_reverse t; t_nav1 := t_nav1 t; t_has1 := t_has1 t; t_size1 := t_size1 t;
            t_nav2 := match fst p with Some a => Some a | None => t_nav2 t end; t_has2 := match fst p with Some _ => true | None => false end; t_size2 := snd p |}
    else Ok t.
  Definition sort_axes (t : state) : res (list axis) :=
    match t_signal t with
    | None => Err KeyError
    | Some s =>
        match t_nav1 t, t_has1 t, t_nav2 t, t_has2 t with
        | Some a, true, Some b, true => Ok [at_index 0 b; at_index 1 a; at_index 2 s]
        | Some a, true, None, _ => Ok [at_index 0 a; at_index 1 s]
        | None, _, Some b, true => Ok [at_index 0 b; at_index 1 s]
        | None, _, None, _ => Ok [at_index 0 s]
        | _, _, _, _ => Err KeyError
        end
    end.
  Definition get_axes (uniform : bool) (p : places) (setup : dict) : res (state * list axis) :=
    match p_axes p with
    | None => Err AttributeError
    | Some e =>
        let! t := foldM (axis_step uniform) {| t_setup := setup; t_signal := None; t_reverse := None; t_nav1 := None; t_has1 := false; t_size1 := 0; t_nav2 := None; t_has2 := false; t_size2 := 0 |} (x_children e) in
        let! l := sort_axes t in Ok (t, l)
    end.

  (** * Data (lines 469-508): shape and values *)
  Definition get_row (reverse : option bool) (e : xml) : res (list Q) :=
    let! l := fromstring e in match reverse with None => Err AttributeError | Some r => Ok (if r : bool then rev l else l) end.
  (** assignment to a line of an array *)
  Definition fill (n : Z) (l : list Q) : res (list Q) := if zlen l =? n then Ok l else match l with [x] => Ok (repeat x (Z.to_nat n)) | _ => Err ValueError end.
  Definition reshape (shape : list Z) (data : list Q) : res (list Z * list Q) := if prodZ shape =? zlen data then Ok (shape, data) else Err ValueError.
  Definition get_data (t : state) (matrix : xml) : res (list Z * list Q) :=
    match findall matrix "LSX_Row" with
    | [] => Err AttributeError
    | [r] => let! l := get_row (t_reverse t) r in Ok ([zlen l], l)
    | (r :: _) as rows =>
        let! n := get_size r in
        if n <? 0 then Err ValueError else
        let! l := mapM (fun e => let! l := get_row (t_reverse t) e in fill n l) rows in
        let data := List.concat l in
        if t_has2 t then if t_has1 t then reshape [t_size2 t; t_size1 t; n] data else reshape [t_size2 t; n] data
        else if t_has1 t then reshape [t_size1 t; n] data else Ok ([zlen rows; n], data)
    end.

  (** * Metadata (lines 510-680): paths and values without None *)
  Inductive item := Given (v : value) | Const (s : pystr) | Exact (q : Q) | Flag (b : bool) | Whole (n : Z).
  Definition plain_items : list (string * pystr) :=
    [ ("Laser.wavelength"%string, str "Laser (nm)"); ("Laser.objective_magnification"%string, str "Objective"); ("Laser.Polarizer.polarizer_type"%string, str "Laser. Pol."); ("Laser.Polarizer.angle"%string, str "Laser Pol. (" ++ degrees ++ str ")");
      ("Spectrometer.central_wavelength"%string, str "Spectro (nm)"); ("Spectrometer.model"%string, str "Instrument"); ("Spectrometer.Grating.groove_density"%string, str "Grating (gr/mm)"); ("Spectrometer.spectral_range"%string, str "Range");
      ("Spectrometer.Polarizer.polarizer_type"%string, str "Raman. Pol."); ("Spectrometer.Polarizer.angle"%string, str "Raman Pol. (" ++ degrees ++ str ")");
      ("Detector.model"%string, str "Detector"); ("Detector.delay_time"%string, str "Delay time (s)"); ("Detector.binning"%string, str "Binning"); ("Detector.temperature"%string, str "Detector temperature (" ++ degrees ++ str "C)");
      ("Detector.exposure_per_frame"%string, str "Acq. time (s)"); ("Detector.frames"%string, str "Accumulations"); ("Detector.processing.autofocus"%string, str "Autofocus"); ("Detector.processing.swift"%string, str "SWIFT");
      ("Detector.processing.auto_exposure"%string, str "AutoExposure"); ("Detector.processing.spike_filter"%string, str "Spike filter"); ("Detector.processing.de_noise"%string, str "DeNoise"); ("Detector.processing.ics_correction"%string, str "ICS correction");
      ("Detector.processing.dark_correction"%string, str "Dark correction"); ("Detector.processing.inst_process"%string, str "Inst. Process") ].
  (** d.get(key) without None *)
  Definition given (d : dict) (k : pystr) : option item := match lookup k d with None | Some (Text []) => None | Some v => Some (Given v) end.
  Definition some_item (path : string) (v : option item) : list (pystr * item) := match v with Some i => [(str path, i)] | None => [] end.
  Definition const (s : pystr) : option item := match s with [] => None | _ => Some (Const s) end.
  Definition general_date (d : dict) : res (list (pystr * item)) :=
    match lookup (str "Acquired") d with
    | None => Ok []
    | Some (Text ((_ :: _) as s)) => match split_char 32 s with [a; b] => Ok [(str "General.date", Const a); (str "General.time", Const b)] | _ => Err ValueError end
    | Some _ => Err AttributeError
    end.
  (** a text of f"{...}"; an empty text is None *)
  Definition shown (s : pystr) : pystr := match s with [] => str "None" | _ => s end.
  (** an entry without texts is {} *)
  Definition printed (v : value) : pystr := match v with Text s => s | _ => str "{}" end.
  Definition quantity (d : dict) : list (pystr * item) :=
    match lookup (str "signal type") d, lookup (str "signal units") d with
    | Some va, Some vu =>
        let a := printed va in let u := printed vu in
        let a := if eqb_str a (str "Intens") then str "Intensity" else a in
        let u := if eqb_str u (str "Cnt/sec") then str "Counts/s" else u in
        let u := if eqb_str u (str "Cnt") then str "Counts" else u in
        [(str "Signal.quantity", Const (shown a ++ str " (" ++ shown u ++ str ")"))]
    | _, _ => []
    end.
  (** value /= 100 *)
  Definition percent (d : dict) (k : string) : res Q := match lookup (str k) d with Some (Num q) => Ok (q / 100)%Q | _ => Err TypeError end.
  Definition map_metadata (name : pystr) (p : places) (o : original) : res (list (pystr * item)) :=
    match p_title p with
    | None => Err AttributeError
    | Some title =>
        let! date := general_date (o_date o) in
        let s := o_setup o in
        let! od := percent s "ND Filter (%)" in
        let! slit := percent s "Hole" in
        Ok (some_item "Sample.description" (given (o_file o) (str "Sample")) ++ some_item "General.title" (const title) ++ [(str "General.original_filename", Const name)] ++ some_item "General.notes" (given (o_file o) (str "Remark")) ++ date ++
            [(str "Signal.signal_dimension", Whole 1)] ++ quantity s ++ flat_map (fun pk => some_item (fst pk) (given s (snd pk))) plain_items ++
            [(str "Laser.Filter.optical_density", Exact od); (str "Spectrometer.entrance_slit_width", Exact slit); (str "Spectrometer.pinhole", Exact slit)] ++
            match lookup (str "rotation angle (rad)") s with Some v => [(str "Spectral_image.rotation_angle", Given v); (str "Spectral_image.rotation_angle_units", Const degrees)] | None => [] end ++
            match lookup (str "Windows") s with Some v => [(str "Detector.glued_spectrum", Flag true); (str "Detector.glued_spectrum_windows", Given v)] | None => [(str "Detector.glued_spectrum", Flag false)] end ++
            match lookup (str "Accumulations") s, lookup (str "Acq. time (s)") s with Some (Num a), Some (Num b) => [(str "Detector.integration_time", Exact (a * b)%Q)] | _, _ => [] end)
    end.

  (** * file_reader (lines 686-723) *)
  Record signal := { s_axes : list axis; s_shape : list Z; s_data : list Q; s_original : original; s_metadata : list (pystr * item) }.
  Definition file_reader (uniform : bool) (name : pystr) (root : xml) : res signal :=
    let! pm := parse_file root in let (p, matrix) := pm in
    let! o := get_original p in
    let! ta := get_axes uniform p (o_setup o) in let (t, axes) := ta in
    let o := {| o_date := o_date o; o_setup := t_setup t; o_file := o_file o |} in
    let! d := get_data t matrix in
    let! m := map_metadata name p o in
    Ok {| s_axes := axes; s_shape := fst d; s_data := snd d; s_original := o; s_metadata := m |}.
End Reader.
