(** TriVista files: /repo/rsciio/trivista/_api.py.
    A file is the parsed document with its data, the groups of InfoSerialized and the hardware, as made by XmlToDict (XmlModel).
    Simplifications: float() of a text is a function to rational numbers or None, arithmetic is exact; the line
    fitted to a uniform axis is a function; a time stamp is one whole number; used attributes of the document are texts,
    names of groups and items too; a group has groups or at least one item; the rest of a device is one number;
    truth values are not used as numbers; log messages and the signal type are left out. *)
From Coq Require Import QArith.
From Verif Require Import Base Text HierModel SfsModel RowMajor XmlModel.
Local Open Scope Z_scope.

Inductive value := Nothing | Words (s : pystr) | Num (q : Q) | Flag (b : bool).
Definition eqb_value (a b : value) : bool :=
  match a, b with
  | Nothing, Nothing => true
  | Words s, Words t => eqb_str s t
  | Num p, Num q => Qeq_bool p q
  | Flag a, Flag b => Bool.eqb a b
  | _, _ => false
  end.
Definition truthy (v : value) : bool := match v with Nothing | Words [] | Flag false => false | Num q => negb (Qeq_bool q 0) | _ => true end.

(** * InfoSerialized: _process_info_serialized (lines 64-89) *)
Inductive group := Groups (name : pystr) (l : list group) | Items (name : pystr) (l : list (pystr * value)).
Inductive info := Sub (d : list (pystr * info)) | Entries (d : list (pystr * value)).
Definition g_name (g : group) : pystr := match g with Groups n _ | Items n _ => n end.
Definition is_items (g : group) : bool := match g with Items _ _ => true | Groups _ _ => false end.
Definition has {A} (k : pystr) (d : list (pystr * A)) : bool := match lookup k d with Some _ => true | None => false end.
Definition without {A} (k : pystr) (d : list (pystr * A)) : list (pystr * A) := filter (fun kv => negb (eqb_str k (fst kv))) d.
(** the result and the set of names to change *)
Fixpoint gather {A} (i : Z) (l : list (pystr * bool * A)) (d : list (pystr * A)) (again : list pystr) : list (pystr * A) * list pystr :=
  match l with
  | [] => (d, again)
  | (n, items, v) :: l' =>
      if items && has n d then gather (i + 1) l' (put (n ++ str_int (i + 1)) v d) (if existsb (eqb_str n) again then again else again ++ [n])
      else gather (i + 1) l' (put n v d) again
  end.
Definition rename_first {A} (d : list (pystr * A)) (n : pystr) : list (pystr * A) := match lookup n d with Some v => put (n ++ str "1") v (without n d) | None => d end.
Definition number_names {A} (l : list (pystr * bool * A)) : list (pystr * A) := let (d, again) := gather 0 l [] [] in fold_left rename_first again d.
Definition item_dict (l : list (pystr * value)) : list (pystr * value) := fold_left (fun d kv => put (fst kv) (snd kv) d) l [].
Fixpoint info_of (g : group) : info :=
  match g with
  | Groups _ l => Sub (number_names (map (fun g => (g_name g, is_items g, info_of g)) l))
  | Items _ l => Entries (item_dict l)
  end.
Definition process_info (l : list group) : list (pystr * info) := number_names (map (fun g => (g_name g, is_items g, info_of g)) l).
(** d[name], d[name][key] *)
Definition sub_item (v : info) (k : pystr) : res value := match v with Entries d => match lookup k d with Some v => Ok v | None => Err KeyError end | Sub _ => Err KeyError end.
Definition entry (d : list (pystr * info)) (name key : string) : res value := match lookup (str name) d with Some v => sub_item v (str key) | None => Err KeyError end.
(** d.get(name, {}).get(key); a group in a group has no values *)
Definition get_entry (d : list (pystr * info)) (name key : string) : value := match lookup (str name) d with Some (Entries e) => match lookup (str key) e with Some v => v | None => Nothing end | _ => Nothing end.

(** * Hardware: devices of one kind, one or several *)
Inductive devices (A : Type) := Single (a : A) | Several (l : list A).
Arguments Single {A}. Arguments Several {A}.
Record laser := { l_wave : option value; l_rest : Z }.
Record camera := { c_name : value; c_rest : Z }.
Record objective := { o_enabled : value; o_magnification : value }.
Record microscope := { m_objectives : devices objective; m_rest : Z }.
Record grating := { g_groove : value; g_blaze : value }.
Record monochromator := { s_serial : value; s_gratings : devices grating; s_rest : Z }.
Record hardware := { h_lasers : devices laser; h_cameras : devices camera; h_microscopes : devices microscope; h_monochromators : list (pystr * devices monochromator) }.
(** for x in devices: one device is a dictionary, its keys are texts without items *)
Fixpoint foldM {A B} (f : A -> B -> res A) (a : A) (l : list B) : res A := match l with [] => Ok a | x :: l' => let! a := f a x in foldM f a l' end.
Definition each {A S} (f : S -> A -> res S) (s : S) (d : devices A) : res S := match d with Single _ => Err TypeError | Several l => foldM f s l end.
(** np.isclose *)
Definition isclose (a b : Q) : bool := Qle_bool (if Qle_bool b a then a - b else b - a) ((1 # 100000000) + (1 # 100000) * (if Qle_bool 0 b then b else - b)).
Definition close_values (a b : value) : res bool := match a, b with Num p, Num q => Ok (isclose p q) | _, _ => Err TypeError end.
(** Lines 212-227 *)
Definition filter_laser (i : list (pystr * info)) (h : devices laser) : res (devices laser) :=
  match entry i "Calibration" "Laser_Wavelength" with
  | Err KeyError => Ok h
  | Err e => Err e
  | Ok cal => each (fun s l => match l_wave l with
                              | None => Ok s
                              | Some w => let! b := close_values cal w in let! z := if b : bool then close_values w (Num 0) else Ok true in Ok (if b && negb z then Single l else s)
                              end) h h
  end.
(** Lines 229-234 *)
Definition filter_camera (i : list (pystr * info)) (h : devices camera) : res (devices camera) :=
  each (fun s c => let! n := entry i "Detector" "Name" in Ok (if eqb_value (c_name c) n then Single c else s)) h h.
(** Lines 236-247 *)
Definition filter_objectives (h : devices microscope) : res (devices microscope) :=
  each (fun s m => each (fun s o => Ok (if truthy (o_enabled o) then Single {| m_objectives := Single o; m_rest := m_rest m |} else s)) s (m_objectives m)) h h.
(** Lines 249-297 *)
Fixpoint find_serial (v : value) (l : list (pystr * value)) : option pystr := match l with [] => None | (n, s) :: l' => if eqb_value v s then Some n else find_serial v l' end.
Definition used (i : list (pystr * info)) : res (list (pystr * info)) := match lookup (str "Spectrometers") i with Some (Sub d) => Ok d | Some (Entries _) => Err TypeError | None => Err KeyError end.
Definition filter_gratings (groove : res value) (d : devices grating) : res (devices grating) :=
  each (fun s g => let! v := groove in Ok (if eqb_value (g_groove g) v then Single g else s)) d d.
Definition filter_monochromators (i : list (pystr * info)) (h : list (pystr * devices monochromator)) : res (list (pystr * devices monochromator)) :=
  let! u := used i in
  let! serials := mapM (fun kv => let! s := sub_item (snd kv) (str "Serialnumber") in Ok (fst kv, s)) u in
  match lookup (str "Spectrometer") h with
  | None => Err KeyError
  | Some all =>
      let! st := each (fun st m =>
        match find_serial (s_serial m) serials with
        | None => Ok st
        | Some n => let! g := filter_gratings (match lookup n u with Some v => sub_item v (str "Groove_Density") | None => Err KeyError end) (s_gratings m) in
                    Ok (put n (Single {| s_serial := s_serial m; s_gratings := g; s_rest := s_rest m |}) (fst st), Some n)
        end) (h, None) all in
      match snd st with
      | None => Err NameError
      | Some n => Ok (if eqb_str n (str "Spectrometer") then fst st else without (str "Spectrometer") (fst st))
      end
  end.
Definition filter_hardware (i : list (pystr * info)) (h : hardware) : res hardware :=
  let! l := filter_laser i (h_lasers h) in
  let! c := filter_camera i (h_cameras h) in
  let! m := filter_objectives (h_microscopes h) in
  let! s := filter_monochromators i (h_monochromators h) in
  Ok {| h_lasers := l; h_cameras := c; h_microscopes := m; h_monochromators := s |}.

Section Reader.
  Variable float : pystr -> option Q.
  Variable fit : list Q -> Q * Q.
  (** float(value), int(value) *)
  Definition to_float (v : value) : res Q := match v with Num q => Ok q | Words s => match float s with Some q => Ok q | None => Err ValueError end | _ => Err TypeError end.
  Definition to_int (v : value) : res Z := match v with Num q => Ok (Z.quot (Qnum q) (Zpos (Qden q))) | Words s => parse_int s | _ => Err TypeError end.

  (** * Signal axis (lines 506-550) *)
  Inductive scale := Fitted (offset scale : Q) (size : Z) | Listed (l : list Q) | Steps (offset scale : Q) (size : Z).
  Record axis := { a_name : pystr; a_units : pystr; a_scale : scale; a_navigate : bool; a_index : Z }.
  Definition attr (e : xml) (k : string) : res pystr := match lookup (str k) (x_attrs e) with Some s => Ok s | None => Err KeyError end.
  Definition findall (e : xml) (tag : string) : list xml := filter (fun c => eqb_str (x_tag c) (str tag)) (x_children e).
  (** the first location; none is a RuntimeError *)
  Definition location (e : xml) (tag : string) : res xml := match findall e tag with [] => Err OtherError | x :: _ => Ok x end.
  Definition parse_float (s : pystr) : res Q := match float s with Some q => Ok q | None => Err ValueError end.
  Definition at_index (i : Z) (a : axis) : axis := {| a_name := a_name a; a_units := a_units a; a_scale := a_scale a; a_navigate := a_navigate a; a_index := i |}.
  Definition signal_axis (uniform : bool) (e : xml) : res axis :=
    let! dim := location e "xDim" in
    let! cal := match x_children dim with [] => Err IndexError | c :: _ => Ok c end in
    let! values := attr cal "ValueArray" in
    let l := split_char 124 values in
    let! _ := parse_int (hd [] l) in
    let! data := mapM parse_float (tl l) in
    let! unit := attr cal "Unit" in
    Ok {| a_name := str "Wavelength"; a_units := if eqb_str unit (str "Nanometer") then str "nm" else unit; a_navigate := false; a_index := 0;
          a_scale := if (1 <? zlen data) && uniform then Fitted (fst (fit data)) (snd (fit data)) (zlen data) else Listed data |}.

  (** * Data (lines 655-716) *)
  Definition read_frame (e : xml) : res (Z * list Q) :=
    let! t := attr e "TimeStamp" in
    let! t := parse_int t in
    let! d := match x_text e with [] => Err AttributeError | s => mapM parse_float (split_char 59 s) end in
    Ok (t, d).
  (** np.array needs rows of one length *)
  Definition even {A} (l : list (list A)) : bool := match l with [] => true | r :: l' => forallb (fun x => (List.length x =? List.length r)%nat) l' end.
  Definition parse_data (e : xml) : res (list Q * list Q) :=
    let! d := location e "Data" in
    let! frames := mapM read_frame (x_children d) in
    if negb (even (map snd frames)) then Err ValueError else
    match map fst frames with
    | [] => Err IndexError
    | (t0 :: _) as ts => Ok (List.concat (map snd frames), map (fun t => (t - t0) # 10000000) ts)
    end.
  (** data, times, axes: in a stack the second row of times is not a number, which nothing uses *)
  Definition get_stack (uniform : bool) (e : xml) : res (list (list Q) * list (list Q) * list axis) :=
    let! childs := location e "Childs" in
    let! l := mapM (fun c => let! a := signal_axis uniform c in let! d := parse_data c in Ok (d, a)) (x_children childs) in
    let data := map (fun x => fst (fst x)) l in
    let times := map (fun x => snd (fst x)) l in
    if even data && even times then Ok (data, times, map snd l) else Err ValueError.

  (** * Axes (lines 552-653) *)
  Definition nav_axis (name : string) (v : info) : res axis :=
    let! o := sub_item v (str "From") in let! o := to_float o in
    let! s := sub_item v (str "Step") in let! s := to_float s in
    let! n := sub_item v (str "Points") in let! n := to_int n in
    Ok {| a_name := str name; a_units := [181; 109]; a_scale := Steps o s n; a_navigate := true; a_index := 0 |}.
  Definition axis_size (a : axis) : Z := match a_scale a with Fitted _ _ n | Steps _ _ n => n | Listed l => zlen l end.
  (** Y and X *)
  Definition map_axes (i : list (pystr * info)) : res (list axis) :=
    let! y := match lookup (str "Y-Axis") i with Some v => let! a := nav_axis "Y" v in Ok [a] | None => Ok [] end in
    let! x := match lookup (str "X-Axis") i with Some v => let! a := nav_axis "X" v in Ok [at_index (zlen y) a] | None => Ok [] end in
    Ok (y ++ x).
  (** time[1]: with times of a stack, the second row *)
  Definition time_axis (times : list (list Q)) (stack : bool) : res axis :=
    let! s := if stack then match times with _ :: _ :: _ => Ok 0%Q | _ => Err IndexError end else match times with [_ :: t :: _] => Ok t | _ => Err IndexError end in
    Ok {| a_name := str "time"; a_units := str "s"; a_scale := Steps 0 s (zlen (List.concat times)); a_navigate := false; a_index := 0 |}.
  Definition frames_in (l : list axis) : Z := match map axis_size l with [] => 0 | s => prodZ s end.
  (** axes before the signal *)
  Definition outer_axes (i : list (pystr * info)) (times : list (list Q)) (stack : bool) : res (list axis) :=
    let! l := map_axes i in
    let! n := entry i "Detector" "No_of_Frames" in let! n := to_int n in
    if (n - frames_in l =? 0) || (n =? 1) then Ok l else
    let! t := time_axis times stack in
    match l with [] => Ok [t] | _ => Err NotImplementedError end.
  (** in a stack the index of the signal is one too small *)
  Definition set_axes (stack : bool) (outer signals : list axis) : list (list axis) :=
    if stack then map (fun a => outer ++ [at_index (zlen outer - 1) a]) signals
    else match signals with a :: _ => [outer ++ [at_index (zlen outer) a]] | [] => [] end.

  (** * reshape_data (lines 718-733) *)
  Definition signal_size (uniform : bool) (a : axis) : res Z :=
    match a_scale a with Fitted _ _ n => if uniform then Ok n else Err KeyError | Listed l => if uniform then Err KeyError else Ok (zlen l) | Steps _ _ n => Ok n end.
  Definition reshape (shape : list Z) (d : list Q) : res (list Z * list Q) :=
    if forallb (fun n => 0 <=? n) shape && (prodZ shape =? zlen d) then Ok (shape, d) else Err ValueError.
  (** data[i] = reshaped, in a row of an array: leading ones are dropped *)
  Fixpoint drop_ones (s : list Z) : list Z := match s with 1 :: ((_ :: _) as s') => drop_ones s' | _ => s end.
  Definition assign (stack : bool) (r : list Z * list Q) : res (list Z * list Q) :=
    if stack then match drop_ones (fst r) with [n] => Ok ([n], snd r) | _ => Err ValueError end else Ok r.
  Definition reshape_all (uniform stack : bool) (axes : list (list axis)) (data : list (list Q)) : res (list (list Z * list Q)) :=
    match axes with
    | [] => Err IndexError
    | l :: _ =>
        match rev l with
        | [] => Err IndexError
        | a :: _ => let! w := signal_size uniform a in
                    let shape := map axis_size (removelast l) ++ [w] in
                    mapM (fun d => let! r := reshape shape d in assign stack r) data
        end
    end.

  (** * Metadata (lines 299-504): None is left out of the dictionary *)
  Record document := { d_record : option pystr; d_label : option pystr; d_data_label : option pystr }.
  Record general := { e_title : pystr; e_file : pystr; e_date : option (pystr * pystr) }.
  Definition map_general (name : pystr) (d : document) : res general :=
    let! dt := match d_record d with
               | None => Ok None
               | Some s =>
                   match split_char 32 s with
                   | [date; time] => match split_char 47 date with
                                     | m :: d :: r => Ok (Some (last (m :: d :: r) [] ++ str "-" ++ m ++ str "-" ++ d, hd [] (split_char 46 time)))
                                     | _ => Err IndexError
                                     end
                   | _ => Err ValueError
                   end
               end in
    Ok {| e_title := hd [] (split_char 46 name); e_file := name; e_date := dt |}.
  Definition quantity (d : document) : option pystr := match d_label d, d_data_label d with Some a, Some b => Some (a ++ str " (" ++ b ++ str ")") | _, _ => None end.
  Record detector := { k_glued : option (option (Q * Z)); k_temperature : value; k_frames : value; k_average : value; k_exposure : option Q; k_time : option Q }.
  Definition map_detector (datasets : Z) (i : list (pystr * info)) : res detector :=
    let! glued := match lookup (str "Experiment") i with
                  | None => Ok None
                  | Some (Entries e) => match lookup (str "Overlap (%)") e with Some v => let! q := to_float v in Ok (Some (Some (q, datasets))) | None => Ok (Some None) end
                  | Some (Sub _) => Ok (Some None)
                  end in
    let frames := get_entry i "Detector" "No_of_Accumulations" in
    let average := get_entry i "Detector" "Calc_Average" in
    let exposure := match get_entry i "Detector" "Exposure_Time_(ms)" with Num q => Some (q / 1000)%Q | _ => None end in
    Ok {| k_glued := glued; k_temperature := get_entry i "Detector" "Detector_Temperature"; k_frames := frames; k_average := average; k_exposure := exposure;
          k_time := if truthy average then exposure else match exposure, frames with Some a, Num b => Some (a * b)%Q | _, _ => None end |}.
  Definition laser_wavelength (i : list (pystr * info)) : option Q :=
    let v := match lookup (str "Calibration") i with Some (Entries e) => match lookup (str "Laser_Wavelength") e with Some v => v | None => Num 0 end | _ => Num 0 end in
    match to_float v with Ok q => if isclose q 0 then None else Some q | Err _ => None end.
  (** .get of a list *)
  Definition the {A} (d : devices A) : res A := match d with Single a => Ok a | Several _ => Err AttributeError end.
  Definition magnification (h : hardware) : res value := let! m := the (h_microscopes h) in let! o := the (m_objectives m) in Ok (o_magnification o).
  Record stage := { p_name : pystr; p_central : value; p_blaze : value; p_model : value; p_groove : option Q; p_slits : option (Q * Q) }.
  Definition qmax (a b : Q) : Q := if Qle_bool a b then b else a.
  Definition ends_nm (s : pystr) : bool := match rev s with 77 :: 78 :: _ => true | _ => false end.
  Definition blaze_of (h : hardware) (name : pystr) : res value :=
    let! b := match lookup name (h_monochromators h) with
              | None => Ok Nothing
              | Some d => let! m := the d in let! g := the (s_gratings m) in Ok (g_blaze g)
              end in
    match b with
    | Words s => if ends_nm s then let! q := parse_float (hd [] (split_char 78 s)) in Ok (Num q) else Ok b
    | _ => Ok b
    end.
  Definition map_stage (h : hardware) (central : value) (ne : pystr * info) : res stage :=
    let (name, e) := ne in
    let! blaze := blaze_of h name in
    let get k := match e with Entries d => match lookup (str k) d with Some v => v | None => Nothing end | Sub _ => Nothing end in
    let! groove := match sub_item e (str "Groove_Density") with
                   | Ok (Words s) => let! q := parse_float (hd [] (split_char 32 s)) in Ok (Some q)
                   | Ok _ => Err AttributeError
                   | Err _ => Ok None
                   end in
    Ok {| p_name := name; p_central := central; p_blaze := blaze; p_model := get "Model"%string; p_groove := groove;
          p_slits := match get "Slit_Entrance-Front"%string, get "Slit_Entrance-Side"%string, get "Slit_Exit-Front"%string, get "Slit_Exit-Side"%string with
                     | Num a, Num b, Num c, Num d => Some (qmax (a / 1000) (b / 1000), qmax (c / 1000) (d / 1000))%Q
                     | _, _, _, _ => None
                     end |}.
  Record metadata := { y_general : general; y_quantity : option pystr; y_detector : detector; y_magnification : value; y_wavelength : option Q; y_stages : list stage }.
  Definition map_metadata (name : pystr) (doc : document) (datasets : Z) (i : list (pystr * info)) (h : hardware) : res metadata :=
    let! g := map_general name doc in
    let! d := map_detector datasets i in
    let central := get_entry i "Calibration" "Center_Wavelength" in
    let! mag := magnification h in
    let! s := mapM (map_stage h central) (match lookup (str "Spectrometers") i with Some (Sub l) => l | _ => [] end) in
    Ok {| y_general := g; y_quantity := quantity doc; y_detector := d; y_magnification := mag; y_wavelength := laser_wavelength i; y_stages := s |}.

  (** * file_reader (lines 101-135, 736-786) *)
  Record tvf := { f_document : document; f_info : option (list group); f_hardware : hardware; f_data : xml }.
  Record signal := { r_axes : list axis; r_shape : list Z; r_data : list Q }.
  Record result := { r_signals : list signal; r_metadata : metadata; r_info : list (pystr * info); r_hardware : hardware }.
  Definition file_reader (is_lazy uniform stack : bool) (name : pystr) (f : tvf) : res result :=
    if is_lazy then Err NotImplementedError else
    match f_info f with
    | None => Err OtherError
    | Some groups =>
        let i := process_info groups in
        let! h := filter_hardware i (f_hardware f) in
        let! n := match findall (f_data f) "Childs" with [] => Err IndexError | c :: _ => let! s := attr c "Count" in parse_int s end in
        let stack := stack && negb (n =? 0) in
        let! p := if stack then get_stack uniform (f_data f) else let! d := parse_data (f_data f) in let! a := signal_axis uniform (f_data f) in Ok ([fst d], [snd d], [a]) in
        let '(data, times, signals) := p in
        let! outer := outer_axes i times stack in
        let axes := set_axes stack outer signals in
        let! r := reshape_all uniform stack axes data in
        let! m := map_metadata name (f_document f) n i h in
        Ok {| r_signals := map (fun p => {| r_axes := snd p; r_shape := fst (fst p); r_data := snd (fst p) |}) (combine r axes); r_metadata := m; r_info := i; r_hardware := h |}
    end.
End Reader.
