(** EMD files of Velox: /repo/rsciio/emd/_emd_velox.py, with _get_keys_from_group, _parse_sub_data_group_metadata and _parse_metadata of
    utils/hdf5.py (lines 163-177), convert_units of utils/_units.py (line 25) and is_EMD_Velox of emd/_api.py (lines 70-102).
    The library h5py is left out: a file is the record [file] of its groups and datasets; a dataset of texts is the list of its bytes.
    The libraries json and pint, float() of a text, format() of a number and the local time zone are the record [env] of functions.  The event
    streams are those of FeiModel.  Simplifications: floating point numbers are exact; two JSON values are equal only when both are
    texts or whole numbers; images are three-dimensional and their elements are real numbers or pairs of two; the dtype of a spectrum image is an unsigned integer;
    the channels of a lazy spectrum image are not checked; the energies of EELS are converted to numbers; the group "Data" is present; log messages, timings and the test for the library sparse are left out. *)
From Coq Require Import QArith.
From Verif Require Import Base Text Utf8 HierModel SfsModel RowMajor SurFloat RenModel FeiModel.
Local Open Scope Z_scope.

(** * JSON values and Python operations on them *)
Inductive json := JNull | JBool (b : bool) | JInt (z : Z) | JReal (q : Q) | JStr (s : pystr) | JList (l : list json) | JDict (d : list (pystr * json)).
Definition dict := list (pystr * json).
Record env := { e_json : pystr -> res json;             (* json.loads *)
                e_float : pystr -> option Q;             (* float(text), None for ValueError *)
                e_show : json -> pystr;                  (* format() of what is neither a text nor a whole number *)
                e_unit : pystr -> option (Z * Q);        (* pint: dimension and size of a unit, None when there is no such unit *)
                e_compact : Q -> pystr -> pystr;         (* pint: unit of to_compact *)
                e_offset : Z -> Z;                       (* local time minus UTC, in seconds, at a moment *)
                e_zone : pystr }.
Definition item (j : json) (k : pystr) : res json := match j with JDict d => match lookup k d with Some v => Ok v | None => Err KeyError end | _ => Err TypeError end.
(** j.keys(), j.items(), j.get: only dictionaries have them *)
Definition entries (j : json) : res dict := match j with JDict d => Ok d | _ => Err AttributeError end.
Definition get (j : json) (k : pystr) : res (option json) := let! d := entries j in Ok (lookup k d).
Definition text (j : json) : res pystr := match j with JStr s => Ok s | _ => Err AttributeError end.
Definition same (a b : json) : bool := match a, b with JStr a, JStr b => eqb_str a b | JInt a, JInt b => a =? b | _, _ => false end.
(** [x in j] *)
Definition member (x j : json) : res bool :=
  match x, j with
  | JStr x, JStr s => Ok (contains x s)
  | _, JStr _ => Err TypeError
  | _, JList l => Ok (existsb (same x) l)
  | JStr x, JDict d => Ok (match lookup x d with Some _ => true | None => false end)
  | _, JDict _ => Ok false
  | _, _ => Err TypeError
  end.
Definition truncate (q : Q) : Z := Z.quot (Qnum q) (Zpos (Qden q)).
Definition int_of (j : json) : res Z := match j with JInt z => Ok z | JReal q => Ok (truncate q) | JStr s => parse_int s | JBool b => Ok (if b then 1 else 0) | _ => Err TypeError end.
(** dict.update *)
Definition update (d e : dict) : dict := fold_left (fun d p => put (fst p) (snd p) d) e d.

Section Velox.
Variable E : env.
Definition float_of (j : json) : res Q :=
  match j with
  | JInt z => Ok (inject_Z z) | JReal q => Ok q | JBool b => Ok (if b then 1%Q else 0%Q)
  | JStr s => match e_float E s with Some q => Ok q | None => Err ValueError end
  | _ => Err TypeError
  end.
Definition show (j : json) : pystr := match j with JStr s => s | JInt z => str_int z | _ => e_show E j end.

(** * Files *)
Definition cells := list (list Z).
Inductive entry := Cells (c : cells) | Sub (l : list (pystr * cells)).
Inductive elem := Real (z : Z) | Pair (re im : Z).
Record image := { i_type : pystr; i_names : option (pystr * pystr); i_shape : list Z; i_flat : list elem; i_meta : list Z }.
Record spectrum := { sp_shape : list Z; sp_flat : list Z; sp_meta : list Z }.
Record simage := { si_settings : option cells; si_meta : list Z }.
Record stream := { st_settings : cells; st_meta : list Z; st_words : list Z }.
Record eels := { el_shape : list Z; el_flat : list Z; el_meta : list Z; el_acquisition : list Z }.
Record data := { d_image : option (list (pystr * image)); d_spectrum : option (list (pystr * spectrum)); d_si : option (list (pystr * simage));
                 d_stream : option (list (pystr * stream)); d_eels : option (list (pystr * eels)) }.
(** [f_groups]: Displays, Operations, SharedProperties, Features; [f_presentation]: Presentation/Displays/ImageDisplay *)
Record file := { f_name : pystr; f_version : option cells; f_groups : list (pystr * list (pystr * entry)); f_presentation : option (list (pystr * cells)); f_data : data }.

(** * Texts (_parse_json, lines 47-48; utils/hdf5.py lines 169-177) *)
Definition parse_json (b : list Z) : res json := let! s := utf8_decode b in e_json E s.
Definition first_cell (c : cells) : res json := match c with [] => Err IndexError | b :: _ => parse_json b end.
Fixpoint lstrip_nul (s : pystr) : pystr := match s with c :: s' => if c =? 0 then lstrip_nul s' else s | [] => [] end.
Definition rstrip_nul (s : pystr) : pystr := rev (lstrip_nul (rev s)).
Definition parse_metadata (b : list Z) : res json := let! s := utf8_decode b in e_json E (rstrip_nul s).
(** is_EMD_Velox (emd/_api.py lines 86-93) *)
Definition is_velox (f : file) : res bool :=
  match f_version f with
  | None => Ok false
  | Some c => let! v := first_cell c in let! k := item v (str "format") in Ok (same k (JStr (str "Velox")) || same k (JStr (str "DevelopersKit")))
  end.

(** * Options, state and results *)
Record options := { o_lazy : bool; o_select : option pystr; o_first : Z; o_last : option Z; o_sum_frames : bool; o_sum_detectors : bool; o_rebin : Z;
                    o_dtype : option pystr; o_stack : bool }.
Inductive values := Arr (shape : list Z) (flat : list elem) (dtype : pystr) | Cube (n ys xs : Z) (a : cube3) (dtype : pystr) | Frames (m n ys xs : Z) (a : cube4) (dtype : pystr).
Record axis := { x_index : option Z; x_name : pystr; x_offset : Q; x_scale : option Q; x_size : Z; x_units : option pystr; x_navigate : bool }.
Record metadata := { m_file : pystr; m_title : option json; m_date : option (pystr * pystr * pystr); m_signal : pystr }.
Inductive conversion := Same | ToFloat | Scaled (q : Q) | Rounded (digits : Z) | RoundedDegrees (digits : Z) | Fixed (digits : Z) | FixedDegrees (digits : Z) | Zone | Elements.
Definition mapping := list (pystr * (pystr * conversion)).
Record signal := { s_data : values; s_axes : list axis; s_md : metadata; s_om : dict; s_mapping : option mapping }.
(** attributes of the reader that change while it reads *)
Record state := { r_detector : option json; r_shape : option (list Z); r_last : option Z; r_frames : option Z; r_dtype : option pystr; r_out : list signal }.
(** and those that do not: options, name of the file, version, the four groups, labels of the maps *)
Record fixed := { c_opt : options; c_file : pystr; c_version : json; c_stream : bool; c_image : bool; c_groups : dict; c_labels : dict }.

(** * Units (_convert_scale_units, lines 842-850; convert_units) *)
Definition convert (q : Q) (u v : pystr) : res Q :=
  match e_unit E u, e_unit E v with
  | Some (d, a), Some (d', b) => if d =? d' then Ok (q * a / b)%Q else Err TypeError
  | _, _ => Err AttributeError
  end.
Definition convert_scale (v : json) (u : pystr) (factor : Z) : res (Q * pystr) :=
  let! q := float_of v in
  match e_unit E u with
  | None => Err AttributeError
  | Some _ =>
      if factor =? 0 then Err ZeroDivisionError else
      let u' := e_compact E (inject_Z factor / 2 * q)%Q u in let! q := convert q u u' in Ok (q, u')
  end.
Definition convert_float (v : json) (u : pystr) (to : pystr) : res Q := let! q := float_of v in convert q u to.
Definition units_text (j : json) : res pystr := match j with JStr s => Ok s | _ => Err TypeError end.

(** * Detectors *)
(** _get_detector_metadata_dict (lines 51-57) *)
Fixpoint find_detector (name : json) (l : dict) : res json :=
  match l with
  | [] => Ok JNull
  | (_, d) :: l => let! n := item d (str "DetectorName") in if same n name then Ok d else find_detector name l
  end.
Definition detector_metadata (om : dict) (name : json) : res json := let! d := item (JDict om) (str "Detectors") in match d with JDict l => find_detector name l | _ => Err TypeError end.
(** _get_detector_information (lines 483-494) *)
Definition detector_information (om : dict) : res json :=
  let! index := match lookup (str "BinaryResult") om with Some b => get b (str "DetectorIndex") | None => Ok (Some (JInt 0)) end in
  match index with
  | None | Some JNull => Ok JNull
  | Some i => let! d := item (JDict om) (str "Detectors") in item d (str "Detector-" ++ show i)
  end.
(** _get_detector_name (lines 423-481) *)
Definition dpc_name (j : json) : pystr := if same j (JStr (str "true")) then str "iDPC" else str "dDPC".
Definition named (key name : pystr) (path : string) (m : json) : res (option json) :=
  let! p := item m (str path) in let! b := member (JStr key) p in Ok (if b then Some (JStr name) else None).
Definition stored_name (key : pystr) (field : string) (m : json) : res (option json) :=
  let! p := item m (str "dataPath") in let! b := member (JStr key) p in if b then let! n := item m (str field) in Ok (Some n) else Ok None.
Definition surface_name (key : pystr) (m : json) : res (option json) :=
  let! d := entries m in
  let! b := match lookup (str "unfilteredDataPath") d with Some p => member (JStr key) p | None => Ok false end in
  if b then let! i := item m (str "integrationMode") in Ok (Some (JStr (dpc_name i))) else
  let! p := item m (str "dataPath") in let! b := member (JStr key) p in
  if b then
    let! i := item m (str "integrationMode") in let! f := item m (str "enableFilter") in
    Ok (Some (JStr (if same f (JStr (str "true")) then str "Filtered " ++ dpc_name i else dpc_name i)))
  else Ok None.
Definition input_index (m : json) : res json :=
  let! o := item m (str "outputs") in
  let! o := match o with JList (o :: _) => Ok o | JList [] => Err IndexError | JDict _ => Err KeyError | JStr (c :: _) => Ok (JStr [c]) | JStr [] => Err IndexError | _ => Err TypeError end in item o (str "inputIndex").
Definition math_name (key : pystr) (m : json) : res (option json) :=
  let! p := item m (str "dataPath") in let! b := member (JStr key) p in
  if b then
    let! i := input_index m in
    Ok (if same i (JStr (str "0")) then Some (JStr (str "A-C")) else if same i (JStr (str "1")) then Some (JStr (str "B-D")) else None)
  else Ok None.
Fixpoint first_match (f : json -> res (option json)) (l : dict) : res (option json) :=
  match l with [] => Ok None | (_, m) :: l => let! r := f m in match r with Some n => Ok (Some n) | None => first_match f l end end.
Definition operations (key : pystr) : list (string * (json -> res (option json))) :=
  [("CameraInputOperation"%string, stored_name key "cameraName"); ("StemInputOperation"%string, stored_name key "detector");
   ("SurfaceReconstructionOperation"%string, surface_name key); ("MathematicsOperation"%string, math_name key);
   ("DpcOperation"%string, named key (str "DPC") "dataPath"); ("IntegrationOperation"%string, named key (str "DCFI") "dataPath");
   ("FftOperation"%string, named key (str "Half FFT") "imageOutputPath")].
Fixpoint search_operations (om : dict) (l : list (string * (json -> res (option json)))) : res json :=
  match l with
  | [] => Ok (JStr (str "Unrecognized_image_signal"))
  | (k, f) :: l =>
      match lookup (str k) om with
      | None => search_operations om l
      | Some j => let! d := entries j in let! r := first_match f d in match r with Some n => Ok n | None => search_operations om l end
      end
  end.
Definition detector_name (groups : dict) (key : pystr) : res json :=
  let! om := item (JDict groups) (str "Operations") in let! om := entries om in search_operations om (operations key).
(** the attribute after _read_image (lines 275-281) *)
Definition image_detector (c : fixed) (key : pystr) (info : json) (before : option json) : res (option json) :=
  match detector_name (c_groups c) key with
  | Ok n => Ok (Some n)
  | Err KeyError => match info with JNull => Ok before | _ => let! n := item info (str "DetectorName") in Ok (Some n) end
  | Err e => Err e
  end.
(** _get_dispersion_offset (lines 825-840) *)
Fixpoint calibrated (wanted : res json) (l : dict) : res (option (json * json)) :=
  match l with
  | [] => Ok None
  | (_, d) :: l =>
      let! w := wanted in let! n := item d (str "DetectorName") in let! b := member w n in
      if b then let! x := item d (str "Dispersion") in let! y := item d (str "OffsetEnergy") in Ok (Some (x, y)) else calibrated wanted l
  end.
Definition dispersion_offset (rebin : Z) (om : dict) : res (Q * Q * option pystr) :=
  match (let! d := item (JDict om) (str "Detectors") in let! l := entries d in
         calibrated (let! b := item (JDict om) (str "BinaryResult") in item b (str "Detector")) l) with
  | Ok (Some (x, y)) => let! x := float_of x in let! y := float_of y in Ok ((x / 1000 * inject_Z rebin)%Q, (y / 1000)%Q, Some (str "keV"))
  | Ok None | Err KeyError => Ok (1%Q, 0%Q, None)
  | Err e => Err e
  end.

(** * Date and metadata (lines 852-887, 995-999) *)
(** 1970-01-01 is day 134774 after 1601-01-01; isoformat() of the local time, up to its first "+" *)
Definition zone_text (offset : Z) : pystr :=
  let a := Z.abs offset in
  (if offset <? 0 then str "-" else str "+") ++ digits 2 (a / 3600) ++ str ":" ++ digits 2 (a / 60 mod 60) ++ (if a mod 60 =? 0 then [] else str ":" ++ digits 2 (a mod 60)).
Definition convert_datetime (q : Q) : res (pystr * pystr) :=
  let us := round_div (Qnum q * 1000000) (Zpos (Qden q)) in
  let offset := e_offset E (us / 1000000) in
  let local := us + offset * 1000000 in
  let '(y, m, d) := civil (local / 86400000000 + 134774) in
  let r := local mod 86400000000 in let s := r / 1000000 in let f := r mod 1000000 in
  if (1 <=? y) && (y <=? 9999)
  then Ok (digits 4 y ++ str "-" ++ digits 2 m ++ str "-" ++ digits 2 d,
           digits 2 (s / 3600) ++ str ":" ++ digits 2 (s / 60 mod 60) ++ str ":" ++ digits 2 (s mod 60) ++ (if f =? 0 then [] else str "." ++ digits 6 f)
             ++ (if offset <? 0 then zone_text offset else []))
  else Err ValueError.
Definition unix_time (om : dict) : res (option Q) :=
  let! a := item (JDict om) (str "Acquisition") in let! d := entries a in
  match lookup (str "AcquisitionStartDatetime") d with
  | Some s => let! t := item s (str "DateTime") in let! q := float_of t in Ok (Some q)
  | None =>
      let! p := item (JDict om) (str "CustomProperties") in
      match p with
      | JStr _ => Ok None
      | _ => let! d := entries p in
          match lookup (str "Detectors[BM-Ceta].TimeStamp") d with
          | Some v => let! v := item v (str "value") in let! q := float_of v in Ok (Some (q / 1000000)%Q)
          | None => Ok None
          end
      end
  end.
(** os.path.split(name)[1] *)
Definition basename (p : pystr) : pystr := last (split_char 47 p) [].
Definition metadata_of (c : fixed) (detector : option json) (signal : pystr) (om : dict) : res metadata :=
  let! t := unix_time om in
  let! date := match t with None => Ok None | Some q => let! p := convert_datetime q in Ok (Some (fst p, snd p, e_zone E)) end in
  Ok {| m_file := basename (c_file c); m_title := detector; m_date := date; m_signal := signal |}.
(** _get_mapping (lines 889-979) *)
Definition mapping_of (c : fixed) (elements individual : bool) : res mapping :=
  let tem := (fun s : string => str "Acquisition_instrument.TEM." ++ str s) in
  let rows :=
    [(str "Acquisition.AcquisitionStartDatetime.DateTime", (str "General.time_zone", Zone));
     (str "Optics.AccelerationVoltage", (tem "beam_energy"%string, Scaled (1 # 1000)));
     (str "Optics.CameraLength", (tem "camera_length"%string, Scaled 1000));
     (str "CustomProperties.StemMagnification.value", (tem "magnification"%string, ToFloat));
     (str "Instrument.InstrumentClass", (tem "microscope"%string, Same));
     (str "Stage.AlphaTilt", (tem "Stage.tilt_alpha"%string, RoundedDegrees 3));
     (str "Stage.BetaTilt", (tem "Stage.tilt_beta"%string, RoundedDegrees 3));
     (str "Stage.Position.x", (tem "Stage.x"%string, Rounded 6));
     (str "Stage.Position.y", (tem "Stage.y"%string, Rounded 6));
     (str "Stage.Position.z", (tem "Stage.z"%string, Rounded 6));
     (str "ImportedDataParameter.Number_of_frames", (tem "Detector.EDS.number_of_frames"%string, Same));
     (str "DetectorMetadata.ElevationAngle", (tem "Detector.EDS.elevation_angle"%string, Rounded 3));
     (str "DetectorMetadata.Gain", (str "Signal.Noise_properties.Variance_linear_model.gain_factor", ToFloat));
     (str "DetectorMetadata.Offset", (str "Signal.Noise_properties.Variance_linear_model.gain_offset", ToFloat))] in
  let more := if individual then
    [(str "DetectorMetadata.AzimuthAngle", (tem "Detector.EDS.azimuth_angle"%string, FixedDegrees 3));
     (str "DetectorMetadata.LiveTime", (tem "Detector.EDS.live_time"%string, Fixed 6));
     (str "DetectorMetadata.RealTime", (tem "Detector.EDS.real_time"%string, Fixed 6));
     (str "DetectorMetadata.DetectorName", (str "General.title", Same))] else [] in
  let! last := if elements
    then let! v := int_of (c_version c) in
      Ok [(if 11 <=? v then str "SharedProperties.EDSSpectrumQuantificationSettings" else str "Operations.ImageQuantificationOperation", (str "Sample.elements", Elements))]
    else Ok [] in
  Ok (rows ++ more ++ last).

(** * Images (_read_images, _read_image, lines 251-421) *)
(** np.rollaxis(data, 2) of an array (y, x, frames): the flat elements in the order frame, y, x *)
Definition roll {A} (d : A) (ys xs n : Z) (flat : list A) : list A :=
  flat_map (fun f => flat_map (fun y => map (fun x => nth (Z.to_nat ((y * xs + x) * n + f)) flat d) (zseq 0 (Z.to_nat xs))) (zseq 0 (Z.to_nat ys))) (zseq 0 (Z.to_nat n)).
Definition half_names : list (pystr * pystr) :=
  [(str "realFloatHalfEven", str "imagFloatHalfEven"); (str "realFloatHalfOdd", str "imagFloatHalfOdd"); (str "realFloat", str "imagFloat")].
(** type of the elements: complex numbers, or float64 unless lazy; other pairs cannot be read into an array of numbers *)
Definition image_type (lazy : bool) (i : image) : res pystr :=
  match i_names i with
  | Some (a, b) => if existsb (fun p => eqb_str (fst p) a && eqb_str (snd p) b) half_names then Ok (str "complex64") else if lazy then Ok (i_type i) else Err TypeError
  | None => Ok (if lazy then i_type i else str "float64")
  end.
Definition ax (i : option Z) (name : pystr) (offset : Q) (scale : option Q) (size : Z) (units : option pystr) (nav : bool) : axis :=
  {| x_index := i; x_name := name; x_offset := offset; x_scale := scale; x_size := size; x_units := units; x_navigate := nav |}.
Definition default (j : option json) (d : json) : json := match j with Some j => j | None => d end.
Definition frame_time (om : dict) : res json :=
  let! s := item (JDict om) (str "Scan") in
  let! b := member (JStr (str "FrameTime")) s in
  if b then item s (str "FrameTime") else
  let! br := item (JDict om) (str "BinaryResult") in let! i := item br (str "DetectorIndex") in
  let! d := item (JDict om) (str "Detectors") in let! d := item d (str "Detector-" ++ show i) in item d (str "ExposureTime").
(** calibration of an image: scale and offset of y and of x, unit *)
Definition plane (size : json) (offset : json) (units : pystr) (factor : Z) : res (Q * Q * Q * Q * pystr) :=
  let! w := item size (str "width") in let! p := convert_scale w units factor in let (sx, u) := p in
  let! h := item size (str "height") in let! sy := convert_float h units u in
  let! x := item offset (str "x") in let! ox := convert_float x units u in
  let! y := item offset (str "y") in let! oy := convert_float y units u in Ok (sy, oy, sx, ox, u).
Definition original (c : fixed) (b : list Z) : res dict := let! j := parse_metadata b in let! d := entries j in Ok (update d (c_groups c)).
Definition read_image (c : fixed) (key : pystr) (i : image) (s : state) : res (signal * state) :=
  let o := c_opt c in
  let! om := original c (i_meta i) in
  let! info := detector_information om in
  let! det := image_detector c key info (r_detector s) in
  match i_shape i with
  | [ys; xs; n] =>
      let! t := image_type (o_lazy o) i in
      let flat := roll (Real 0) ys xs n (i_flat i) in
      let! br := item (JDict om) (str "BinaryResult") in
      let! size := get br (str "PixelSize") in let size := default size (JDict [(str "height", JReal 1); (str "width", JReal 1)]) in
      let! offset := get br (str "Offset") in let offset := default offset (JDict [(str "x", JReal 0); (str "y", JReal 0)]) in
      let! units := get br (str "PixelUnitX") in let units := default units (JStr []) in
      let (n, flat) := if o_stack o || c_image c then (n, flat) else (Z.min 1 n, firstn (Z.to_nat (Z.min 1 n * ys * xs)) flat) in
      let! first := if n =? 1 then Ok [] else
        let! t := frame_time om in let! p := convert_scale t (str "s") (2 * n) in
        Ok [ax (Some 0) (str "Time") 0 (Some (fst p)) n (Some (snd p)) true] in
      let k := if n =? 1 then 0 else 1 in
      let! units := units_text units in
      let! p := plane size offset units xs in let '(sy, oy, sx, ox, u) := p in
      let axes := first ++ [ax (Some k) (str "y") oy (Some sy) ys (Some u) false; ax (Some (k + 1)) (str "x") ox (Some sx) xs (Some u) false] in
      let! md := metadata_of c det [] om in
      let! om := match det with None => Ok om | Some name => let! d := detector_metadata om name in Ok (put (str "DetectorMetadata") d om) end in
      let md := match lookup key (c_labels c) with
                | Some l => {| m_file := m_file md; m_title := Some l; m_date := m_date md; m_signal := m_signal md |} | None => md end in
      let! map := mapping_of c false false in
      Ok ({| s_data := Arr (if n =? 1 then [ys; xs] else [n; ys; xs]) flat t; s_axes := axes; s_md := md; s_om := om; s_mapping := Some map |},
          {| r_detector := det; r_shape := Some [ys; xs]; r_last := r_last s; r_frames := r_frames s; r_dtype := r_dtype s; r_out := r_out s |})
  | _ => Err ValueError
  end.
Definition emit (g : signal) (s : state) : state :=
  {| r_detector := r_detector s; r_shape := r_shape s; r_last := r_last s; r_frames := r_frames s; r_dtype := r_dtype s; r_out := r_out s ++ [g] |}.
Fixpoint image_loop (c : fixed) (keep : bool) (l : list (pystr * image)) (s : state) : res state :=
  match l with
  | [] => Ok s
  | (key, i) :: l => let! p := read_image c key i s in let (g, s) := p in if keep then image_loop c keep l (emit g s) else Ok s
  end.
Definition read_images (c : fixed) (images spectra : bool) (d : data) (s : state) : res state :=
  if negb images && negb spectra then Ok s else
  match d_image d with None => Ok s | Some l => image_loop c images l s end.

(** * Single spectra (lines 186-249) *)
Definition set_detector (n : pystr) (s : state) : state :=
  {| r_detector := Some (JStr n); r_shape := r_shape s; r_last := r_last s; r_frames := r_frames s; r_dtype := r_dtype s; r_out := r_out s |}.
(** dataset[:].T: elements in the order of the reversed indices; of one and two dimensions *)
Definition transpose (shape : list Z) (flat : list Z) : res (list Z * list Z) :=
  match shape with
  | [n] => Ok ([n], flat)
  | [n; m] => Ok ([m; n], flat_map (fun j => map (fun i => nth (Z.to_nat (i * m + j)) flat 0) (zseq 0 (Z.to_nat n))) (zseq 0 (Z.to_nat m)))
  | _ => Err OtherError
  end.
Definition read_spectrum (c : fixed) (sp : spectrum) (s : state) : res signal :=
  let! p := transpose (sp_shape sp) (sp_flat sp) in let (shape, flat) := p in
  let! om := original c (sp_meta sp) in
  let! _ := detector_information om in
  let! p := dispersion_offset (o_rebin (c_opt c)) om in let '(dispersion, offset, _) := p in
  let shape := match shape with [n; m] => if n =? 1 then [m] else shape | _ => shape end in
  let stack := match shape with [n; _] => [ax None (str "Stack") 0 (Some 1%Q) n None true] | _ => [] end in
  let axes := stack ++ [ax None (str "Energy") offset (Some dispersion) (last shape 0) (Some (str "keV")) false] in
  let! md := metadata_of c (r_detector s) (str "EDS_TEM") om in
  let! map := mapping_of c true true in
  Ok {| s_data := Arr shape (List.map Real flat) []; s_axes := axes; s_md := md; s_om := om; s_mapping := Some map |}.
Fixpoint spectrum_loop (c : fixed) (l : list (pystr * spectrum)) (s : state) : res state :=
  match l with [] => Ok s | (_, sp) :: l => let! g := read_spectrum c sp s in spectrum_loop c l (emit g s) end.
Definition read_single_spectrum (c : fixed) (load : bool) (d : data) (s : state) : res state :=
  if negb load then Ok s else
  match d_spectrum d with None => Ok s | Some l => spectrum_loop c l (set_detector (str "EDS") s) end.

(** * Spectrum images of EELS (lines 713-823) *)
Definition spatial (br : json) : res (Q * Q * pystr * option (Q * Q)) :=
  let! o := item br (str "Offset") in
  let! dim := match o with JDict d => Ok (zlen d) | JList l => Ok (zlen l) | JStr s => Ok (zlen s) | _ => Err TypeError end in
  let! size := item br (str "PixelSize") in let! w := item size (str "width") in
  let! ux := item br (str "PixelUnitX") in let! ux := units_text ux in
  let! p := convert_scale w ux 1 in let (sx, u) := p in
  let! x := item o (str "x") in let! ox := convert_float x ux u in
  if dim =? 2 then
    let! h := item size (str "height") in let! uy := item br (str "PixelUnitY") in let! uy := units_text uy in
    let! sy := convert_float h uy u in let! y := item o (str "y") in let! oy := convert_float y uy u in Ok (sx, ox, u, Some (sy, oy))
  else Ok (sx, ox, u, None).
(** data_cube.transpose(2, 0, 1): the last index becomes the first *)
Definition read_eels (c : fixed) (cal : Q * Q * pystr * option (Q * Q)) (e : eels) : res signal :=
  let '(sx, ox, u, vertical) := cal in
  let! p := match el_shape e with
    | [a; b; n] =>
        let! v := match vertical with Some v => Ok v | None => Err NameError end in let (sy, oy) := v in
        Ok ([n; a; b], roll 0 a b n (el_flat e),
            [ax (Some 1) (str "y") oy (Some sy) n (Some u) true; ax (Some 0) (str "x") ox (Some sx) a (Some u) true])
    | [a; b] => Ok ([a; b], el_flat e, [ax (Some 0) (str "x") ox (Some sx) a (Some u) true])
    | _ => Err OtherError
    end in
  let '(shape, flat, axes) := p in
  let! acq := parse_metadata (el_acquisition e) in let! d := item acq (str "Data") in
  let! offset := item d (str "offset") in let! scale := item d (str "dispersion") in
  let! offset := float_of offset in let! scale := float_of scale in
  let axes := axes ++ [ax (Some (zlen shape - 1)) (str "Energy-loss") offset (Some scale) (last shape 0) (Some (str "eV")) false] in
  let! om := parse_metadata (el_meta e) in let! om := entries om in
  Ok {| s_data := Arr shape (map Real flat) []; s_axes := axes;
        s_md := {| m_file := c_file c; m_title := Some (JStr (str "EELS")); m_date := None; m_signal := str "EELS" |}; s_om := om; s_mapping := None |}.
Fixpoint eels_loop (c : fixed) (cal : Q * Q * pystr * option (Q * Q)) (l : list (pystr * eels)) (s : state) : res state :=
  match l with [] => Ok s | (_, e) :: l => let! g := read_eels c cal e in eels_loop c cal l (emit g s) end.
Definition read_eels_images (c : fixed) (d : data) (s : state) : res state :=
  match d_eels d with
  | None => Ok s
  | Some l =>
      let! br := match d_si d with Some ((_, si) :: _) => let! m := parse_metadata (si_meta si) in item m (str "BinaryResult") | Some [] => Err IndexError | None => Err KeyError end in
      let! cal := spatial br in eels_loop c cal l s
  end.

(** * Spectrum streams (lines 549-711, 1016-1123) *)
Definition width (dtype : pystr) : res Z :=
  match lookup dtype [(str "uint8", 8); (str "uint16", 16); (str "uint32", 32); (str "uint64", 64)] with Some w => Ok w | None => Err TypeError end.
(** (stream_data == 65535).sum() divided by the number of pixels, rounded up *)
Definition computed_frames (area : Z) (words : list Z) : res Z :=
  let n := countZ (fun v => v =? 65535) words in
  if area =? 0 then if n =? 0 then Err ValueError else Err OverflowError else Ok (- ((- n) / area)).
Inductive decoded := D3 (a : cube3) | D4 (a : cube4).
(** stream_to_array into an array, or into a new one *)
Definition to_array (o : options) (w ys xs nch last : Z) (start : option decoded) (words : list Z) : res decoded :=
  if o_sum_frames o then
    let a := match start with Some (D3 a) => a | _ => zeros3 end in
    let! a := fill_array_with_stream_sum w ys xs nch (o_first o) last (o_rebin o) 0 0 a words in Ok (D3 a)
  else
    if last - o_first o <? 0 then Err ValueError else
    let a := match start with Some (D4 a) => a | _ => zeros4 end in
    let! a := fill_array_with_stream w ys xs nch (o_first o) last (o_rebin o) 0 0 a words in Ok (D4 a).
Definition to_sparse (o : options) (ys xs last : Z) (words : list Z) : decoded :=
  if o_sum_frames o then D3 (stream_to_sparse_sum ys xs last (o_first o) (o_rebin o) words) else D4 (stream_to_sparse_frames ys xs last (o_first o) (o_rebin o) words).
Definition add_decoded (a b : decoded) : decoded :=
  match a, b with
  | D3 a, D3 b => D3 (fun y x k => a y x k + b y x k)
  | D4 a, D4 b => D4 (fun f y x k => a f y x k + b f y x k)
  | _, _ => a
  end.
Definition astype (w : Z) (a : decoded) : decoded :=
  match a with D3 a => D3 (fun y x k => a y x k mod 2 ^ w) | D4 a => D4 (fun f y x k => a f y x k mod 2 ^ w) end.
Record sstream := { ss_bins : Z; ss_om : dict; ss_image : decoded }.
Definition opt_int (z : option Z) : json := match z with Some z => JInt z | None => JNull end.
(** FeiSpectrumStream.__init__ *)
Definition open_stream (c : fixed) (st : stream) (s : state) : res (sstream * state) :=
  let o := c_opt c in
  let! settings := first_cell (st_settings st) in
  let! bins := item settings (str "bincount") in let! bins := int_of bins in
  if o_rebin o =? 0 then Err ZeroDivisionError else if negb (bins mod o_rebin o =? 0) then Err ValueError else
  let! dtype := match r_dtype s with Some t => Ok t | None => let! t := item settings (str "StreamEncoding") in units_text t end in
  let! om := parse_metadata (st_meta st) in let! om := entries om in
  let! p := match r_shape s with Some [ys; xs] => Ok (ys, xs) | _ => Err AttributeError end in let (ys, xs) := p in
  let! p := match r_last s with Some l => Ok (l, r_frames s) | None => let! l := computed_frames (ys * xs) (st_words st) in Ok (l, Some l) end in let (last, frames) := p in
  let om := put (str "ImportedDataParameter")
    (JDict [(str "First_frame", JInt (o_first o)); (str "Last_frame", JInt last); (str "Number_of_frames", opt_int frames);
            (str "Rebin_energy", JInt (o_rebin o)); (str "Number_of_channels", JInt bins)]) om in
  let! w := width dtype in
  let! a := if o_lazy o then Ok (to_sparse o ys xs last (st_words st)) else to_array o w ys xs (bins / o_rebin o) last None (st_words st) in
  Ok ({| ss_bins := bins; ss_om := om; ss_image := a |},
      {| r_detector := r_detector s; r_shape := r_shape s; r_last := Some last; r_frames := frames; r_dtype := Some dtype; r_out := r_out s |}).
Fixpoint open_streams (c : fixed) (l : list (pystr * stream)) (s : state) : res (list sstream * state) :=
  match l with [] => Ok ([], s) | (_, st) :: l => let! p := open_stream c st s in let (x, s) := p in let! q := open_streams c l s in let (xs, s) := q in Ok (x :: xs, s) end.
(** the other streams added to the first *)
Fixpoint add_streams (c : fixed) (w ys xs nch last : Z) (l : list (pystr * stream)) (a : decoded) : res decoded :=
  match l with
  | [] => Ok a
  | (_, st) :: l =>
      let! a := if o_lazy (c_opt c) then Ok (add_decoded a (to_sparse (c_opt c) ys xs last (st_words st))) else to_array (c_opt c) w ys xs nch last (Some a) (st_words st) in
      add_streams c w ys xs nch last l a
  end.
Definition end_frame (d : data) : option Z :=
  match (match d_si d with
         | Some ((_, si) :: _) => let! c := match si_settings si with Some c => Ok c | None => Err KeyError end in let! j := first_cell c in let! e := item j (str "endFramePosition") in int_of e
         | _ => Err KeyError end) with Ok z => Some z | Err _ => None end.
Definition check_frames (o : options) (frames : option Z) : res (option Z) :=
  match o_last o, frames with
  | None, _ => Ok frames
  | Some l, Some n => if negb (n =? 0) && (n <? l) then Err ValueError else Ok (Some l)
  | Some l, None => Ok (Some l)
  end.
Definition si_frame_time (om : dict) (factor : Z) : res (option Q * option pystr) :=
  match (let! s := item (JDict om) (str "Scan") in item s (str "FrameTime")) with
  | Ok t => let! p := convert_scale t (str "s") factor in Ok (Some (fst p), Some (snd p))
  | Err KeyError => Ok (None, None)
  | Err e => Err e
  end.
Definition stream_signal (c : fixed) (dtype : pystr) (ys xs last : Z) (axes : list axis) (md : metadata) (x : sstream) : res signal :=
  let o := c_opt c in
  let nch := ss_bins x / o_rebin o in
  let! w := width dtype in
  let a := if o_lazy o then astype w (ss_image x) else ss_image x in
  let! map := mapping_of c true (negb (o_sum_frames o)) in
  Ok {| s_data := match a with D3 a => Cube ys xs nch a dtype | D4 a => Frames (last - o_first o) ys xs nch a dtype end;
        s_axes := axes; s_md := md; s_om := update (ss_om x) (c_groups c); s_mapping := Some map |}.
Definition stream_axes (c : fixed) (om : dict) (ys xs m nch : Z) : res (list axis) :=
  let o := c_opt c in
  let! br := item (JDict om) (str "BinaryResult") in
  let! size := item br (str "PixelSize") in let! offset := item br (str "Offset") in let! units := item br (str "PixelUnitX") in
  let! p := dispersion_offset (o_rebin o) om in let '(dispersion, e0, unit) := p in
  let! units := units_text units in
  (* spectrum_image_shape[1] *)
  let! p := plane size offset units (if o_sum_frames o then xs else ys) in let '(sy, oy, sx, ox, u) := p in
  let! first := if o_sum_frames o then Ok [] else let! t := si_frame_time om m in Ok [ax (Some 0) (str "Time") 0 (fst t) m (snd t) true] in
  let k := if o_sum_frames o then 0 else 1 in
  Ok (first ++ [ax (Some k) (str "y") oy (Some sy) ys (Some u) true; ax (Some (k + 1)) (str "x") ox (Some sx) xs (Some u) true;
                ax (Some (k + 2)) (str "X-ray energy") e0 (Some dispersion) nch unit false]).
Definition read_spectrum_stream (c : fixed) (load : bool) (d : data) (s : state) : res state :=
  if negb load then Ok s else
  let o := c_opt c in
  let! s := read_eels_images c d s in
  let s := set_detector (str "EDS") s in
  let frames := end_frame d in
  let! last := check_frames o frames in
  let s := {| r_detector := r_detector s; r_shape := r_shape s; r_last := last; r_frames := frames; r_dtype := r_dtype s; r_out := r_out s |} in
  match d_stream d with
  | None | Some [] => Ok s
  | Some ((key, st) :: others) =>
      let! p := (if o_sum_detectors o then
          let! p := open_stream c st s in let (x, s) := p in
          match r_shape s, r_last s, r_dtype s with
          | Some [ys; xs], Some last, Some t =>
              let! w := width t in
              let! a := add_streams c w ys xs (ss_bins x / o_rebin o) last others (ss_image x) in
              Ok ([{| ss_bins := ss_bins x; ss_om := ss_om x; ss_image := a |}], s)
          | _, _, _ => Err AttributeError
          end
        else open_streams c ((key, st) :: others) s) in
      let (streams, s) := p in
      match streams, r_shape s, r_last s, r_dtype s with
      | x :: _, Some [ys; xs], Some last, Some t =>
          let om := update (ss_om x) (c_groups c) in
          let! _ := detector_information om in
          let! axes := stream_axes c om ys xs (last - o_first o) (ss_bins x / o_rebin o) in
          let! md := metadata_of c (r_detector s) (str "EDS_TEM") om in
          let! signals := mapM (stream_signal c t ys xs last axes md) streams in
          Ok (fold_left (fun s g => emit g s) signals s)
      | _, _, _, _ => Err AttributeError
      end
  end.

(** * Whole file (lines 120-184, 506-547) *)
Fixpoint sub_cells (l : list (pystr * cells)) (d : dict) : res dict :=
  match l with [] => Ok d | (k, c) :: l => let! v := first_cell c in sub_cells l (put k v d) end.
(** an IndexError ends the group, which keeps what was read before *)
Fixpoint metadata_group (l : list (pystr * entry)) (d : dict) : res dict :=
  match l with
  | [] => Ok d
  | (k, e) :: l =>
      match (match e with Cells c => first_cell c | Sub l => let! d := sub_cells l [] in Ok (JDict d) end) with
      | Ok v => metadata_group l (put k v d)
      | Err IndexError => Ok d
      | Err e => Err e
      end
  end.
Fixpoint metadata_groups (f : file) (names : list string) (om : dict) : res dict :=
  match names with
  | [] => Ok om
  | n :: names =>
      match lookup (str n) (f_groups f) with
      | None => metadata_groups f names om
      | Some g => let! d := metadata_group g [] in metadata_groups f names (put (str n) (JDict d) om)
      end
  end.
(** f.get(path)[0] of a path of the four groups *)
Definition cell_at (f : file) (path : pystr) : res json :=
  match (match split_char 47 path with [] :: p => p | p => p end) with
  | [g; k] => match lookup g (f_groups f) with Some l => match lookup k l with Some (Cells c) => first_cell c | _ => Err TypeError end | None => Err TypeError end
  | [g; k; n] => match lookup g (f_groups f) with
                 | Some l => match lookup k l with Some (Sub l) => match lookup n l with Some c => first_cell c | None => Err TypeError end | _ => Err TypeError end
                 | None => Err TypeError end
  | _ => Err TypeError
  end.
Definition data_key (v : json) : res pystr := let! p := item v (str "dataPath") in let! p := text p in Ok (last (split_char 47 p) []).
Fixpoint labels_new (f : file) (l : dict) (m : dict) : res dict :=
  match l with
  | [] => Ok m
  | (_, v) :: l =>
      let! d := entries v in
      match lookup (str "data") d with
      | None => labels_new f l m
      | Some p => let! p := units_text p in let! j := cell_at f p in let! k := data_key j in let! id := item v (str "id") in labels_new f l (put k id m)
      end
  end.
Fixpoint labels_old (l : list (pystr * cells)) (m : dict) : res dict :=
  match l with
  | [] => Ok m
  | (_, c) :: l => let! v := first_cell c in let! k := data_key v in let! d := item v (str "display") in let! n := item d (str "label") in labels_old l (put k n m)
  end.
(** _parse_image_display *)
Definition image_display (f : file) (version : json) (om : dict) : res dict :=
  let! v := int_of version in
  if 11 <=? v then let! d := item (JDict om) (str "Displays") in let! d := item d (str "ImageDisplay") in let! l := entries d in labels_new f l []
  else match f_presentation f with Some l => labels_old l [] | None => Err AttributeError end.
Definition selection (o : options) : res (bool * bool * bool) :=
  match o_select o with
  | None => Ok (true, true, true)
  | Some t =>
      if eqb_str t (str "single_spectrum") then Ok (false, false, true)
      else if eqb_str t (str "images") then Ok (true, false, false)
      else if eqb_str t (str "spectrum_image") then Ok (false, true, false)
      else Err ValueError
  end.
Definition read_data (c : fixed) (d : data) (s : state) : res state :=
  let! p := selection (c_opt c) in let '(images, si, single) := p in
  if c_image c then read_images c images si d s
  else
    let! s := read_single_spectrum c single d s in
    let! s := read_images c images si d s in
    if c_stream c then read_spectrum_stream c si d s else Ok s.
Definition start (o : options) : state := {| r_detector := None; r_shape := None; r_last := o_last o; r_frames := None; r_dtype := o_dtype o; r_out := [] |}.
Definition has {A} (x : option A) : bool := match x with Some _ => true | None => false end.
Definition read_file (o : options) (f : file) : res (list signal) :=
  let! v := match f_version f with Some c => first_cell c | None => Err KeyError end in let! version := item v (str "version") in
  let d := f_data f in
  let is_stream := has (d_image d) && has (d_si d) in let is_image := has (d_image d) && negb (has (d_si d)) in
  let! groups := metadata_groups f ["Displays"%string; "Operations"%string; "SharedProperties"%string; "Features"%string] [] in
  let! labels := if is_stream then image_display f version groups else Ok [] in
  let c := {| c_opt := o; c_file := f_name f; c_version := version; c_stream := is_stream; c_image := is_image; c_groups := groups; c_labels := labels |} in
  let! s := read_data c d (start o) in Ok (r_out s).
End Velox.

(** * Elements (_convert_element_list, lines 981-993; utils/_elements.py lines 1-121): of the tree browser of HyperSpy, whose keys are a list *)
Definition atomic_number2name : list (Z * string) :=
  [
   (89, "Ac"%string); (47, "Ag"%string); (13, "Al"%string); (18, "Ar"%string); (33, "As"%string); (85, "At"%string); (79, "Au"%string); (5, "B"%string); (56, "Ba"%string); (4, "Be"%string);
   (83, "Bi"%string); (35, "Br"%string); (6, "C"%string); (20, "Ca"%string); (48, "Cd"%string); (58, "Ce"%string); (17, "Cl"%string); (27, "Co"%string); (24, "Cr"%string); (55, "Cs"%string);
   (29, "Cu"%string); (66, "Dy"%string); (68, "Er"%string); (63, "Eu"%string); (9, "F"%string); (26, "Fe"%string); (87, "Fr"%string); (31, "Ga"%string); (64, "Gd"%string); (32, "Ge"%string);
   (1, "H"%string); (2, "He"%string); (72, "Hf"%string); (80, "Hg"%string); (67, "Ho"%string); (53, "I"%string); (49, "In"%string); (77, "Ir"%string); (19, "K"%string); (36, "Kr"%string);
   (57, "La"%string); (3, "Li"%string); (71, "Lu"%string); (12, "Mg"%string); (25, "Mn"%string); (42, "Mo"%string); (7, "N"%string); (11, "Na"%string); (41, "Nb"%string); (60, "Nd"%string);
   (10, "Ne"%string); (28, "Ni"%string); (8, "O"%string); (76, "Os"%string); (15, "P"%string); (91, "Pa"%string); (82, "Pb"%string); (46, "Pd"%string); (61, "Pm"%string); (84, "Po"%string);
   (59, "Pr"%string); (78, "Pt"%string); (88, "Ra"%string); (37, "Rb"%string); (75, "Re"%string); (45, "Rh"%string); (86, "Rn"%string); (44, "Ru"%string); (16, "S"%string); (51, "Sb"%string);
   (21, "Sc"%string); (34, "Se"%string); (14, "Si"%string); (62, "Sm"%string); (50, "Sn"%string); (38, "Sr"%string); (73, "Ta"%string); (65, "Tb"%string); (43, "Tc"%string); (52, "Te"%string);
   (90, "Th"%string); (22, "Ti"%string); (81, "Tl"%string); (69, "Tm"%string); (92, "U"%string); (23, "V"%string); (74, "W"%string); (54, "Xe"%string); (39, "Y"%string); (70, "Yb"%string);
   (30, "Zn"%string); (40, "Zr"%string); (93, "Np"%string); (94, "Pu"%string); (95, "Am"%string); (96, "Cm"%string); (97, "Bk"%string); (98, "Cf"%string); (99, "Es"%string); (100, "Fm"%string);
   (101, "Md"%string); (102, "No"%string); (103, "Lr"%string); (104, "Rf"%string); (105, "Db"%string); (106, "Sg"%string); (107, "Bh"%string); (108, "Hs"%string); (109, "Mt"%string); (110, "Ds"%string);
   (111, "Rg"%string); (112, "Cp"%string); (113, "Uut"%string); (114, "Uuq"%string); (115, "Uup"%string); (116, "Uuh"%string); (117, "Uus"%string); (118, "Uuo"%string); (119, "Uue"%string)].
Fixpoint zlookup {A} (k : Z) (l : list (Z * A)) : option A := match l with [] => None | (i, a) :: l => if i =? k then Some a else zlookup k l end.
Definition element_name (j : json) : res pystr := let! z := int_of j in match zlookup z atomic_number2name with Some s => Ok (str s) | None => Err KeyError end.
Definition convert_element_list (d : dict) : res (list pystr) :=
  match d with
  | [] => Err IndexError
  | (_, j) :: _ => let! e := entries j in match lookup (str "elementSelection") e with None => Ok [] | Some (JList l) => mapM element_name l | Some _ => Err TypeError end
  end.
