(** Model of the axes, the metadata and the mapping of ImageObject in
    /repo/rsciio/digitalmicrograph/_api.py (lines 466-560, 604-618, 749-1268, 1300-1340).
    Simplifications, for the whole file:
    - Box: paths with dots are walked through nested dictionaries by the tags' names as
      stored; names that differ only in the characters Box replaces are not mixed up;
    - numbers are exact: [e_num] is the number of a tag, None if it is none;
    - dateutil and float(text) are functions; log messages are left out;
    - the table of the mapping has its own names for the functions applied;
    - applying the mapping is hyperspy's work and not part of the repository. *)
From Coq Require Import QArith.
From Verif Require Import Base Text HierModel SfsModel RplModel LogModel DmModel DmImageModel.
Local Open Scope Z_scope.

Record env := {
  e_num : dval -> option Q;               (** the number of a tag *)
  e_float : pystr -> option Q;            (** float(text) *)
  e_date : dval -> option pystr;          (** dateutil.parser.parse(x).date().isoformat() *)
  e_time : dval -> option pystr           (** dateutil.parser.parse(x).time().isoformat() *)
}.

(** Box.get with box_dots *)
Fixpoint walk (p : list pystr) (v : dval) : option dval :=
  match p with
  | [] => Some v
  | k :: p' => match v with DDict d => match lookup k d with Some x => walk p' x | None => None end | _ => None end
  end.
Definition get (p : list string) (v : dval) : option dval := walk (map str p) v.
Definition has_path (p : list string) (v : dval) : bool := match get p v with Some _ => true | None => false end.
Definition is_text (s : string) (v : option dval) : bool := match v with Some (DStr t) => eqb_str t (str s) | _ => false end.
(** "k" in box *)
Definition inside (k : string) (v : dval) : res bool := match v with DDict d => Ok (has (str k) d) | _ => Err AttributeError end.
(** bool(x) *)
Definition truthy (v : dval) : bool :=
  match v with DInt z => negb (z =? 0) | DFloat _ b => negb (b =? 0) | DChar _ => true | DStr s => negb (zlen s =? 0) | DTuple l | DList l => negb (zlen l =? 0) | DSkip _ _ _ => true | DDict d => negb (zlen d =? 0) end.

(** signal_type (lines 604-618) *)
Definition signal_type (im : dval) : pystr :=
  let s := get ["ImageTags"; "Meta Data"; "Signal"]%string im in
  if is_text "X-ray" s then str "EDS_TEM"
  else if is_text "CL" s || has_path ["ImageTags"; "Acquisition"; "Monarc Spectrometer"]%string im then str "CL"
  else if is_text "EELS" s || has_path ["ImageTags"; "spim"; "eels"]%string im then str "EELS"
  else [].

(** units (lines 485-498) *)
Definition unit_of (c : dval) : res dval := let! u := field (str "Units") c in Ok (if truthy u then u else DStr []).
Definition units (im : dval) : res (list dval) :=
  let! sh := shape im in
  let! cs := calibrations im in
  let! us := mapM unit_of cs in
  Ok (rev (us ++ repeat (DStr []) (List.length sh - List.length cs))).
(** numbers of the calibrations (lines 470-483); numpy refuses what is no number *)
Definition number_of (E : env) (k : string) (c : dval) : res Q :=
  let! v := field (str k) c in match e_num E v with Some q => Ok q | None => Err TypeError end.
Definition scales (E : env) (im : dval) : res (list Q) :=
  let! sh := shape im in
  let! cs := calibrations im in
  let! l := mapM (number_of E "Scale") cs in
  Ok (rev (l ++ repeat 1%Q (List.length sh - List.length cs))).
Definition offsets (E : env) (im : dval) : res (list Q) :=
  let! sh := shape im in
  let! cs := calibrations im in
  let! l := mapM (number_of E "Origin") cs in
  let! s := scales E im in
  Ok (map (fun '(o, c) => (-1 * o * c)%Q) (combine (rev (l ++ repeat 0%Q (List.length sh - List.length cs))) s)).

(** names (lines 500-517) *)
Fixpoint index_of (s : pystr) (l : list dval) : option Z :=
  match l with
  | [] => None
  | DStr t :: l' => if eqb_str t s then Some 0 else match index_of s l' with Some i => Some (i + 1) | None => None end
  | _ :: l' => match index_of s l' with Some i => Some (i + 1) | None => None end
  end.
Definition special (kind : pystr) : option (string * string) :=
  if eqb_str kind (str "EELS") then Some ("eV", "Energy loss")%string
  else if eqb_str kind (str "EDS") || eqb_str kind (str "EDX") then Some ("keV", "Energy")%string
  else if eqb_str kind (str "CL") then Some ("nm", "Wavelength")%string
  else None.
Fixpoint zlookup {A} (k : Z) (l : list (Z * A)) : option A := match l with [] => None | (j, x) :: l' => if j =? k then Some x else zlookup k l' end.
Definition names_of (kind : pystr) (us : list dval) (n : Z) : res (list (option string)) :=
  let all := zseq 0 (Z.to_nat n) in
  let! first := match special kind with
                | None => Ok None
                | Some (u, name) => match index_of (str u) us with None => Ok None | Some i => if n <=? i then Err IndexError else Ok (Some (i, name)) end
                end in
  let left := match first with None => all | Some (i, _) => filter (fun k => negb (k =? i)) all end in
  let rest := combine (rev left) ["x"; "y"; "z"]%string in
  Ok (map (fun k => zlookup k (match first with None => rest | Some p => p :: rest end)) all).
Definition names (im : dval) : res (list (option string)) :=
  let! sh := shape im in
  let! us := (match special (signal_type im) with None => Ok [] | Some _ => units im end) in
  names_of (signal_type im) us (zlen sh).

(** title (lines 519-525) *)
Definition title (im : dval) : dval := match get ["Name"]%string im with Some t => if truthy t then t else DStr [] | None => DStr [] end.

(** navigate and to_spectrum (lines 527-560) *)
Definition format (im : dval) : option dval := get ["ImageTags"; "Meta Data"; "Format"]%string im.
Definition spim (im : dval) : bool := has_path ["ImageTags"; "spim"]%string im.
Definition navigated (E : env) (im : dval) : res (list bool) :=
  let! sh := shape im in
  let! cs := calibrations im in
  let! sc := scales E im in
  Ok (navigate (is_text "Spectrum image" (format im) || is_text "Spectrum" (format im) || spim im) sh cs).
Definition to_spectrum (E : env) (im : dval) : res bool :=
  if is_text "Spectrum image" (format im) || spim im then let! s := scales E im in Ok (2 <? zlen s) else Ok false.

(** get_axes_dict (lines 749-772) *)
Record axis := { a_name : option string; a_size : Z; a_index : Z; a_scale : Q; a_offset : Q; a_units : dval; a_nav : bool }.
Fixpoint zip6 (i : Z) (n : list (option string)) (s : list Z) (c o : list Q) (u : list dval) (v : list bool) : list axis :=
  match n, s, c, o, u, v with
  | n1 :: n', s1 :: s', c1 :: c', o1 :: o', u1 :: u', v1 :: v' =>
      {| a_name := n1; a_size := s1; a_index := i; a_scale := c1; a_offset := o1; a_units := u1; a_nav := v1 |} :: zip6 (i + 1) n' s' c' o' u' v'
  | _, _, _, _, _, _ => []
  end.
Definition get_axes (E : env) (im : dval) : res (list axis) :=
  let! n := names im in let! s := shape im in let! c := scales E im in let! o := offsets E im in let! u := units im in let! v := navigated E im in
  Ok (zip6 0 n s c o u v).

(** * Functions applied to tags *)
(** _get_quantity (lines 785-796); a unit that is no text has no length or is an empty list *)
Definition quantity (kind : pystr) (u : dval) : res pystr :=
  let! t := match u with DStr t => Ok t | DList [] | DTuple [] => Ok [] | _ => Err TypeError end in
  let '(t, q) := if eqb_str t (str "e-") then (str "Counts", str "Electrons") else (t, str "Intensity") in
  let q := if eqb_str kind (str "EDS_TEM") then str "X-rays" else q in
  let t := if zlen t =? 0 then t else str " (" ++ t ++ str ")" in
  Ok (q ++ t).
(** _get_mode (lines 798-804) *)
Definition mode (v : dval) : res pystr :=
  match v with
  | DStr t => Ok (if contains (str "STEM") t then str "STEM" else if contains (str "SEM") t then str "SEM" else str "TEM")
  | DList l | DTuple l => Ok (if existsb (fun x => is_text "STEM" (Some x)) l then str "STEM" else if existsb (fun x => is_text "SEM" (Some x)) l then str "SEM" else str "TEM")
  | DDict d => Ok (if has (str "STEM") d then str "STEM" else if has (str "SEM") d then str "SEM" else str "TEM")
  | _ => Err TypeError
  end.
(** _get_microscope_name (lines 822-841) *)
Definition microscope_name (tags : dval) : option dval :=
  let pick p := match get p tags with Some v => if truthy v && negb (is_text "[]" (Some v)) then Some v else None | None => None end in
  match pick ["Session Info"; "Microscope"]%string with
  | Some v => Some v
  | None => match pick ["Microscope Info"; "Name"]%string with Some v => Some v | None => pick ["Microscope Info"; "Microscope"]%string end
  end.
(** _parse_string (lines 843-859); len of a number is a TypeError *)
Definition parse_string (v : dval) : res (option dval) :=
  match v with DInt _ | DFloat _ _ | DSkip _ _ _ => Err TypeError | _ => Ok (if truthy v then Some v else None) end.
Definition parse_float (E : env) (s : pystr) : option Q := if zlen s =? 0 then None else e_float E s.
(** the aperture label without "mm" (lines 1104-1111) *)
Definition aperture (E : env) (s : pystr) : option Q := parse_float E (replace_sub (List.length s) (str "mm") [] s).
(** _get_exposure_time (lines 861-876): tags as hyperspy names them *)
Definition to_float (E : env) (v : dval) : res Q :=
  match v with DStr s => match e_float E s with Some q => Ok q | None => Err ValueError end | _ => match e_num E v with Some q => Ok q | None => Err TypeError end end.
Definition exposure (E : env) (tags : list (pystr * dval)) : res (option Q) :=
  match lookup (str "Integration_time_s") tags with
  | Some v => let! q := to_float E v in Ok (Some q)
  | None =>
      match lookup (str "Exposure_s") tags with
      | Some v =>
          let! n := match lookup (str "Number_of_frames") tags with Some f => to_float E f | None => Ok 1%Q end in
          let! q := to_float E v in Ok (Some (q * n)%Q)
      | None => Ok None
      end
  end.
(** _get_CL_detector_type (lines 878-892) *)
Definition cl_detector (tags : list (pystr * dval)) : option string :=
  if is_text "Parallel dispersive" (lookup (str "Acquisition_Mode") tags) then Some "CCD"%string
  else if is_text "Serial dispersive" (lookup (str "Acquisition_Mode") tags) then Some "PMT"%string else None.
(** pixel_size (lines 1201-1206): equality of tags is that of what is stored *)
Definition pixel_size (same : dval -> dval -> bool) (v : dval) : res dval :=
  match v with DTuple (a :: b :: _) => Ok (if same a b then a else v) | DTuple _ => Err IndexError | _ => Ok v end.

(** * The table (lines 894-1268) *)
Inductive conv := Keep | Date | Time | Per (n : Z) | Mode | Text | Scope | Exposure | Aperture | Grating | ClDetector | PixelSize | Quantity.
Definition apply_number (c : conv) (q : Q) : Q := match c with Per n => (q / inject_Z n)%Q | _ => q end.
Record flags := {
  f_source : bool;              (** made by the stack builder *)
  f_scanning : bool;            (** DigiScan *)
  f_sem : bool;                 (** the instrument is a SEM *)
  f_scope : option (bool * bool); (** Microscope Info: TEM, diffraction *)
  f_si : bool;
  f_kind : pystr
}.
Definition tags_path (f : flags) : string := if f_source f then "ImageList.TagGroup0.ImageTags.source.Tags at creation" else "ImageList.TagGroup0.ImageTags".
Definition scope (f : flags) : string := if f_sem f then "SEM" else "TEM".
Definition entry : Type := string * (string * conv).
(** dict.update *)
Definition update (d : list (pystr * (pystr * conv))) (l : list entry) : list (pystr * (pystr * conv)) :=
  fold_left (fun d '(k, (t, c)) => put (str k) (str t, c) d) l d.
(** the four branches on the kind (lines 1033, 1118, 1152, 1231-1250) *)
Inductive branch := Eels | Eds | Cl | Other.
Definition branch_of (k : pystr) : branch :=
  if eqb_str k (str "EELS") then Eels else if eqb_str k (str "EDS_TEM") then Eds else if eqb_str k (str "CL") then Cl else Other.
Definition table_of (b : branch) (f : flags) : list (pystr * (pystr * conv)) :=
  let p s : string := (tags_path f ++ "." ++ s)%string in
  let a s : string := ("Acquisition_instrument." ++ scope f ++ "." ++ s)%string in
  let d := update []
    [(p "DataBar.Acquisition Date", ("General.date", Date)); (p "DataBar.Acquisition Time", ("General.time", Time));
     (p "Microscope Info.Voltage", (a "beam_energy", Per 1000));
     (p "Microscope Info.Stage Position.Stage Alpha", (a "Stage.tilt_alpha", Keep)); (p "Microscope Info.Stage Position.Stage Beta", (a "Stage.tilt_beta", Keep));
     (p "Microscope Info.Stage Position.Stage X", (a "Stage.x", Per 1000)); (p "Microscope Info.Stage Position.Stage Y", (a "Stage.y", Per 1000)); (p "Microscope Info.Stage Position.Stage Z", (a "Stage.z", Per 1000));
     (p "Microscope Info.Illumination Mode", (a "acquisition_mode", Mode)); (p "Microscope Info.Probe Current (nA)", (a "beam_current", Keep));
     (p "Session Info.Operator", ("General.authors", Text)); (p "Session Info.Specimen", ("Sample.description", Text))]%string in
  let d := match f_scope f with
    | None => d
    | Some (true, true) => update d [(p "Microscope_Info.Indicated_Magnification", ("Acquisition_instrument.TEM.camera_length", Keep))]%string
    | Some (true, false) => update d [(p "Microscope_Info.Indicated_Magnification", ("Acquisition_instrument.TEM.magnification", Keep))]%string
    | Some (false, _) => update d [(p "Microscope Info.STEM Camera Length", (a "camera_length", Keep)); (p "Microscope Info.Indicated Magnification", (a "magnification", Keep))]%string
    end in
  let d := match f_scope f with None => d | Some _ => update d [(tags_path f, (a "microscope", Scope))]%string end in
  let d := if f_si f then update d [(p "SI.Acquisition.Date", ("General.date", Date)); (p "SI.Acquisition.Start time", ("General.time", Time))]%string else d in
  let d :=
    match b with
    | Eels =>
      let e s : string := ("Acquisition_instrument.TEM.Detector.EELS." ++ s)%string in
      update d [(p "EELS.Acquisition.Date", ("General.date", Date)); (p "EELS.Acquisition.Start time", ("General.time", Time));
                (p "EELS.Experimental Conditions.Collection semi-angle (mrad)", (e "collection_angle", Keep));
                (p "EELS.Experimental Conditions.Convergence semi-angle (mrad)", ("Acquisition_instrument.TEM.convergence_angle", Keep));
                (p "EELS.Acquisition", (e (if f_scanning f then "dwell_time" else "exposure"), Exposure)); (p "EELS.Acquisition.Number_of_frames", (e "frame_number", Keep));
                (p "EELS_Spectrometer.Aperture_label", (e "aperture_size", Aperture)); (p "EELS Spectrometer.Instrument name", (e "spectrometer", Keep))]%string
    | Eds =>
      let e s : string := ("Acquisition_instrument.TEM.Detector.EDS." ++ s)%string in
      update d [(p "EDS.Acquisition.Date", ("General.date", Date)); (p "EDS.Acquisition.Start time", ("General.time", Time));
                (p "EDS.Detector_Info.Azimuthal_angle", (e "azimuth_angle", Keep)); (p "EDS.Detector_Info.Elevation_angle", (e "elevation_angle", Keep));
                (p "EDS.Solid_angle", (e "solid_angle", Keep)); (p "EDS.Live_time", (e "live_time", Keep)); (p "EDS.Real_time", (e "real_time", Keep))]%string
    | Cl =>
      let s s : string := ("Acquisition_instrument.Spectrometer." ++ s)%string in
      let e s : string := ("Acquisition_instrument.Detector." ++ s)%string in
      let i s : string := ("Acquisition_instrument.Spectrum_image." ++ s)%string in
      update d [(p "CL.Acquisition.Date", ("General.date", Date)); (p "CL.Acquisition.Start_time", ("General.time", Time));
                (p "Meta_Data.Acquisition_Mode", (s "acquisition_mode", Keep)); (p "Meta_Data.Format", ("Signal.format", Keep)); (p "Meta_Data", (e "detector_type", ClDetector));
                (p "Acquisition.Monarc_Spectrometer.Grating", (s "Grating.groove_density", Grating)); (p "CL.Acquisition.Dispersion_grating_(lines/mm)", (s "Grating.groove_density", Keep));
                (p "Acquisition.Monarc_Spectrometer.Slit_Width", (s "entrance_slit_width", Keep)); (p "Acquisition.Monarc_Spectrometer.Bandpass", (s "bandpass", Keep));
                (p "CL.Acquisition.Central_wavelength_(nm)", (s "central_wavelength", Keep)); (p "CL.Acquisition.Exposure_(s)", (e "exposure_per_frame", Keep));
                (p "CL.Acquisition.Number_of_frames", (e "frames", Keep)); (p "CL.Acquisition", (e "integration_time", Exposure)); (p "CL.Acquisition.Saturation_fraction", (e "saturation_fraction", Keep));
                (p "Acquisition.Parameters.High_Level.Binning", (e "binning", Keep)); (p "Acquisition.Parameters.High_Level.CCD_Read_Area", (e "sensor_roi", Keep));
                (p "Acquisition.Parameters.High_Level.Processing", (e "processing", Keep)); (p "Acquisition.Device.CCD.Pixel_Size_um", (e "pixel_size", PixelSize));
                (p "CL.Acquisition.Acquisition_begin", ("General.date", Date)); (p "CL.Acquisition.Dwell_time_(s)", (e "integration_time", Keep));
                (p "CL.Acquisition.Start_wavelength_(nm)", (s "start_wavelength", Keep)); (p "CL.Acquisition.Step-size_(nm)", (s "step_size", Keep));
                (p "Acquisition.Monarc_Spectrometer.PMT_HV", (e "pmt_voltage", Keep)); (p "DigiScan.Sample Time", (a "dwell_time", Per 1000000));
                (p "DataBar.Acquisition_Date", ("General.date", Date)); (p "DataBar.Acquisition_Time", ("General.time", Time));
                (p "SI.Acquisition.SI_Application_Mode.Name", (i "mode", Keep));
                (p "SI.Acquisition.Artefact_Correction.Spatial_Drift.Periodicity", (i "drift_correction_periodicity", Keep));
                (p "SI.Acquisition.Artefact_Correction.Spatial_Drift.Units", (i "drift_correction_units", Keep))]%string
    | Other =>
      if f_scanning f then update d [(p "DigiScan.Sample Time", (a "dwell_time", Per 1000000))]%string
      else update d [(p "Acquisition.Parameters.Detector.exposure_s", ("Acquisition_instrument.TEM.Camera.exposure", Keep))]%string
    end in
  update d [("ImageList.TagGroup0.ImageData.Calibrations.Brightness.Units", ("Signal.quantity", Quantity));
            ("ImageList.TagGroup0.ImageData.Calibrations.Brightness.Scale", ("Signal.Noise_properties.Variance_linear_model.gain_factor", Keep));
            ("ImageList.TagGroup0.ImageData.Calibrations.Brightness.Origin", ("Signal.Noise_properties.Variance_linear_model.gain_offset", Keep))]%string.
Definition table (f : flags) : list (pystr * (pystr * conv)) := table_of (branch_of (f_kind f)) f.
(** what the table depends on (lines 895-925, 975-990, 1032) *)
Definition flags_of (im : dval) : res flags :=
  let! tags := field (str "ImageTags") im in
  let! src := inside "source" tags in
  let! inner := (if src then let! s := field (str "source") tags in field (str "Tags at creation") s else Ok tags) in
  let! scan := inside "DigiScan" inner in
  let! mi := inside "Microscope Info" tags in
  let! sem := (if mi then
                 let! m := field (str "Microscope Info") tags in
                 let! b := inside "Illumination Mode" m in
                 if b then let! x := field (str "Illumination Mode") m in let! r := mode x in Ok (eqb_str r (str "SEM")) else Ok false
               else Ok false) in
  let! mi' := inside "Microscope Info" inner in
  let! sc := (if mi' then
                let! m := field (str "Microscope Info") inner in
                let! _ := inside "Illumination Mode" m in
                Ok (Some (is_text "TEM" (get ["Illumination Mode"]%string m), is_text "DIFFRACTION" (get ["Imaging Mode"]%string m)))
              else Ok None) in
  let! si := inside "SI" tags in
  Ok {| f_source := src; f_scanning := scan; f_sem := sem; f_scope := sc; f_si := si; f_kind := signal_type im |}.
Definition get_mapping (im : dval) : res (list (pystr * (pystr * conv))) := let! f := flags_of im in Ok (table f).

(** * The file (lines 1304-1340, get_metadata lines 774-783) *)
Record signal := { s_data : payload; s_axes : list axis; s_title : dval; s_type : pystr; s_file : pystr; s_spectrum : bool; s_mapping : list (pystr * (pystr * conv)); s_original : list (pystr * dval) }.
(** tags_dict with this image only, put at the end *)
Definition original (tags : list (pystr * dval)) (im : dval) : list (pystr * dval) :=
  filter (fun '(k, _) => negb (eqb_str k (str "ImageList"))) tags ++ [(str "ImageList", DDict [(str "TagGroup0", im)])].
Definition signal_of (E : env) (file : pystr) (bytes : list Z) (tags : list (pystr * dval)) (im : dval) : res signal :=
  let! a := get_axes E im in
  let! sp := to_spectrum E im in
  let! d := get_data bytes im in
  let! m := get_mapping im in
  Ok {| s_data := d; s_axes := a; s_title := title im; s_type := signal_type im; s_file := file; s_spectrum := sp; s_mapping := m; s_original := original tags im |}.
Definition dm_reader (E : env) (file : pystr) (bytes : list Z) : res (list signal) :=
  let! tags := parse_file bytes in
  let! ims := images tags in
  mapM (signal_of E file bytes tags) ims.
