(** Headers, pictures and maps of Bruker files: /repo/rsciio/bruker/_api.py lines 452-768, 837-1075 and 1355-1600.  The container is in [SfsModel], the
    parsers of maps are in [BcfModel] and the conversion of XML is in [XmlModel].
    Simplifications: an XML tree is the input; numbers are exact; ast.literal_eval, base64 with zlib, strptime, np.fromstring and the
    parsers of maps are given from outside ([env]); logging and lazy reading are left out; letters other than ASCII have no other case;
    a name of an element that is not a text is a TypeError at once (Python raises it when names are joined); numbers of pixels
    below zero do not fit any data. *)
From Coq Require Import QArith.
From Verif Require Import Base Bytes Text HierModel SfsModel BcfModel XmlModel DateModel EdaxModel.
Local Open Scope Z_scope.

Record env := { e_literal : pystr -> leaf;                                    (* literal_eval, the text itself after an error *)
                e_num : Z -> option Q;                                         (* the number that a literal is *)
                e_list : pystr -> res (list Q);                                (* literal_eval of a list of numbers *)
                e_base64 : pystr -> list Z;                                    (* codecs.decode(text, "base64") *)
                e_layers : pystr -> res xml;                                   (* base64, unzip_block and ET.fromstring *)
                e_date : pystr -> option (pystr * pystr);                      (* strptime: date and time in ISO format *)
                e_counts : pystr -> list Z;                                    (* np.fromstring(text, dtype="Q", sep=",") *)
                e_fast : bool;                                                 (* unbcf_fast is there *)
                e_parse : Z -> Z * Z * Z -> Z * bool -> Z -> res (list Z) }.   (* the map of an index: shape, type and downsampling *)
Definition dict := list (pystr * val).

(** * Trees: find and findall with steps such as ClassInstance[@Type='TRTSpectrum'] *)
Definition step := (pystr * list (string * string))%type.
Definition fits (s : step) (e : xml) : bool :=
  eqb_str (x_tag e) (fst s) &&
  forallb (fun c => match lookup (str (fst c)) (x_attrs e) with Some v => eqb_str v (str (snd c)) | None => false end) (snd s).
Fixpoint findall (p : list step) (e : xml) : list xml :=
  match p with [] => [e] | s :: p => flat_map (findall p) (filter (fits s) (x_children e)) end.
Definition find (p : list step) (e : xml) : option xml := hd_error (findall p e).
Definition node (p : list step) (e : xml) : res xml := match find p e with Some n => Ok n | None => Err AttributeError end.
Definition plain (t : string) : step := (str t, []).
Definition inst (t : string) : step := (str "ClassInstance", [("Type"%string, t)]).
Definition named (t : string) : step := (str "ClassInstance", [("Name"%string, t)]).
(** int(node.text): a missing text is a TypeError *)
Definition int_of (e : xml) : res Z := match x_text e with [] => Err TypeError | s => parse_int s end.

Section Reader.
Context (E : env).
(** x2d (line 61, with the defaults of XmlToDict) *)
Definition x2d : options := {| literal := e_literal E; attr_pre := str "XmlClass"; text_key := str "#value"; flatten := [str "ClassInstance"]; text_mode := First |}.
Definition dict_of (v : val) : res dict := match v with VDict d => Ok d | _ => Err TypeError end.
Definition todict (e : xml) : res dict := let! v := dictionarize x2d e in dict_of v.
Definition key (k : string) (d : dict) : res val := match lookup (str k) d with Some v => Ok v | None => Err KeyError end.
(** d.get(k, None) *)
Definition get (k : string) (d : dict) : option val := match lookup (str k) d with Some VNone => None | r => r end.
Definition number (v : val) : res Q := match v with VLeaf (LOther n) => match e_num E n with Some q => Ok q | None => Err TypeError end | _ => Err TypeError end.

(** gen_iso_date_time (lines 1589-1600) *)
Definition iso (e : xml) : res (option (pystr * pystr)) :=
  match find [plain "Date"] e with
  | None => Ok None
  | Some d =>
      let! t := node [plain "Time"] e in
      match x_text d, x_text t with
      | [], _ | _, [] => Err TypeError
      | a, b => match e_date E (a ++ 32 :: b) with Some r => Ok (Some r) | None => Err ValueError end
      end
  end.

(** * EDXSpectrum (lines 452-533) *)
Record spectrum := { sp_hardware : dict; sp_amp : val; sp_detector : dict; sp_layers : list (pystr * list (pystr * pystr)); sp_type : val; sp_esma : dict;
                     sp_hv : option val; sp_elev : val; sp_date : option (pystr * pystr); sp_meta : dict; sp_offset : val; sp_scale : val; sp_data : list Z }.
Definition esma (trt : xml) : res dict :=
  match find [inst "TRTXrfHeader"] trt with
  | Some x =>
      let! _ := match find [inst "TRTESMAHeader"] trt with Some m => todict m | None => Ok [] end in
      let! d := todict x in
      let! v := key "Voltage" d in
      let! a := key "ExcitationAngle" d in
      Ok [(str "PrimaryEnergy", v); (str "ElevationAngle", a)]
  | None => let! m := node [inst "TRTESMAHeader"] trt in todict m
  end.
Definition edx (e : xml) : res spectrum :=
  let! trt := node [plain "TRTHeaderedClass"] e in
  let! hw := node [inst "TRTSpectrumHardwareHeader"] trt in
  let! hardware := todict hw in
  let! amp := key "Amplification" hardware in
  let! det := node [inst "TRTDetectorHeader"] trt in
  let! detector := todict det in
  let! type := key "Type" detector in
  let! l := key "DetLayers" detector in
  let! s := match l with VLeaf (LText s) => Ok s | _ => Err AttributeError end in
  let! mini := e_layers E s in
  let layers := fold_left (fun d i => put (x_tag i) (x_attrs i) d) (x_children mini) [] in
  let! m := esma trt in
  let! elev := key "ElevationAngle" m in
  let! sh := node [inst "TRTSpectrumHeader"] e in
  let! date := iso sh in
  let! meta := todict sh in
  let! offset := key "CalibAbs" meta in
  let! scale := key "CalibLin" meta in
  let! ch := node [plain "Channels"] e in
  let! data := match x_text ch with [] => Err TypeError | t => Ok (e_counts E t) end in
  Ok {| sp_hardware := hardware; sp_amp := amp; sp_detector := detector; sp_layers := layers; sp_type := type; sp_esma := m; sp_hv := get "PrimaryEnergy" m;
        sp_elev := elev; sp_date := date; sp_meta := meta; sp_offset := offset; sp_scale := scale; sp_data := data |}.
(** last_non_zero_channel (lines 521-523) *)
Fixpoint last_nonzero (l : list Z) (i : Z) : option Z :=
  match l with [] => None | x :: l => match last_nonzero l (i + 1) with Some j => Some j | None => if x =? 0 then None else Some i end end.
(** energy_to_channel (lines 525-533): Python rounds halves to even *)
Definition channel (s : spectrum) (e : Q) : res Z :=
  let! o := number (sp_offset s) in
  let! c := number (sp_scale s) in
  if Qeq_bool c 0 then Err ZeroDivisionError else let q := ((e - o) / c)%Q in Ok (round_half_even (Qnum q) (Zpos (Qden q))).

(** * HyperHeader (lines 536-767, 837-883) *)
(** guess_mode (lines 1554-1571) *)
Definition tem : pystr := str "TEM".
Definition sem : pystr := str "SEM".
Definition guess_mode (hv : option val) : res pystr :=
  match hv with None => Ok sem | Some v => let! q := number v in Ok (if Qle_bool q 30 then sem else tem) end.
Inductive scale := SOne | SGiven (v : val) | STimes (q : Q).
Record axis := { a_name : string; a_size : Z; a_offset : option val; a_scale : scale; a_units : pystr; a_nav : option bool }. (* offset None: zero *)
Definition micro : pystr := [181; 109].
(** The microscope (lines 580-613) *)
Record scope := { sc_sem : dict; sc_stage : dict; sc_dsp : dict; sc_hv : option val; sc_mode : pystr; sc_name : pystr }.
Definition res_of (k : string) (s : scope) : scale := match lookup (str k) (sc_sem s) with Some v => SGiven v | None => SOne end.
Definition units_of (s : scope) : pystr := match lookup (str "DX") (sc_sem s) with Some _ => micro | None => str "pix" end.
Definition microscope (root : xml) (name : pystr) (instrument : option pystr) : res scope :=
  let! a := node [inst "TRTSEMData"] root in let! sem := todict a in
  let! b := node [inst "TRTSEMStageData"] root in let! stage := todict b in
  let! c := node [inst "TRTDSPConfiguration"] root in let! dsp := todict c in
  let hv := get "HV" sem in
  let! mode := match instrument with Some i => Ok i | None => guess_mode hv end in
  Ok {| sc_sem := sem; sc_stage := stage; sc_dsp := dsp; sc_hv := hv; sc_mode := mode; sc_name := name |}.

(** Pictures (lines 615-689, 856-883): the metadata has the mode, the beam energy and magnification, the name and the title *)
Record picture := { p_data : list Z; p_axes : list axis; p_mode : pystr; p_beam : option val; p_mag : option val; p_sample : pystr; p_title : option pystr;
                    p_marker : option (Q * Q * Q * Q); p_file : option pystr }.
Fixpoint groups (fuel : nat) (n : nat) (l : list Z) : list Z :=
  match fuel, l with S k, _ :: _ => le_val (firstn n l) :: groups k n (skipn n l) | _, _ => [] end.
(** np.frombuffer(raw, dtype="u" + size) *)
Definition frombuffer (size : pystr) (raw : list Z) : res (list Z) :=
  let! n := (if eqb_str size (str "1") then Ok 1 else if eqb_str size (str "2") then Ok 2 else if eqb_str size (str "4") then Ok 4
             else if eqb_str size (str "8") then Ok 8 else Err TypeError) in
  if zlen raw mod n =? 0 then Ok (groups (List.length raw) (Z.to_nat n) raw) else Err ValueError.
Definition any (l : list Z) : bool := existsb (fun x => negb (x =? 0)) l.
Definition plane (s : scope) (h w : Z) (size : pystr) (marker : option (Q * Q * Q * Q)) (img : xml) : res (list picture) :=
  let! d := node [plain "Data"] img in
  let! raw := match x_text d with [] => Err AttributeError | t => Ok (e_base64 E t) end in
  let! array := frombuffer size raw in
  if any array then
    if (0 <=? h) && (0 <=? w) && (zlen array =? h * w) then
      let title := match find [plain "Description"] img with None => None | Some t => Some (match x_text t with [] => str "None" | u => u end) end in
      Ok [{| p_data := array;
             p_axes := [{| a_name := "height"; a_size := h; a_offset := None; a_scale := res_of "DY" s; a_units := units_of s; a_nav := None |};
                        {| a_name := "width"; a_size := w; a_offset := None; a_scale := res_of "DX" s; a_units := units_of s; a_nav := None |}];
             p_mode := sc_mode s; p_beam := sc_hv s; p_mag := lookup (str "Mag") (sc_sem s); p_sample := sc_name s; p_title := title;
             p_marker := marker; p_file := None |}]
    else Err ValueError
  else Ok [].
Record image := { im_width : Z; im_height : Z; im_pictures : list picture }.
Definition factor (c : scale) : res Q := match c with SOne => Ok 1%Q | SGiven v => number v | STimes q => Ok q end.
(** The frame of the map in the overview (lines 638-664): centre, width and height *)
Definition overlay (s : scope) (e : xml) : res (option (Q * Q * Q * Q)) :=
  match find [plain "ChildClassInstances"; named "Map"; plain "TRTSolidOverlayElement"; plain "TRTBasicLineOverlayElement"; plain "TRTOverlayElement"] e with
  | None => Ok None
  | Some n =>
      let! d := todict n in
      let! o := key "TRTOverlayElement" d in
      let! od := dict_of o in
      let! r := key "Rect" od in
      let! rd := dict_of r in
      let side k c := let! v := key k rd in let! q := number v in let! f := factor (res_of c s) in Ok (q * f)%Q in
      let! x1 := side "Left"%string "DX"%string in
      let! x2 := side "Right"%string "DX"%string in
      let! y1 := side "Top"%string "DY"%string in
      let! y2 := side "Bottom"%string "DY"%string in
      Ok (Some (x1 + (x2 - x1) / 2, y1 + (y2 - y1) / 2, x2 - x1, y2 - y1)%Q)
  end.
Fixpoint planes (s : scope) (e : xml) (h w : Z) (size : pystr) (marker : option (Q * Q * Q * Q)) (l : list Z) : res (list picture) :=
  match l with
  | [] => Ok []
  | i :: l =>
      let! img := node [(str "Plane" ++ str_int i, [])] e in
      let! a := plane s h w size marker img in
      let! b := planes s e h w size marker l in
      Ok (a ++ b)
  end.
Definition parse_image (s : scope) (e : xml) (overview : bool) : res image :=
  let! marker := (if overview then overlay s e else Ok None) in
  let! wn := node [plain "Width"] e in let! w := int_of wn in
  let! hn := node [plain "Height"] e in let! h := int_of hn in
  let! size := node [plain "ItemSize"] e in
  let! _ := match x_text size with [] => Err TypeError | _ => Ok tt end in
  let! cn := node [plain "PlaneCount"] e in let! count := int_of cn in
  let! l := planes s e h w (x_text size) marker (zseq 0 (Z.to_nat count)) in
  Ok {| im_width := w; im_height := h; im_pictures := l |}.
(** The picture without a name, the last of them (lines 691-711) *)
Definition unnamed (e : xml) : bool := match lookup (str "Name") (x_attrs e) with None | Some [] => true | Some _ => false end.
Fixpoint last_unnamed (l : list xml) : option xml :=
  match l with [] => None | e :: l => match last_unnamed l with Some n => Some n | None => if unnamed e then Some e else None end end.
Definition overview_path : list step :=
  [inst "TRTContainerClass"; plain "ChildClassInstances"; named "OverviewImages"; plain "ChildClassInstances"; inst "TRTImageData"].
Definition images (s : scope) (root : xml) (version : Z) : res (image * option image) :=
  let! n := match last_unnamed (findall [inst "TRTImageData"] root) with Some n => Ok n | None => Err NameError end in
  let! i := parse_image s n false in
  if version =? 2 then
    match findall overview_path root with
    | [] => Ok (i, None)
    | n :: _ => let! o := parse_image s n true in Ok (i, Some o)
    end
  else Ok (i, None).
(** _set_elements (lines 713-735): an AttributeError ends the loop quietly *)
Definition elements_path : list step :=
  [inst "TRTContainerClass"; plain "ChildClassInstances"; inst "TRTElementInformationList"; inst "TRTSpectrumRegionList"; plain "ChildClassInstances"].
Definition elements := list (pystr * (val * option val)).
Fixpoint regions (l : list xml) (d : elements) : res elements :=
  match l with
  | [] => Ok d
  | e :: l =>
      match todict e with
      | Err AttributeError => Ok d
      | Err x => Err x
      | Ok t =>
          let! n := key "XmlClassName" t in
          let! name := match n with VLeaf (LText s) => Ok s | _ => Err TypeError end in
          let line := match lookup (str "Line") t with Some v => v | None => VLeaf (LText (str "Ka")) end in
          regions l (put name (line, lookup (str "Energy") t) d)
      end
  end.
Definition set_elements (root : xml) : res elements :=
  match find elements_path root with None => Ok [] | Some e => regions (findall [inst "TRTSpectrumRegion"] e) [] end.
(** __init__ (lines 556-578) and _set_sum_edx (lines 737-740) *)
Record header := { h_name : pystr; h_date : pystr * pystr; h_version : Z; h_scope : scope; h_image : image; h_overview : option image; h_elements : elements;
                   h_lines : list Q; h_channels : Z; h_maps : Z; h_spectra : list (Z * spectrum) }.
Definition integer (s : pystr) : res Z :=
  match e_literal E s with LOther n => match e_num E n with Some q => Ok (Z.quot (Qnum q) (Zpos (Qden q))) | None => Err TypeError end | LText _ => Err ValueError end.
Definition sum_spectra (root : xml) (l : list Z) : res (list (Z * spectrum)) :=
  mapM (fun i => let! n := node [(str "SpectrumData" ++ str_int i, []); plain "ClassInstance"] root in let! s := edx n in Ok (i, s)) l.
Definition hyper_header (top : xml) (indexes : list Z) (instrument : option pystr) : res header :=
  let! root := node [inst "TRTSpectrumDatabase"] top in
  let name := match lookup (str "Name") (x_attrs root) with Some s => s | None => str "Undefined" end in
  let! hd := node [plain "Header"] root in
  let! d := iso hd in
  let! date := match d with Some p => Ok p | None => Err TypeError end in
  let! vn := node [plain "FileVersion"] hd in
  let! version := match x_text vn with [] => Err ValueError | t => integer t end in
  let! s := microscope root name instrument in
  let! (i, o) := images s root version in
  let! els := set_elements root in
  let! ln := node [plain "LineCounter"] root in let! lines := e_list E (x_text ln) in
  let! cn := node [plain "ChCount"] root in let! channels := int_of cn in
  let! mn := node [plain "DetectorCount"] root in let! maps := int_of mn in
  let! spectra := sum_spectra root indexes in
  Ok {| h_name := name; h_date := date; h_version := version; h_scope := s; h_image := i; h_overview := o; h_elements := els; h_lines := lines;
        h_channels := channels; h_maps := maps; h_spectra := spectra |}.
Definition spectrum_of (h : header) (i : Z) : res spectrum :=
  match List.find (fun p => fst p =? i) (h_spectra h) with Some p => Ok (snd p) | None => Err KeyError end.
(** get_consistent_min_channels (lines 742-767) *)
Definition min_channels (h : header) (s : spectrum) : res Z :=
  let! a := number (sp_amp s) in
  match sc_hv (h_scope h) with
  | None => Ok (zlen (sp_data s))
  | Some v =>
      let! q := number v in
      if negb (Qle_bool q 0) && negb (Qle_bool (a / 1000) q) then channel s q else Ok (zlen (sp_data s))
  end.
(** calc_real_time (lines 844-854) *)
Definition real_time (h : header) : res Q :=
  let! a := key "LineAverage" (sc_dsp (h_scope h)) in
  let! b := key "PixelAverage" (sc_dsp (h_scope h)) in
  let! c := key "PixelTime" (sc_dsp (h_scope h)) in
  let! qa := number a in let! qb := number b in let! qc := number c in
  Ok (fold_right Qplus 0 (h_lines h) * qa * qb * qc * inject_Z (im_width (h_image h)) * (1 # 1000000))%Q.
(** gen_detector_node (lines 1574-1586) *)
Record detector := { d_elev : val; d_type : val; d_azimuth : option val; d_real : option Q; d_live : option Q }.
Definition detector_of (s : spectrum) : res detector :=
  let! (r, l) :=
    match lookup (str "RealTime") (sp_hardware s) with
    | None => Ok (None, None)
    | Some v => let! q := number v in let! l := key "LifeTime" (sp_hardware s) in let! p := number l in Ok (Some (q / 1000)%Q, Some (p / 1000)%Q)
    end in
  Ok {| d_elev := sp_elev s; d_type := sp_type s; d_azimuth := lookup (str "AzimutAngle") (sp_esma s); d_real := r; d_live := l |}.

(** * BCF_reader (lines 901-1003) *)
Inductive cutoff := CNumber (q : Q) | CText (s : pystr) | CNone.
Inductive choice := INone | IText (s : pystr) | INumber (n : Z) | IOther.
Definition last_digit (s : pystr) : res Z := match rev s with c :: _ => parse_int [c] | [] => Err IndexError end.
Definition indexes_of (names : list pystr) : res (list Z) := mapM last_digit (filter (contains (str "SpectrumData")) names).
Fixpoint least (x : Z) (l : list Z) : Z := match l with [] => x | y :: l => least (if y <? x then y else x) l end.
Definition minimum (l : list Z) : res Z := match l with [] => Err ValueError | x :: l => Ok (least x l) end.
Definition check_index (l : list Z) (i : choice) : res Z :=
  match i with INumber n => if existsb (Z.eqb n) l then Ok n else Err IndexError | _ => Err TypeError end.
Definition n_channels (h : header) (s : spectrum) (c : cutoff) : res Z :=
  match c with
  | CNumber q => channel s q
  | CText t =>
      if eqb_str t (str "zealous") then match last_nonzero (sp_data s) 0 with Some i => Ok (i + 1) | None => Err IndexError end
      else if eqb_str t (str "auto") then min_channels h s
      else Ok (zlen (sp_data s))
  | CNone => Ok (zlen (sp_data s))
  end.
Fixpoint greatest (x : Z) (l : list Z) : Z := match l with [] => x | y :: l => greatest (if x <? y then y else x) l end.
Definition hypermap (h : header) (i ds : Z) (c : cutoff) : res (Z * Z * Z * list Z) :=
  let! s := spectrum_of h i in
  let! n := n_channels h s c in
  if ds =? 0 then Err ZeroDivisionError else
  let shape := (cdiv (im_height (h_image h)) ds, cdiv (im_width (h_image h)) ds, n) in
  let! top := match sp_data s with [] => Err ValueError | x :: l => Ok (greatest x l) end in
  let! data := e_parse E i shape (map_depth top (im_width (h_image h)) (im_height (h_image h)) ds (negb (e_fast E))) ds in
  Ok (shape, data).

(** * Signals (lines 1355-1541) *)
Definition upper_char (c : Z) : Z := if (97 <=? c) && (c <=? 122) then c - 32 else c.
Definition capitalize (s : pystr) : pystr := match s with [] => [] | c :: s => upper_char c :: lower s end.
(** parse_line (lines 1531-1541) *)
Definition parse_line (v : val) : res pystr :=
  match v with
  | VLeaf (LText s) => Ok (capitalize (match s with [c] => [c; 97] | c1 :: c2 :: _ :: _ => [c1; c2] | _ => s end))
  | _ => Err TypeError
  end.
Definition xray_lines (l : elements) : res (list pystr) := mapM (fun p => let! t := parse_line (fst (snd p)) in Ok (fst p ++ 95 :: t)) l.
Record signal := { s_data : list Z; s_axes : list axis; s_mode : pystr; s_beam : option val; s_mag : option val; s_detector : detector;
                   s_title : pystr; s_file : pystr; s_date : pystr * pystr; s_sample : pystr; s_elements : val; s_lines : list pystr; s_type : pystr }.
(** get_acq_instrument_dict(detector=True) (lines 615-634) and one item of bcf_hyperspectra (lines 1454-1523): the width has the scale of the height *)
Definition map_signal (file : pystr) (h : header) (ds : Z) (c : cutoff) (i : Z) : res signal :=
  let! (sh, data) := hypermap h i ds c in
  let '(hh, ww, n) := sh in
  let! s := spectrum_of h i in
  let sc := h_scope h in
  let! y := factor (res_of "DY" sc) in
  let! d := detector_of s in
  let! t := real_time h in
  let! lines := xray_lines (h_elements h) in
  let spatial name size := {| a_name := name; a_size := size; a_offset := None; a_scale := STimes (y * inject_Z ds)%Q; a_units := units_of sc; a_nav := Some true |} in
  Ok {| s_data := data;
        s_axes := [spatial "height"%string hh; spatial "width"%string ww;
                   {| a_name := "Energy"; a_size := n; a_offset := Some (sp_offset s); a_scale := SGiven (sp_scale s); a_units := str "keV"; a_nav := Some false |}];
        s_mode := sc_mode sc; s_beam := match sp_hv s with Some v => Some v | None => sc_hv sc end; s_mag := lookup (str "Mag") (sc_sem sc);
        s_detector := {| d_elev := d_elev d; d_type := d_type d; d_azimuth := d_azimuth d; d_real := Some t; d_live := d_live d |};
        s_title := str "EDX"; s_file := file; s_date := h_date h; s_sample := h_name h;
        s_elements := VList (map (fun n => VLeaf (LText n)) (sort_str (map fst (h_elements h)))); s_lines := sort_str lines;
        s_type := str "EDS_" ++ sc_mode sc |}.
Inductive item := Picture (p : picture) | Signal (s : signal).
Definition with_file (f : pystr) (p : picture) : picture :=
  {| p_data := p_data p; p_axes := p_axes p; p_mode := p_mode p; p_beam := p_beam p; p_mag := p_mag p; p_sample := p_sample p; p_title := p_title p;
     p_marker := p_marker p; p_file := Some f |}.
(** bcf_images (lines 1413-1423) *)
Definition bcf_images (file : pystr) (h : header) : list item :=
  map (fun p => Picture (with_file file p)) (im_pictures (h_image h) ++ match h_overview h with Some o => im_pictures o | None => [] end).
(** bcf_hyperspectra (lines 1426-1524) *)
Definition hyperspectra (file : pystr) (h : header) (av : list Z) (i : choice) (ds : Z) (c : cutoff) : res (list item) :=
  let! l := match i with
            | INone => let! m := minimum av in Ok [m]
            | IText t => if eqb_str t (str "all") then Ok av else Err TypeError
            | _ => let! n := check_index av i in Ok [n]
            end in
  mapM (fun j => let! s := map_signal file h ds c j in Ok (Signal s)) l.
(** bcf_reader (lines 1355-1410): [names] are those in the folder EDSDatabase, [top] is the sanitized header *)
Definition bcf_reader (file : pystr) (names : list pystr) (top : xml) (select : option pystr) (i : choice) (ds : Z) (c : cutoff) (instrument : option pystr) : res (list item) :=
  let! av := indexes_of names in
  let! _ := minimum av in
  let! h := hyper_header top av instrument in
  let is k := match select with Some s => eqb_str s (str k) | None => false end in
  if is "image"%string then Ok (bcf_images file h)
  else if is "spectrum_image"%string then hyperspectra file h av i ds c
  else let! m := hyperspectra file h av i ds c in Ok (bcf_images file h ++ m).
(** spx_reader (lines 1010-1075) *)
Definition spx_reader (file : pystr) (top : xml) : res signal :=
  let! sp := node [inst "TRTSpectrum"] top in
  let name := match lookup (str "Name") (x_attrs sp) with Some s => s | None => str "Undefinded" end in
  let! s := edx sp in
  let! mode := guess_mode (sp_hv s) in
  let! d := detector_of s in
  let! date := match sp_date s with Some p => Ok p | None => Err AttributeError end in
  let! _ := match find [inst "TRTResult"] sp with Some r => dictionarize x2d r | None => Ok VNone end in
  let! els :=
    match find [inst "TRTPSEElementList"] sp with
    | None => Ok VNone
    | Some e => let! t := todict e in let! v := key "ChildClassInstances" t in let! k := dict_of v in key "XmlClassName" k
    end in
  Ok {| s_data := sp_data s;
        s_axes := [{| a_name := "Energy"; a_size := zlen (sp_data s); a_offset := Some (sp_offset s); a_scale := SGiven (sp_scale s); a_units := str "keV"; a_nav := Some false |}];
        s_mode := mode; s_beam := sp_hv s; s_mag := None; s_detector := d; s_title := str "EDX"; s_file := file; s_date := date; s_sample := name;
        s_elements := els; s_lines := []; s_type := str "EDS_" ++ mode |}.
End Reader.
