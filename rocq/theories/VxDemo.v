(** Examples for the properties C122 to C128, and the claims that do not hold. *)
From Coq Require Import QArith.
From Verif Require Import Base Text Utf8 HierModel SfsModel RowMajor SurFloat RenModel RenMeta FeiModel FeiSpec VxModel VxProps VxImage VxSpectrum VxStream VxMeta.
Local Open Scope Z_scope.

Definition s0 (s : string) : json := JStr (str s).
Definition dct (l : list (string * json)) : json := JDict (map (fun p => (str (fst p), snd p)) l).
Definition numbers (a b c d : string) : list (string * json) :=
  [("PixelSize"%string, dct [("width"%string, s0 a); ("height"%string, s0 b)]); ("Offset"%string, dct [("x"%string, s0 c); ("y"%string, s0 d)])].
Definition image_json (rest : list (string * json)) : json :=
  dct ([("BinaryResult"%string, dct ([("DetectorIndex"%string, s0 "0"); ("Detector"%string, s0 "SuperXG1")] ++ numbers "2" "3" "4" "5" ++ [("PixelUnitX"%string, s0 "m"); ("PixelUnitY"%string, s0 "m")]));
        ("Acquisition"%string, dct [("AcquisitionStartDatetime"%string, dct [("DateTime"%string, s0 "1000000000")])]);
        ("Scan"%string, dct [("FrameTime"%string, s0 "6")])] ++ rest).
Definition detectors (l : list (string * string)) : string * json :=
  ("Detectors"%string, dct (map (fun p => (fst p, dct [("DetectorName"%string, s0 (snd p)); ("Dispersion"%string, s0 (if eqb_str (str (snd p)) (str "SuperXG11") then "10" else "5")); ("OffsetEnergy"%string, s0 "250")])) l)).
(** the texts of the example, named by one letter *)
Definition texts : list (string * json) :=
  [("V"%string, dct [("format"%string, s0 "Velox"); ("version"%string, s0 "11")]);
   ("I"%string, image_json [detectors [("Detector-0"%string, "SuperXG1"%string)]]);
   ("J"%string, image_json [detectors [("Detector-0"%string, "SuperXG11"%string); ("Detector-1"%string, "SuperXG1"%string)]]);
   ("N"%string, dct [("BinaryResult"%string, dct (numbers "1" "1" "0" "0" ++ [("PixelUnitX"%string, s0 "m")])); ("Acquisition"%string, dct []); ("CustomProperties"%string, s0 "none"); detectors []]);
   ("S"%string, dct [("bincount"%string, s0 "4"); ("StreamEncoding"%string, s0 "uint16")]);
   ("T"%string, dct [("bincount"%string, s0 "2"); ("StreamEncoding"%string, s0 "uint16")]);
   ("P"%string, dct [("data"%string, s0 "/SharedProperties/D"); ("id"%string, s0 "Cu")]);
   ("D"%string, dct [("dataPath"%string, s0 "/Data/Image/b")]);
   ("A"%string, dct [("Data"%string, dct [("offset"%string, s0 "100"); ("dispersion"%string, s0 "2")])]);
   ("O"%string, dct [("dataPath"%string, s0 "/Data/Image/a"); ("detector"%string, s0 "HAADF")]);
   ("E"%string, dct [("endFramePosition"%string, s0 "2")])].
Definition demo (offset : Z) : env :=
  {| e_json := fun t => match lookup t (map (fun p => (str (fst p), snd p)) texts) with Some j => Ok j | None => Err ValueError end;
     e_float := fun t => match parse_int t with Ok z => Some (inject_Z z) | Err _ => None end;
     e_show := fun _ => []; e_unit := fun u => if eqb_str u (str "s") then Some (1, 1%Q) else if eqb_str u (str "mm") then Some (0, 1 # 1000) else if eqb_str u (str "m") then Some (0, 1%Q) else None;
     e_compact := fun q u => if eqb_str u (str "m") && Qle_bool q 2 then str "mm" else u; e_offset := fun _ => offset; e_zone := str "UTC" |}.
Notation E0 := (demo 0).
Definition cell_of (s : string) : cells := [str s].
Definition groups : list (pystr * list (pystr * entry)) :=
  [(str "Displays", [(str "ImageDisplay", Sub [(str "p", cell_of "P")])]); (str "Operations", [(str "StemInputOperation", Sub [(str "o", cell_of "O")])]); (str "SharedProperties", [(str "D", Cells (cell_of "D"))])].
Definition image_of (ys xs n : Z) (flat : list Z) (m : string) : image := {| i_type := str "uint16"; i_names := None; i_shape := [ys; xs; n]; i_flat := map Real flat; i_meta := str m ++ [0; 0] |}.
Definition im_a := image_of 1 2 2 [1; 2; 3; 4] "I".
Definition im_b := image_of 2 1 1 [5; 6] "I".
Definition words1 : list Z := [0; 65535; 3; 3; 65535; 1; 65535; 65535].
Definition words2 : list Z := [65535; 3; 65535; 65535; 2; 65535].
Definition stream_of (s : string) (w : list Z) : stream := {| st_settings := cell_of s; st_meta := str "I"; st_words := w |}.
Definition spec_of (m : string) : spectrum := {| sp_shape := [3; 1]; sp_flat := [7; 8; 9]; sp_meta := str m |}.
Definition eels_of (shape flat : list Z) : eels := {| el_shape := shape; el_flat := flat; el_meta := str "I"; el_acquisition := str "A" |}.
Definition data0 : data :=
  {| d_image := Some [(str "a", im_a); (str "b", im_b)]; d_spectrum := Some [(str "s", spec_of "I")];
     d_si := Some [(str "i", {| si_settings := Some (cell_of "E"); si_meta := str "I" |})];
     d_stream := Some [(str "1", stream_of "S" words1); (str "2", stream_of "S" words2)]; d_eels := Some [(str "e", eels_of [3; 2; 2] (zseq 0 12))] |}.
Definition file_of (d : data) : file := {| f_name := str "/x/y.emd"; f_version := Some (cell_of "V"); f_groups := groups; f_presentation := None; f_data := d |}.
Definition opts (select : option string) (sum_frames sum_detectors : bool) : options :=
  {| o_lazy := false; o_select := option_map str select; o_first := 0; o_last := None; o_sum_frames := sum_frames; o_sum_detectors := sum_detectors; o_rebin := 1; o_dtype := None; o_stack := true |}.
Definition fixed_of (o : options) : fixed :=
  {| c_opt := o; c_file := str "/x/y.emd"; c_version := JStr (str "11"); c_stream := true; c_image := false; c_groups := []; c_labels := [(str "b", s0 "Cu")] |}.
Definition st0 (o : options) : state := {| r_detector := None; r_shape := Some [2; 1]; r_last := None; r_frames := None; r_dtype := None; r_out := [] |}.

(** * C122 *)
Example C122_demo : exists l, read_file E0 (opts None true true) (file_of data0) = Ok l /\ types l = [str "EDS_TEM"; []; []; str "EELS"; str "EDS_TEM"] /\
  map (fun g => m_title (s_md g)) l = [Some (s0 "EDS"); Some (s0 "HAADF"); Some (s0 "Cu"); Some (s0 "EELS"); Some (s0 "EDS")].
Proof. eexists. split; [vm_compute; reflexivity|]. split; vm_compute; reflexivity. Qed.
Example C122_images : exists l, read_file E0 (opts (Some "images"%string) true true) (file_of data0) = Ok l /\ types l = [[]; []].
Proof. eexists. split; [vm_compute; reflexivity|]. vm_compute. reflexivity. Qed.
Example C122_unknown_demo : ~ known (Some (str "spectra")).
Proof. intros [H|[H|H]]; discriminate H. Qed.
(** the documented value "image" *)
Theorem C122_image_refuted : read_file E0 (opts (Some "image"%string) true true) (file_of data0) = Err ValueError.
Proof. vm_compute. reflexivity. Qed.
(** spectra beside images, without spectrum image, are lost *)
Theorem C122_spectra_refuted : exists d l, count (d_spectrum d) = 1%nat /\ read_file E0 (opts None true true) (file_of d) = Ok l /\ types l = [[]; []].
Proof. exists {| d_image := d_image data0; d_spectrum := d_spectrum data0; d_si := None; d_stream := None; d_eels := None |}. eexists. split; [reflexivity|]. split; [vm_compute; reflexivity|]. vm_compute. reflexivity. Qed.
Example C122_is_velox : is_velox E0 (file_of data0) = Ok true.
Proof. vm_compute. reflexivity. Qed.

(** * C123 *)
Example C123_demo : exists g s, read_image E0 (fixed_of (opts None true true)) (str "a") im_a (st0 (opts None true true)) = Ok (g, s) /\
  s_data g = Arr [2; 1; 2] [Real 1; Real 3; Real 2; Real 4] (str "float64") /\ map x_name (s_axes g) = [str "Time"; str "y"; str "x"] /\
  map (fun x => option_map Qred (x_scale x)) (s_axes g) = [Some (6 # 1)%Q; Some (3000 # 1)%Q; Some (2000 # 1)%Q] /\ map x_units (s_axes g) = [Some (str "s"); Some (str "mm"); Some (str "mm")].
Proof. do 2 eexists. split; [vm_compute; reflexivity|]. repeat split; vm_compute; reflexivity. Qed.
Example C123_lazy_demo : exists g s, read_image E0 (lazily true (fixed_of (opts None true true))) (str "a") im_a (st0 (opts None true true)) = Ok (g, s) /\ s_data g = Arr [2; 1; 2] [Real 1; Real 3; Real 2; Real 4] (str "uint16").
Proof. do 2 eexists. split; [vm_compute; reflexivity|]. vm_compute. reflexivity. Qed.
Example C123_plane_demo : exists r, plane E0 (dct [("width"%string, s0 "2"); ("height"%string, s0 "3")]) (dct [("x"%string, s0 "4"); ("y"%string, s0 "5")]) (str "m") 2 = Ok r.
Proof. eexists. vm_compute. reflexivity. Qed.
(** an image that names no detector takes the name of the image before it *)
Theorem C123_stale_refuted : exists c i s g s', read_image E0 c (str "z") i s = Ok (g, s') /\ lookup (str "z") (c_labels c) = None /\
  (forall om, original E0 c (i_meta i) = Ok om -> detector_information E0 om = Ok JNull) /\ r_detector s = Some (s0 "HAADF") /\ m_title (s_md g) = Some (s0 "HAADF").
Proof.
  exists (fixed_of (opts None true true)), (image_of 1 1 1 [1] "N"), {| r_detector := Some (s0 "HAADF"); r_shape := None; r_last := None; r_frames := None; r_dtype := None; r_out := [] |}. do 2 eexists.
  split; [vm_compute; reflexivity|]. split; [reflexivity|]. split; [|split; vm_compute; reflexivity]. intros om H. vm_compute in H. injection H as <-. vm_compute. reflexivity.
Qed.

(** * C124 *)
Example C124_demo : exists g, read_spectrum E0 (fixed_of (opts None true true)) (spec_of "I") (st0 (opts None true true)) = Ok g /\ s_data g = Arr [3] [Real 7; Real 8; Real 9] [] /\
  map (fun x => (option_map Qred (x_scale x), Qred (x_offset x))) (s_axes g) = [(Some (1 # 200)%Q, (1 # 4)%Q)].
Proof. eexists. split; [vm_compute; reflexivity|]. split; vm_compute; reflexivity. Qed.
(** rebinning stretches the axis of a single spectrum, which is not rebinned *)
Theorem C124_rebin_refuted : exists o o' g g', o_rebin o = 1 /\ o_rebin o' = 2 /\ read_spectrum E0 (fixed_of o) (spec_of "I") (st0 o) = Ok g /\ read_spectrum E0 (fixed_of o') (spec_of "I") (st0 o') = Ok g' /\
  s_data g = s_data g' /\ map (fun x => option_map Qred (x_scale x)) (s_axes g) = [Some (1 # 200)%Q] /\ map (fun x => option_map Qred (x_scale x)) (s_axes g') = [Some (1 # 100)%Q].
Proof.
  exists (opts None true true), {| o_lazy := false; o_select := None; o_first := 0; o_last := None; o_sum_frames := true; o_sum_detectors := true; o_rebin := 2; o_dtype := None; o_stack := true |}. do 2 eexists.
  do 2 (split; [reflexivity|]). split; [vm_compute; reflexivity|]. split; [vm_compute; reflexivity|]. repeat split; vm_compute; reflexivity.
Qed.
(** the calibration is that of the first detector whose name contains the name of the wanted one *)
Theorem C124_detector_refuted : exists g, read_spectrum E0 (fixed_of (opts None true true)) (spec_of "J") (st0 (opts None true true)) = Ok g /\
  map (fun x => option_map Qred (x_scale x)) (s_axes g) = [Some (1 # 100)%Q] /\
  exists om, original E0 (fixed_of (opts None true true)) (str "J") = Ok om /\ (let! b := item (JDict om) (str "BinaryResult") in item b (str "Detector")) = Ok (s0 "SuperXG1") /\
    (let! d := item (JDict om) (str "Detectors") in let! d := item d (str "Detector-1") in item d (str "DetectorName")) = Ok (s0 "SuperXG1") /\
    (let! d := item (JDict om) (str "Detectors") in let! d := item d (str "Detector-1") in item d (str "Dispersion")) = Ok (s0 "5").
Proof. eexists. split; [vm_compute; reflexivity|]. split; [vm_compute; reflexivity|]. eexists. split; [vm_compute; reflexivity|]. repeat split; vm_compute; reflexivity. Qed.

(** * C125 *)
Definition readout (v : values) : list Z :=
  match v with
  | Cube ys xs n a _ => flat_map (fun y => flat_map (fun x => map (fun k => a y x k) (zseq 0 (Z.to_nat n))) (zseq 0 (Z.to_nat xs))) (zseq 0 (Z.to_nat ys))
  | Frames m ys xs n a _ => flat_map (fun f => flat_map (fun y => flat_map (fun x => map (fun k => a f y x k) (zseq 0 (Z.to_nat n))) (zseq 0 (Z.to_nat xs))) (zseq 0 (Z.to_nat ys))) (zseq 0 (Z.to_nat m))
  | Arr _ _ _ => []
  end.
Definition stream_run (o : options) : res (list (list Z)) := let! s := read_spectrum_stream E0 (fixed_of o) true {| d_image := None; d_spectrum := None; d_si := d_si data0; d_stream := d_stream data0; d_eels := None |} (st0 o) in Ok (map (fun g => readout (s_data g)) (r_out s)).
(** two frames of two pixels with four channels; the first detector has an event in channel 0, then two in channel 3 *)
Example C125_summed_demo : stream_run (opts None true true) = Ok [[1; 1; 0; 0; 0; 0; 1; 3]] /\ stream_run (opts None false true) = Ok [[1; 0; 0; 0; 0; 0; 0; 3; 0; 1; 0; 0; 0; 0; 1; 0]].
Proof. split; vm_compute; reflexivity. Qed.
Example C125_each_demo : stream_run (opts None true false) = Ok [[1; 1; 0; 0; 0; 0; 0; 2]; [0; 0; 0; 0; 0; 0; 1; 1]].
Proof. vm_compute. reflexivity. Qed.
Example C125_good_demo : good (opts None true true) 2 1 2 /\ end_frame E0 data0 = Some 2.
Proof. split; [repeat split; cbn; lia|vm_compute; reflexivity]. Qed.
Example C125_computed_demo : computed_frames 2 words1 = Ok 2 /\ computed_frames 3 words1 = Ok 2.
Proof. split; vm_compute; reflexivity. Qed.
(** the shape of the spectrum image is that of the last image read: all of them, or only the first when spectrum images are selected *)
Definition sizes (r : res (list signal)) : res (list (list Z)) := let! l := r in Ok (map (fun g => map x_size (s_axes g)) l).
Theorem C125_shape_refuted : sizes (read_file E0 (opts None true true) (file_of data0)) = Ok [[3]; [2; 1; 2]; [2; 1]; [2; 3; 2]; [2; 1; 4]] /\
  sizes (read_file E0 (opts (Some "spectrum_image"%string) true true) (file_of data0)) = Ok [[2; 3; 2]; [1; 2; 4]].
Proof. split; vm_compute; reflexivity. Qed.
(** the axes take the number of channels of the first stream, also for a stream with another one *)
Definition bins_run : res (list (Z * list Z)) :=
  let! s := read_spectrum_stream E0 (fixed_of (opts None true false)) true
    {| d_image := None; d_spectrum := None; d_si := d_si data0; d_stream := Some [(str "1", stream_of "S" [0; 65535]); (str "2", stream_of "T" [1; 65535])]; d_eels := None |} (st0 (opts None true false)) in
  Ok (map (fun g => (match s_data g with Cube _ _ n _ _ => n | _ => 0 end, map x_size (s_axes g))) (r_out s)).
Theorem C125_bins_refuted : bins_run = Ok [(4, [2; 1; 4]); (2, [2; 1; 4])].
Proof. vm_compute. reflexivity. Qed.
(** the unit of a spectrum image is chosen for the width when the frames are summed and for the height when they are not *)
Theorem C125_unit_refuted : exists om a b, original E0 (fixed_of (opts None true true)) (str "I") = Ok om /\
  stream_axes E0 (fixed_of (opts None true true)) om 2 3 2 4 = Ok a /\ stream_axes E0 (fixed_of (opts None false true)) om 2 3 2 4 = Ok b /\
  map x_units a = [Some (str "m"); Some (str "m"); Some (str "keV")] /\ map x_units b = [Some (str "s"); Some (str "mm"); Some (str "mm"); Some (str "keV")].
Proof. do 3 eexists. split; [vm_compute; reflexivity|]. split; [vm_compute; reflexivity|]. split; [vm_compute; reflexivity|]. split; vm_compute; reflexivity. Qed.

(** * C126 *)
Example C126_demo : convert_datetime (demo 7200) (2000000001 # 2) = Ok (str "2001-09-09", str "03:46:40.500000") /\ date_ok 2001 9 9 /\ time_ok 3 46 40 500000 /\
  round_div (2000000001 * 1000000) 2 + 7200 * 1000000 = moment 2001 9 9 3 46 40 500000.
Proof. split; [vm_compute; reflexivity|]. split; [split; [lia|split; [lia|vm_compute; discriminate]]|]. split; [repeat split; lia|vm_compute; reflexivity]. Qed.
Example C126_west_demo : convert_datetime (demo (-18000)) 1000000000 = Ok (str "2001-09-08", str "20:46:40-05:00").
Proof. vm_compute. reflexivity. Qed.
Example C126_none_demo : exists om, original E0 (fixed_of (opts None true true)) (str "N") = Ok om /\ metadata_of E0 (fixed_of (opts None true true)) None [] om = Ok {| m_file := str "y.emd"; m_title := None; m_date := None; m_signal := [] |}.
Proof. eexists. split; [vm_compute; reflexivity|]. vm_compute. reflexivity. Qed.
Example C126_start_demo : exists om, original E0 (fixed_of (opts None true true)) (str "I") = Ok om /\ unix_time E0 om = Ok (Some 1000000000%Q).
Proof. eexists. split; [vm_compute; reflexivity|]. vm_compute. reflexivity. Qed.

(** * C127 *)
Definition cal0 : Q * Q * pystr * option (Q * Q) := (2%Q, 4%Q, str "m", Some (3%Q, 5%Q)).
(** the file names of the other signals have no directory *)
Theorem C127_filename_refuted : exists g, read_eels E0 (fixed_of (opts None true true)) cal0 (eels_of [2; 3] (zseq 0 6)) = Ok g /\ m_file (s_md g) = str "/x/y.emd" /\ basename (str "/x/y.emd") = str "y.emd".
Proof. eexists. split; [vm_compute; reflexivity|]. split; vm_compute; reflexivity. Qed.
Theorem C127_axes_refuted : exists g, read_eels E0 (fixed_of (opts None true true)) cal0 (eels_of [3; 2; 2] (zseq 0 12)) = Ok g /\
  s_data g = Arr [2; 3; 2] (map Real [0; 2; 4; 6; 8; 10; 1; 3; 5; 7; 9; 11]) [] /\ ~ axes_fit [2; 3; 2] (s_axes g).
Proof. eexists. split; [vm_compute; reflexivity|]. split; [vm_compute; reflexivity|]. intro F. specialize (F _ 1 (or_introl eq_refl) eq_refl). vm_compute in F. discriminate F. Qed.
Example C127_demo : exists s, read_eels_images E0 (fixed_of (opts None true true)) data0 (st0 (opts None true true)) = Ok s /\ types (r_out s) = [str "EELS"].
Proof. eexists. split; [vm_compute; reflexivity|]. vm_compute. reflexivity. Qed.

(** * C128 *)
Example C128_nul_demo : utf8_encode (str "I") = Ok (str "I") /\ (forall r, str "I" <> r ++ [0]) /\ exists j, parse_metadata E0 (str "I" ++ repeat 0 3) = Ok j /\ Some j = lookup (str "I") (map (fun p => (str (fst p), snd p)) texts).
Proof. split; [vm_compute; reflexivity|]. split; [|eexists; split; [vm_compute; reflexivity|vm_compute; reflexivity]]. intros r H. change (str "I") with ([] ++ [73]) in H. apply app_inj_tail in H. destruct H as [_ H]. discriminate H. Qed.
Example C128_group_demo : exists d, metadata_group E0 [(str "x", Cells (cell_of "D")); (str "y", Cells []); (str "z", Cells (cell_of "O"))] [] = Ok d /\ map fst d = [str "x"].
Proof. eexists. split; [vm_compute; reflexivity|]. vm_compute. reflexivity. Qed.
Example C128_elements_demo : convert_element_list [(str "q", dct [("elementSelection"%string, JList [s0 "29"; s0 "8"])])] = Ok [str "Cu"; str "O"].
Proof. vm_compute. reflexivity. Qed.
Example C128_original_demo : exists om, original E0 {| c_opt := opts None true true; c_file := []; c_version := JNull; c_stream := true; c_image := false; c_groups := [(str "Scan", s0 "group")]; c_labels := [] |} (str "I") = Ok om /\
  lookup (str "Scan") om = Some (s0 "group").
Proof. eexists. split; [vm_compute; reflexivity|]. vm_compute. reflexivity. Qed.
Example C128_mapping_demo : exists m, mapping_of (fixed_of (opts None true true)) true true = Ok m /\ List.length m = 19%nat.
Proof. eexists. split; [vm_compute; reflexivity|]. vm_compute. reflexivity. Qed.
Print Assumptions C122_image_refuted.
Print Assumptions C122_spectra_refuted.
Print Assumptions C123_stale_refuted.
Print Assumptions C124_rebin_refuted.
Print Assumptions C124_detector_refuted.
Print Assumptions C125_shape_refuted.
Print Assumptions C125_bins_refuted.
Print Assumptions C125_unit_refuted.
Print Assumptions C127_filename_refuted.
Print Assumptions C127_axes_refuted.
