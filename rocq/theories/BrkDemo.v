(** Examples for claims C135 to C139, and claims that do not hold. *)
From Coq Require Import QArith.
From Verif Require Import Base Bytes Text HierModel SfsModel BcfModel XmlModel BrkModel BrkPic BrkMap BrkMeta LogText.
Local Open Scope Z_scope.

Definition digits (s : pystr) : list Z := map (fun c => c - 48) s.
Definition world : env :=
  {| e_literal := fun s => match parse_int s with Ok n => LOther n | Err _ => LText s end; e_num := fun n => Some (inject_Z n);
     e_list := fun s => Ok (map inject_Z (digits s)); e_base64 := digits; e_layers := fun _ => Ok (Elem (str "Layers") [] [] [] [Elem (str "Layer0") [(str "Atom", str "6")] [] [] []]);
     e_date := fun s => if eqb_str s (str "2.1.2020 3:04:05") then Some (str "2020-01-02", str "03:04:05") else None;
     e_counts := digits; e_fast := true; e_parse := fun i sh _ _ => let '(h, w, n) := sh in Ok (repeat i (Z.to_nat (h * w * n))) |}.
Definition el (t text : string) (l : list xml) : xml := Elem (str t) [] (str text) [] l.
Definition ci (t : string) (l : list xml) : xml := Elem (str "ClassInstance") [(str "Type", str t)] [] [] l.
Definition ci_named (t n : string) (l : list xml) : xml := Elem (str "ClassInstance") [(str "Type", str t); (str "Name", str n)] [] [] l.
Definition dates : list xml := [el "Date" "2.1.2020" []; el "Time" "3:04:05" []].
Definition demo_spectrum (date els : list xml) (counts : string) : xml :=
  ci_named "TRTSpectrum" "spot"
    ([el "TRTHeaderedClass" "" [ci "TRTSpectrumHardwareHeader" [el "Amplification" "40000" []; el "RealTime" "5000" []; el "LifeTime" "4000" []];
                                ci "TRTDetectorHeader" [el "Type" "XFlash" []; el "DetLayers" "abc" []];
                                ci "TRTESMAHeader" [el "PrimaryEnergy" "25" []; el "ElevationAngle" "35" []; el "AzimutAngle" "45" []]];
      ci "TRTSpectrumHeader" (date ++ [el "CalibAbs" "1" []; el "CalibLin" "12" []]);
      el "Channels" counts []] ++ els).
Definition plane_of (i data : string) (l : list xml) : xml := el ("Plane" ++ i) "" (el "Data" data [] :: l).
Definition regions_of (l : list xml) : xml :=
  ci "TRTContainerClass" [el "ChildClassInstances" "" [ci "TRTElementInformationList" [ci "TRTSpectrumRegionList" [el "ChildClassInstances" "" l]]]].
Definition region_of (n : string) (l : list xml) : xml := ci_named "TRTSpectrumRegion" n (el "Energy" "6" [] :: l).
Definition picture_node (name : list (pystr * pystr)) (l : list xml) : xml := Elem (str "ClassInstance") ((str "Type", str "TRTImageData") :: name) [] [] l.
Definition demo_planes : list xml :=
  [el "Width" "2" []; el "Height" "1" []; el "ItemSize" "1" []; el "PlaneCount" "3" []; plane_of "0" "12" [el "Description" "BSE" []]; plane_of "1" "00" []; plane_of "2" "34" [el "Description" "" []]].
Definition overview_node : xml :=
  ci "TRTContainerClass" [el "ChildClassInstances" "" [ci_named "TRTContainerClass" "OverviewImages" [el "ChildClassInstances" "" [picture_node []
    [el "ChildClassInstances" "" [ci_named "TRTRectangleOverlayElement" "Map" [el "TRTSolidOverlayElement" "" [el "TRTBasicLineOverlayElement" "" [el "TRTOverlayElement" "" [el "Rect" "" [el "Left" "1" []; el "Right" "5" []; el "Top" "2" []; el "Bottom" "4" []]]]]]];
     el "Width" "1" []; el "Height" "1" []; el "ItemSize" "2" []; el "PlaneCount" "1" []; plane_of "0" "12" []]]]]].
Definition demo_root (header sem : list xml) (spectra : list xml) : xml :=
  ci_named "TRTSpectrumDatabase" "steel"
    ([el "Header" "" (header ++ [el "FileVersion" "2" []]); ci "TRTSEMData" sem; ci "TRTSEMStageData" [el "X" "1" []];
      ci "TRTDSPConfiguration" [el "LineAverage" "2" []; el "PixelAverage" "3" []; el "PixelTime" "4" []];
      picture_node [(str "Name", str "other")] []; picture_node [] demo_planes;
      regions_of [region_of "Ni" []; region_of "Fe" [el "Line" "KA1" []]; region_of "Ni" [el "Line" "L" []]];
      overview_node; el "LineCounter" "55" []; el "ChCount" "4" []; el "DetectorCount" "1" []] ++ spectra).
Definition demo_sem : list xml := [el "HV" "20" []; el "DX" "2" []; el "DY" "3" []; el "Mag" "100" []].
Definition demo_top (header sem spectra : list xml) : xml := el "TRTProject" "" [demo_root header sem spectra].
Definition spectrum_node (i counts : string) : xml := el ("SpectrumData" ++ i) "" [demo_spectrum dates [] counts].
Definition top1 : xml := demo_top dates demo_sem [spectrum_node "1" "0730"; spectrum_node "3" "0073"].
Definition names1 : list pystr := map str ["HeaderData"; "SpectrumData3"; "SpectrumData1"]%string.
Definition file1 : pystr := str "a.bcf".
Definition read1 (sel : option pystr) (i : choice) (ds : Z) (c : cutoff) : res (list item) := bcf_reader world file1 names1 top1 sel i ds c None.
Definition brief (l : list item) : list (list Z * list Z) := map (fun i => match i with Picture p => (p_data p, map a_size (p_axes p)) | Signal s => (s_data s, map a_size (s_axes s)) end) l.

(** * Pictures *)
(** The black plane is left out, the overview comes last *)
Example C135_demo : (let! l := read1 (Some (str "image")) INone 1 CNone in Ok (brief l)) = Ok [([1; 2], [1; 2]); ([3; 4], [1; 2]); ([513], [1; 1])].
Proof. vm_compute. reflexivity. Qed.
Example C135_axes_demo : (let! l := read1 (Some (str "image")) INone 1 CNone in Ok (map (fun i => match i with Picture p => (p_title p, map a_scale (p_axes p), p_mode p, p_beam p, p_marker p) | Signal s => (None, [], [], None, None) end) l)) =
  Ok [(Some (str "BSE"), [SGiven (VLeaf (LOther 3)); SGiven (VLeaf (LOther 2))], str "SEM", Some (VLeaf (LOther 20)), None);
      (Some (str "None"), [SGiven (VLeaf (LOther 3)); SGiven (VLeaf (LOther 2))], str "SEM", Some (VLeaf (LOther 20)), None);
      (None, [SGiven (VLeaf (LOther 3)); SGiven (VLeaf (LOther 2))], str "SEM", Some (VLeaf (LOther 20)), Some (12 # 2, 18 # 2, 8, 6)%Q)].
Proof. vm_compute. reflexivity. Qed.
Example C135_misfit_demo : exists img l, item_size (str "1") 1 /\ holds world 1 img l /\ ~ black l /\ zlen l <> 2 * 2.
Proof.
  exists (plane_of "0" "123" []), [1; 2; 3]. split; [left; split; reflexivity|]. split.
  - exists (el "Data" "123" []). split; [exists [], []; repeat split; constructor|]. split; [discriminate|]. exists [[1]; [2]; [3]]. split; [reflexivity|]. repeat constructor.
  - split; [intro B; inversion B; discriminate|vm_compute; discriminate].
Qed.
(** Not every stored picture is given: a black one is not *)
Theorem C135_black_refuted : exists s img, holds world 1 img [0; 0] /\ plane world s 1 2 (str "1") None img = Ok [].
Proof.
  exists {| sc_sem := []; sc_stage := []; sc_dsp := []; sc_hv := None; sc_mode := []; sc_name := [] |}, (plane_of "0" "00" []). split; [|vm_compute; reflexivity].
  exists (el "Data" "00" []). split; [exists [], []; repeat split; constructor|]. split; [discriminate|]. exists [[0]; [0]]. split; [reflexivity|]. repeat constructor.
Qed.
(** An empty description becomes the title "None" *)
Theorem C135_title_refuted : exists s img d p, child "Description" img d /\ x_text d = [] /\ plane world s 1 2 (str "1") None img = Ok [p] /\ p_title p = Some (str "None").
Proof.
  exists {| sc_sem := []; sc_stage := []; sc_dsp := []; sc_hv := None; sc_mode := []; sc_name := [] |}, (plane_of "0" "12" [el "Description" "" []]), (el "Description" "" []). eexists. split.
  { exists [el "Data" "12" []], []. split; [reflexivity|]. split; [reflexivity|]. constructor; [intro K; discriminate K|constructor]. }
  split; [reflexivity|]. split; [vm_compute; reflexivity|]. reflexivity.
Qed.

(** * Maps *)
Example C136_demo : numbered names1 [3; 1] /\ (let! l := read1 (Some (str "spectrum_image")) INone 1 CNone in Ok (brief l)) = Ok [([1; 1; 1; 1; 1; 1; 1; 1], [1; 2; 4])] /\
  (let! l := read1 (Some (str "spectrum_image")) (IText (str "all")) 2 (CText (str "zealous")) in Ok (brief l)) = Ok [([3; 3; 3; 3], [1; 1; 4]); ([1; 1; 1], [1; 1; 3])] /\
  (let! l := read1 None (INumber 3) 2 (CNumber 25) in Ok (brief l)) = Ok [([1; 2], [1; 2]); ([3; 4], [1; 2]); ([513], [1; 1]); ([3; 3], [1; 1; 2])].
Proof. split; [apply C136_numbers; vm_compute; reflexivity|]. split; [vm_compute; reflexivity|]. split; vm_compute; reflexivity. Qed.
Example C136_wrong_demo : (forall js, ~ asked [3; 1] (INumber 2) js) /\ read1 None (INumber 2) 1 CNone = Err IndexError /\ read1 None (IText (str "first")) 1 CNone = Err TypeError.
Proof. split; [intros js H; inversion H; subst; cbn in *; lia|]. split; vm_compute; reflexivity. Qed.
Example C136_sum_demo : exists root c n, first_such (typed "TRTSpectrumDatabase") top1 root /\ first_such (tagged (str "SpectrumData" ++ str_int 1)) root c /\ child "ClassInstance" c n /\ exists h, hyper_header world top1 [3; 1] None = Ok h.
Proof.
  exists (demo_root dates demo_sem [spectrum_node "1" "0730"; spectrum_node "3" "0073"]), (spectrum_node "1" "0730"), (demo_spectrum dates [] "0730"). split; [exists [], []; repeat split; constructor|]. split.
  { exists (firstn 11 (x_children (demo_root dates demo_sem []))), [spectrum_node "3" "0073"]. split; [reflexivity|]. split; [reflexivity|]. repeat (apply Forall_cons; [intro K; discriminate K|]). apply Forall_nil. }
  split; [exists [], []; repeat split; constructor|]. eexists. vm_compute. reflexivity.
Qed.
(** With ten or more maps: only the last digit counts, map 11 cannot be chosen and map 1 is given in its place *)
Theorem C136_ten_refuted : exists top names, In (str "SpectrumData1") names /\ In (str "SpectrumData11") names /\
  bcf_reader world file1 names top (Some (str "spectrum_image")) (INumber 11) 1 CNone None = Err IndexError /\
  exists a, bcf_reader world file1 names top (Some (str "spectrum_image")) (IText (str "all")) 1 CNone None = Ok [a; a].
Proof.
  exists (demo_top dates demo_sem [spectrum_node "1" "0730"; spectrum_node "11" "0073"]), (map str ["SpectrumData1"; "SpectrumData11"]%string). split; [left; reflexivity|]. split; [right; left; reflexivity|]. split; [vm_compute; reflexivity|]. eexists. vm_compute. reflexivity.
Qed.
Example C137_demo : map (fun c => let! l := read1 (Some (str "spectrum_image")) INone 2 c in Ok (map snd (brief l))) [CNone; CText (str "zealous"); CText (str "auto"); CNumber 7; CNumber 19; CNumber 60; CText (str "x")] =
  map (fun n => Ok [[1; 1; n]]) [4; 3; 2; 0; 2; 5; 4].
Proof. vm_compute. reflexivity. Qed.
Example C137_square_demo : exists h sg v, map_signal world file1 h 2 CNone 1 = Ok sg /\ lookup (str "DX") (sc_sem (h_scope h)) = Some v /\ lookup (str "DY") (sc_sem (h_scope h)) = Some v.
Proof.
  assert (E : exists h, hyper_header world (demo_top dates [el "DX" "2" []; el "DY" "2" []] [spectrum_node "1" "0730"]) [1] None = Ok h) by (eexists; vm_compute; reflexivity).
  destruct E as [h E]. vm_compute in E. injection E as E. exists h. rewrite <- E. do 2 eexists. split; [vm_compute; reflexivity|]. split; vm_compute; reflexivity.
Qed.
(** The distance of columns is not used for the width of maps *)
Theorem C137_width_refuted : exists h sg v x a b, map_signal world file1 h 1 CNone 1 = Ok sg /\ lookup (str "DX") (sc_sem (h_scope h)) = Some v /\ value world v x /\
  nth_error (s_axes sg) 1 = Some a /\ a_name a = "width"%string /\ a_scale a = STimes b /\ ~ (b == x)%Q.
Proof.
  assert (E : exists h, hyper_header world top1 [1] None = Ok h) by (eexists; vm_compute; reflexivity).
  destruct E as [h E]. vm_compute in E. injection E as E. exists h. rewrite <- E.
  eexists. exists (VLeaf (LOther 2)), 2%Q. do 2 eexists. split; [vm_compute; reflexivity|]. split; [vm_compute; reflexivity|]. split; [exists 2; split; reflexivity|]. split; [vm_compute; reflexivity|]. split; [reflexivity|]. split; [reflexivity|]. vm_compute. discriminate.
Qed.

(** * Metadata *)
Example C138_demo : (let! l := read1 (Some (str "spectrum_image")) INone 1 CNone in
    Ok (map (fun i => match i with Signal s => (s_mode s, s_beam s, s_sample s, s_date s, s_lines s, d_azimuth (s_detector s), match d_real (s_detector s) with Some q => Qred q | None => 0%Q end, s_elements s) | Picture _ => ([], None, [], ([], []), [], None, 0%Q, VNone) end) l)) =
  Ok [(str "SEM", Some (VLeaf (LOther 25)), str "steel", (str "2020-01-02", str "03:04:05"), [str "Fe_Ka"; str "Ni_La"], Some (VLeaf (LOther 45)), (3 # 6250)%Q, VList [VLeaf (LText (str "Fe")); VLeaf (LText (str "Ni"))])].
Proof. vm_compute. reflexivity. Qed.
Example C138_elements_demo : exists root e rs, region_list root e /\ Forall2 (fun r x => region world r (fst x) (fst (snd x)) (snd (snd x))) (filter (fits (inst "TRTSpectrumRegion")) (x_children e)) rs /\ List.length rs = 2%nat.
Proof.
  set (rl := [region_of "Ni" []; region_of "Fe" [el "Line" "KA1" []]]). exists (ci "R" [regions_of rl]), (el "ChildClassInstances" "" rl), [(str "Ni", (VLeaf (LText (str "Ka")), Some (VLeaf (LOther 6)))); (str "Fe", (VLeaf (LText (str "KA1")), Some (VLeaf (LOther 6))))].
  split; [|split; [|reflexivity]].
  - do 4 eexists. split; [exists [], []; repeat split; constructor|]. split; [exists [], []; repeat split; constructor|]. split; [exists [], []; repeat split; constructor|]. split; [exists [], []; repeat split; constructor|]. exists [], []; repeat split; constructor.
  - repeat constructor; eexists; (split; [vm_compute; reflexivity|]); (split; [vm_compute; reflexivity|]); (split; [vm_compute; reflexivity|]); vm_compute; [right; split; reflexivity|left; reflexivity].
Qed.
Example C138_no_elements_demo : forall y, In y (x_children (ci "R" [ci "TRTSEMData" []])) -> ~ typed "TRTContainerClass" y.
Proof. intros y [<-|[]] [_ K]. vm_compute in K. discriminate. Qed.
Example C138_mode_demo : guess_mode world (Some (VLeaf (LOther 200))) = Ok (str "TEM") /\ guess_mode world None = Ok (str "SEM").
Proof. split; vm_compute; reflexivity. Qed.
(** A file without a date in its header is not read *)
Theorem C138_date_refuted : exists top, bcf_reader world file1 names1 top1 None INone 1 CNone None <> Err TypeError /\ bcf_reader world file1 names1 top None INone 1 CNone None = Err TypeError /\
  (forall hd, child "Header" (demo_root [] demo_sem []) hd -> no_child "Date" hd).
Proof.
  exists (demo_top [] demo_sem [spectrum_node "1" "0730"; spectrum_node "3" "0073"]). split; [vm_compute; discriminate|]. split; [vm_compute; reflexivity|].
  intros hd H. assert (K : node [plain "Header"] (demo_root [] demo_sem []) = Ok hd) by (apply child_node; exact H). vm_compute in K. injection K as <-. intros c [<-|[]]. vm_compute. discriminate.
Qed.

(** * Single spectra *)
Definition element_of (n : string) : xml := ci_named "TRTPSEElement" n [el "Element" "26" []].
Definition spx_top (date : list xml) (l : list string) : xml := el "TRTSpectrum" "" [demo_spectrum date [ci "TRTPSEElementList" [el "ChildClassInstances" "" (map element_of l)]] "0730"].
Example C139_demo : (let! s := spx_reader world file1 (spx_top dates ["Fe"; "Ni"]%string) in Ok (s_data s, map a_size (s_axes s), s_mode s, s_elements s, s_sample s, match d_live (s_detector s) with Some q => Qred q | None => 0%Q end)) =
  Ok ([0; 7; 3; 0], [4], str "SEM", VList [VLeaf (LText (str "Fe")); VLeaf (LText (str "Ni"))], str "spot", 4%Q).
Proof. vm_compute. reflexivity. Qed.
(** One selected element is given as a text and not as a list *)
Theorem C139_one_refuted : exists top sg, spx_reader world file1 top = Ok sg /\ s_elements sg = VLeaf (LText (str "Fe")) /\ top = spx_top dates ["Fe"]%string.
Proof. exists (spx_top dates ["Fe"]%string). eexists. split; [vm_compute; reflexivity|]. split; reflexivity. Qed.
(** A spectrum without a date is not read *)
Theorem C139_date_refuted : exists top sp s, first_such (typed "TRTSpectrum") top sp /\ edx world sp = Ok s /\ spx_reader world file1 top = Err AttributeError.
Proof.
  exists (spx_top [] ["Fe"]%string). do 2 eexists. split; [exists [], []; repeat split; constructor|]. split; [vm_compute; reflexivity|]. vm_compute. reflexivity.
Qed.

Print Assumptions C135_pictures.
Print Assumptions C135_file.
Print Assumptions C135_misfit.
Print Assumptions C135_plane.
Print Assumptions C135_black_refuted.
Print Assumptions C135_title_refuted.
Print Assumptions C136_numbers.
Print Assumptions C136_choice.
Print Assumptions C136_wrong.
Print Assumptions C136_both.
Print Assumptions C136_sum.
Print Assumptions C136_ten_refuted.
Print Assumptions C137_map.
Print Assumptions C137_square.
Print Assumptions C137_width_refuted.
Print Assumptions C138_spectrum.
Print Assumptions C138_scope.
Print Assumptions C138_header.
Print Assumptions C138_elements.
Print Assumptions C138_no_elements.
Print Assumptions C138_map.
Print Assumptions C138_date_refuted.
Print Assumptions C139_spectrum.
Print Assumptions C139_one_refuted.
Print Assumptions C139_date_refuted.
