(** Metadata of Bruker files and files of single spectra: theorems of claims C138 and C139 about [BrkModel]. *)
From Coq Require Import QArith Permutation Sorted.
From Verif Require Import Base Bytes Text HierModel HierProps SfsModel BcfModel XmlModel EdaxModel EdaxHeader LogText BrkModel BrkPic BrkMap.
Local Open Scope Z_scope.

(** * What is meant *)
(** The dictionary of a node; entries of it *)
Definition told (E : env) (e : xml) (d : dict) : Prop := dictionarize (x2d E) e = Ok (VDict d).
Definition entry (d : dict) (k : string) (v : val) : Prop := lookup (str k) d = Some v.
Definition optional (d : dict) (k : string) (o : option val) : Prop := (o = None /\ (lookup (str k) d = None \/ entry d k VNone)) \/ (exists v, o = Some v /\ entry d k v /\ v <> VNone).
(** A date and a time joined by a blank *)
Definition dated (E : env) (e : xml) (o : option (pystr * pystr)) : Prop :=
  (no_child "Date" e /\ o = None) \/ (exists d t r, child "Date" e d /\ child "Time" e t /\ e_date E (x_text d ++ [32] ++ x_text t) = Some r /\ o = Some r).
(** The microscope: transmission above 30 kV *)
Definition mode_of (E : env) (hv : option val) (m : pystr) : Prop :=
  (hv = None /\ m = str "SEM") \/ (exists v q, hv = Some v /\ value E v q /\ ((q <= 30)%Q /\ m = str "SEM" \/ (30 < q)%Q /\ m = str "TEM")).
(** Names of lines: the first two letters, the first one a capital, the second one small and "a" if missing *)
Definition capital (c d : Z) : Prop := (97 <= c <= 122 /\ d = c - 32) \/ (~ 97 <= c <= 122 /\ d = c).
Definition small (c d : Z) : Prop := (65 <= c <= 90 /\ d = c + 32) \/ (~ 65 <= c <= 90 /\ d = c).
Definition line_name (v : val) (t : pystr) : Prop :=
  (exists c d, v = VLeaf (LText [c]) /\ capital c d /\ t = [d; 97]) \/
  (exists c1 c2 r d1 d2, v = VLeaf (LText (c1 :: c2 :: r)) /\ capital c1 d1 /\ small c2 d2 /\ t = [d1; d2]) \/ (v = VLeaf (LText []) /\ t = []).

(** * Parts *)
Lemma todict_spec : forall E e d, todict E e = Ok d <-> told E e d.
Proof.
  intros E e d. unfold todict, told. destruct (dictionarize (x2d E) e) as [v|x]; cbn [bind]; [|split; discriminate]. destruct v; cbn [dict_of]; split; intro H; try discriminate; injection H as ->; reflexivity.
Qed.
Lemma key_spec : forall k d v, key k d = Ok v <-> entry d k v.
Proof. intros k d v. unfold key, entry. destruct (lookup (str k) d); split; intro H; try discriminate; injection H as ->; reflexivity. Qed.
Lemma get_spec : forall k d, optional d k (get k d).
Proof.
  intros k d. unfold optional, get, entry. destruct (lookup (str k) d) as [v|] eqn:L; [|left; auto]. destruct v; [left; split; [reflexivity|right; reflexivity]|right; eexists; split; [reflexivity|split; [reflexivity|discriminate]]..].
Qed.
Lemma node_typed : forall t e c, node [inst t] e = Ok c -> first_such (typed t) e c.
Proof. intros t e c H. unfold node in H. pose proof (find_typed t e) as K. destruct (find [inst t] e); [injection H as <-; exact K|discriminate]. Qed.
Lemma typed_dec : forall t x, typed t x \/ ~ typed t x.
Proof. intros t x. destruct (fits (inst t) x) eqn:Q; [left; apply fits_inst; exact Q|right; intro Z; apply fits_inst in Z; congruence]. Qed.
Lemma typed_find : forall t e c, first_such (typed t) e c -> find [inst t] e = Some c.
Proof.
  intros t e c H. pose proof (find_typed t e) as K. destruct (find [inst t] e) as [d|]; [|exfalso; exact (first_not_none _ _ _ H K)]. f_equal. exact (first_unique _ _ _ _ (typed_dec t) K H).
Qed.
Lemma iso_spec : forall E e o, iso E e = Ok o -> dated E e o.
Proof.
  intros E e o H. unfold iso in H. pose proof (find_tag (str "Date") e) as FD. change (find [(str "Date", [])] e) with (find [plain "Date"] e) in FD. destruct (find [plain "Date"] e) as [d|]; [|injection H as <-; left; split; [exact FD|reflexivity]].
  right. destruct (node [plain "Time"] e) as [t|] eqn:ET; [cbn [bind] in H|discriminate]. apply node_child in ET. destruct (x_text d) as [|a1 a2] eqn:XD; [discriminate|]. destruct (x_text t) as [|b1 b2] eqn:XT; [discriminate|].
  destruct (e_date E ((a1 :: a2) ++ 32 :: b1 :: b2)) as [r|] eqn:ER; [|discriminate]. injection H as <-. exists d, t, r. rewrite XD, XT. repeat split; assumption.
Qed.
Lemma mode_spec : forall E hv m, guess_mode E hv = Ok m -> mode_of E hv m.
Proof.
  intros E hv m H. unfold guess_mode in H. destruct hv as [v|]; [|injection H as <-; left; split; reflexivity]. destruct (number E v) as [q|] eqn:EQ; [cbn [bind] in H|discriminate]. injection H as <-. right. exists v, q.
  split; [reflexivity|]. split; [apply number_spec; exact EQ|]. destruct (Qle_bool q 30) eqn:L; [left; split; [apply Qle_bool_iff; exact L|reflexivity]|right; split; [|reflexivity]]. apply Qnot_le_lt. intro K. apply Qle_bool_iff in K. congruence.
Qed.
Lemma capital_spec : forall c, capital c (upper_char c).
Proof. intro c. unfold capital, upper_char. destruct ((97 <=? c) && (c <=? 122)) eqn:E; [left|right]; lia. Qed.
Lemma small_spec : forall c, small c (lower_char c).
Proof. intro c. unfold small, lower_char. destruct ((65 <=? c) && (c <=? 90)) eqn:E; [left|right]; lia. Qed.
Lemma line_spec : forall v t, parse_line v = Ok t -> line_name v t.
Proof.
  intros v t H. unfold parse_line in H. destruct v as [|[s|]| |]; try discriminate. injection H as <-. destruct s as [|c1 [|c2 [|c3 r]]].
  - right. right. split; reflexivity.
  - left. exists c1, (upper_char c1). split; [reflexivity|]. split; [apply capital_spec|reflexivity].
  - right. left. exists c1, c2, [], (upper_char c1), (lower_char c2). split; [reflexivity|]. split; [apply capital_spec|]. split; [apply small_spec|reflexivity].
  - right. left. exists c1, c2, (c3 :: r), (upper_char c1), (lower_char c2). split; [reflexivity|]. split; [apply capital_spec|]. split; [apply small_spec|reflexivity].
Qed.

(** * Spectra *)
(** The fields of a spectrum.  With an X-ray tube the energy and the angle come from the header of the tube *)
Theorem C138_spectrum : forall E e s, edx E e = Ok s ->
  exists trt hw det sh ch layers mini, child "TRTHeaderedClass" e trt /\ first_such (typed "TRTSpectrumHardwareHeader") trt hw /\ told E hw (sp_hardware s) /\ entry (sp_hardware s) "Amplification" (sp_amp s) /\
    first_such (typed "TRTDetectorHeader") trt det /\ told E det (sp_detector s) /\ entry (sp_detector s) "Type" (sp_type s) /\ entry (sp_detector s) "DetLayers" (VLeaf (LText layers)) /\ e_layers E layers = Ok mini /\
    ((exists x d v a, first_such (typed "TRTXrfHeader") trt x /\ told E x d /\ entry d "Voltage" v /\ entry d "ExcitationAngle" a /\ sp_esma s = [(str "PrimaryEnergy", v); (str "ElevationAngle", a)]) \/
     (exists m, (forall y, In y (x_children trt) -> ~ typed "TRTXrfHeader" y) /\ first_such (typed "TRTESMAHeader") trt m /\ told E m (sp_esma s))) /\
    optional (sp_esma s) "PrimaryEnergy" (sp_hv s) /\ entry (sp_esma s) "ElevationAngle" (sp_elev s) /\
    first_such (typed "TRTSpectrumHeader") e sh /\ dated E sh (sp_date s) /\ told E sh (sp_meta s) /\ entry (sp_meta s) "CalibAbs" (sp_offset s) /\ entry (sp_meta s) "CalibLin" (sp_scale s) /\
    child "Channels" e ch /\ x_text ch <> [] /\ sp_data s = e_counts E (x_text ch).
Proof.
  intros E e s H. unfold edx in H.
  destruct (node [plain "TRTHeaderedClass"] e) as [trt|] eqn:E1; [cbn [bind] in H|discriminate]. destruct (node [inst "TRTSpectrumHardwareHeader"] trt) as [hw|] eqn:E2; [cbn [bind] in H|discriminate].
  destruct (todict E hw) as [hardware|] eqn:E3; [cbn [bind] in H|discriminate]. destruct (key "Amplification" hardware) as [amp|] eqn:E4; [cbn [bind] in H|discriminate].
  destruct (node [inst "TRTDetectorHeader"] trt) as [det|] eqn:E5; [cbn [bind] in H|discriminate]. destruct (todict E det) as [detector|] eqn:E6; [cbn [bind] in H|discriminate].
  destruct (key "Type" detector) as [type|] eqn:E7; [cbn [bind] in H|discriminate]. destruct (key "DetLayers" detector) as [lv|] eqn:E8; [cbn [bind] in H|discriminate].
  destruct lv as [|[ls|]| |]; try discriminate. cbn [bind] in H. destruct (e_layers E ls) as [mini|] eqn:E9; [cbn [bind] in H|discriminate].
  destruct (esma E trt) as [m|] eqn:E10; [cbn [bind] in H|discriminate]. destruct (key "ElevationAngle" m) as [elev|] eqn:E11; [cbn [bind] in H|discriminate].
  destruct (node [inst "TRTSpectrumHeader"] e) as [sh|] eqn:E12; [cbn [bind] in H|discriminate]. destruct (iso E sh) as [date|] eqn:E13; [cbn [bind] in H|discriminate].
  destruct (todict E sh) as [meta|] eqn:E14; [cbn [bind] in H|discriminate]. destruct (key "CalibAbs" meta) as [off|] eqn:E15; [cbn [bind] in H|discriminate]. destruct (key "CalibLin" meta) as [sc|] eqn:E16; [cbn [bind] in H|discriminate].
  destruct (node [plain "Channels"] e) as [ch|] eqn:E17; [cbn [bind] in H|discriminate]. destruct (x_text ch) as [|t1 t2] eqn:E18; [discriminate|]. cbn [bind] in H. injection H as <-.
  cbn [sp_hardware sp_amp sp_detector sp_type sp_esma sp_hv sp_elev sp_date sp_meta sp_offset sp_scale sp_data].
  exists trt, hw, det, sh, ch, ls, mini. split; [apply node_child; exact E1|]. split; [apply node_typed; exact E2|]. split; [apply todict_spec; exact E3|]. split; [apply key_spec; exact E4|].
  split; [apply node_typed; exact E5|]. split; [apply todict_spec; exact E6|]. split; [apply key_spec; exact E7|]. split; [apply key_spec; exact E8|]. split; [exact E9|]. split.
  { unfold esma in E10. pose proof (find_typed "TRTXrfHeader" trt) as FX. destruct (find [inst "TRTXrfHeader"] trt) as [x|].
    - left. match type of E10 with bind ?r _ = _ => destruct r; [cbn [bind] in E10|discriminate] end. destruct (todict E x) as [d|] eqn:D; [cbn [bind] in E10|discriminate]. destruct (key "Voltage" d) as [v|] eqn:V; [cbn [bind] in E10|discriminate].
      destruct (key "ExcitationAngle" d) as [ang|] eqn:A; [cbn [bind] in E10|discriminate]. injection E10 as <-. exists x, d, v, ang. repeat split; [exact FX|apply todict_spec; exact D|apply key_spec; exact V|apply key_spec; exact A].
    - right. destruct (node [inst "TRTESMAHeader"] trt) as [n|] eqn:N; [cbn [bind] in E10|discriminate]. exists n. repeat split; [exact FX|apply node_typed; exact N|apply todict_spec; exact E10]. }
  split; [apply get_spec|]. split; [apply key_spec; exact E11|]. split; [apply node_typed; exact E12|]. split; [apply iso_spec; exact E13|]. split; [apply todict_spec; exact E14|]. split; [apply key_spec; exact E15|]. split; [apply key_spec; exact E16|].
  split; [apply node_child; exact E17|]. rewrite E18. split; [discriminate|reflexivity].
Qed.
(** The microscope and the kind of instrument *)
Theorem C138_scope : forall E root name ins s, microscope E root name ins = Ok s ->
  exists a b c, first_such (typed "TRTSEMData") root a /\ told E a (sc_sem s) /\ first_such (typed "TRTSEMStageData") root b /\ told E b (sc_stage s) /\
    first_such (typed "TRTDSPConfiguration") root c /\ told E c (sc_dsp s) /\ optional (sc_sem s) "HV" (sc_hv s) /\ sc_name s = name /\
    (forall i, ins = Some i -> sc_mode s = i) /\ (ins = None -> mode_of E (sc_hv s) (sc_mode s)).
Proof.
  intros E root name ins s H. unfold microscope in H. destruct (node [inst "TRTSEMData"] root) as [a|] eqn:E1; [cbn [bind] in H|discriminate]. destruct (todict E a) as [sm|] eqn:E2; [cbn [bind] in H|discriminate].
  destruct (node [inst "TRTSEMStageData"] root) as [b|] eqn:E3; [cbn [bind] in H|discriminate]. destruct (todict E b) as [stage|] eqn:E4; [cbn [bind] in H|discriminate].
  destruct (node [inst "TRTDSPConfiguration"] root) as [c|] eqn:E5; [cbn [bind] in H|discriminate]. destruct (todict E c) as [dsp|] eqn:E6; [cbn [bind] in H|discriminate].
  match type of H with bind ?r _ = _ => destruct r as [m|] eqn:EM; [cbn [bind] in H|discriminate] end. injection H as <-. cbn [sc_sem sc_stage sc_dsp sc_hv sc_mode sc_name].
  exists a, b, c. split; [apply node_typed; exact E1|]. split; [apply todict_spec; exact E2|]. split; [apply node_typed; exact E3|]. split; [apply todict_spec; exact E4|]. split; [apply node_typed; exact E5|]. split; [apply todict_spec; exact E6|].
  split; [apply get_spec|]. split; [reflexivity|]. split; [intros i ->; congruence|]. intros ->. apply mode_spec. exact EM.
Qed.
(** The name, the date, the version and the counters of the file *)
Theorem C138_header : forall E top av ins h, hyper_header E top av ins = Ok h ->
  exists root hd cn mn ln, first_such (typed "TRTSpectrumDatabase") top root /\ child "Header" root hd /\ dated E hd (Some (h_date h)) /\
    (lookup (str "Name") (x_attrs root) = Some (h_name h) \/ lookup (str "Name") (x_attrs root) = None /\ h_name h = str "Undefined") /\
    microscope E root (h_name h) ins = Ok (h_scope h) /\ set_elements E root = Ok (h_elements h) /\
    child "ChCount" root cn /\ parse_int (x_text cn) = Ok (h_channels h) /\ child "DetectorCount" root mn /\ parse_int (x_text mn) = Ok (h_maps h) /\
    child "LineCounter" root ln /\ e_list E (x_text ln) = Ok (h_lines h).
Proof.
  intros E top av ins h H. unfold hyper_header in H. destruct (node [inst "TRTSpectrumDatabase"] top) as [root|] eqn:E1; [cbn [bind] in H|discriminate]. cbv zeta in H.
  destruct (node [plain "Header"] root) as [hd|] eqn:E2; [cbn [bind] in H|discriminate]. destruct (iso E hd) as [[date|]|] eqn:E3; [cbn [bind] in H|discriminate|discriminate].
  destruct (node [plain "FileVersion"] hd) as [vn|]; [cbn [bind] in H|discriminate]. match type of H with bind ?r _ = _ => destruct r as [version|]; [cbn [bind] in H|discriminate] end.
  match type of H with bind ?r _ = _ => destruct r as [s|] eqn:E4; [cbn [bind] in H|discriminate] end. destruct (images E s root version) as [[i o]|]; [cbn [bind] in H|discriminate].
  destruct (set_elements E root) as [els|] eqn:E5; [cbn [bind] in H|discriminate]. destruct (node [plain "LineCounter"] root) as [ln|] eqn:E6; [cbn [bind] in H|discriminate]. destruct (e_list E (x_text ln)) as [lines|] eqn:E7; [cbn [bind] in H|discriminate].
  destruct (node [plain "ChCount"] root) as [cn|] eqn:E8; [cbn [bind] in H|discriminate]. destruct (int_of cn) as [cs|] eqn:E9; [cbn [bind] in H|discriminate]. destruct (node [plain "DetectorCount"] root) as [mn|] eqn:E10; [cbn [bind] in H|discriminate].
  destruct (int_of mn) as [ms|] eqn:E11; [cbn [bind] in H|discriminate]. match type of H with bind ?r _ = _ => destruct r; [cbn [bind] in H|discriminate] end. injection H as <-. cbn [h_name h_date h_scope h_elements h_lines h_channels h_maps].
  exists root, hd, cn, mn, ln. split; [apply node_typed; exact E1|]. split; [apply node_child; exact E2|]. split; [apply iso_spec; exact E3|]. split.
  { destruct (lookup (str "Name") (x_attrs root)); [left; reflexivity|right; split; reflexivity]. }
  assert (IO : forall n z, int_of n = Ok z -> parse_int (x_text n) = Ok z). { intros n z K. unfold int_of in K. destruct (x_text n); [discriminate|exact K]. }
  split; [exact E4|]. split; [exact E5|]. split; [apply node_child; exact E8|]. split; [apply IO; exact E9|]. split; [apply node_child; exact E10|]. split; [apply IO; exact E11|]. split; [apply node_child; exact E6|exact E7].
Qed.
(** The selected elements: for each name the last region of that name; the line Ka when none is given *)
Definition region (E : env) (e : xml) (name : pystr) (line : val) (energy : option val) : Prop :=
  exists d, told E e d /\ entry d "XmlClassName" (VLeaf (LText name)) /\ energy = lookup (str "Energy") d /\ (entry d "Line" line \/ lookup (str "Line") d = None /\ line = VLeaf (LText (str "Ka"))).
Definition region_list (root e : xml) : Prop :=
  exists c1 c2 c3 c4, first_such (typed "TRTContainerClass") root c1 /\ child "ChildClassInstances" c1 c2 /\ first_such (typed "TRTElementInformationList") c2 c3 /\
    first_such (typed "TRTSpectrumRegionList") c3 c4 /\ child "ChildClassInstances" c4 e.
Fixpoint last_of {A} (k : pystr) (l : list (pystr * A)) (o : option A) : option A := match l with [] => o | (n, v) :: l => last_of k l (if eqb_str k n then Some v else o) end.
Lemma find_more : forall s p e c n, find [s] e = Some c -> find p c = Some n -> find (s :: p) e = Some n.
Proof.
  intros s p e c n A B. rewrite find_one in A. unfold find in *. cbn [findall]. destruct (filter (fits s) (x_children e)) as [|c' r]; [discriminate|]. cbn [hd_error] in A. injection A as ->. cbn [flat_map].
  destruct (findall p c); [discriminate|]. exact B.
Qed.
Lemma child_find : forall t e c, child t e c -> find [plain t] e = Some c.
Proof. intros t e c H. apply child_node in H. unfold node in H. destruct (find [plain t] e); [congruence|discriminate]. Qed.
Lemma regions_spec : forall E l rs d0, Forall2 (fun e r => region E e (fst r) (fst (snd r)) (snd (snd r))) l rs -> exists d, regions E l d0 = Ok d /\ forall k, lookup k d = last_of k rs (lookup k d0).
Proof.
  intros E l rs d0 H. revert d0. induction H as [|e [name [line energy]] l rs (t & T & N & EN & L) F IH]; intro d0; [exists d0; split; reflexivity|]. cbn [fst snd] in *.
  cbn [regions]. apply todict_spec in T. rewrite T. apply key_spec in N. rewrite N. cbn [bind].
  assert (EL : match lookup (str "Line") t with Some v => v | None => VLeaf (LText (str "Ka")) end = line) by (destruct L as [L|[L ->]]; unfold entry in *; rewrite L; reflexivity).
  rewrite EL, <- EN. destruct (IH (put name (line, energy) d0)) as (d & R & K). exists d. split; [exact R|]. intro k. rewrite K. cbn [last_of]. rewrite lookup_put. reflexivity.
Qed.
Theorem C138_elements : forall E root e rs, region_list root e -> Forall2 (fun r x => region E r (fst x) (fst (snd x)) (snd (snd x))) (filter (fits (inst "TRTSpectrumRegion")) (x_children e)) rs ->
  exists d, set_elements E root = Ok d /\ forall k, lookup k d = last_of k rs None.
Proof.
  intros E root e rs (c1 & c2 & c3 & c4 & H1 & H2 & H3 & H4 & H5) F. unfold set_elements, elements_path.
  rewrite (find_more _ _ _ _ _ (typed_find _ _ _ H1) (find_more _ _ _ _ _ (child_find _ _ _ H2) (find_more _ _ _ _ _ (typed_find _ _ _ H3) (find_more _ _ _ _ _ (typed_find _ _ _ H4) (child_find _ _ _ H5))))).
  assert (FA : findall [inst "TRTSpectrumRegion"] e = filter (fits (inst "TRTSpectrumRegion")) (x_children e)). { cbn [findall]. induction (filter (fits (inst "TRTSpectrumRegion")) (x_children e)) as [|x r IH] in F |- *; [reflexivity|]. cbn [flat_map app]. f_equal. clear - r. induction r as [|y r IH]; [reflexivity|]. cbn [flat_map app]. f_equal. exact IH. }
  rewrite FA. destruct (regions_spec _ _ _ [] F) as (d & R & K). exists d. split; [exact R|exact K].
Qed.
Theorem C138_no_elements : forall E root, (forall y, In y (x_children root) -> ~ typed "TRTContainerClass" y) -> set_elements E root = Ok [].
Proof.
  intros E root H. unfold set_elements, elements_path, find. cbn [findall]. assert (K : filter (fits (inst "TRTContainerClass")) (x_children root) = []).
  { revert H. induction (x_children root) as [|y l IH]; intro H; [reflexivity|]. cbn [filter]. destruct (fits (inst "TRTContainerClass") y) eqn:Q; [exfalso; apply (H y); [left; reflexivity|apply fits_inst; exact Q]|]. apply IH. intros z Z. apply H. right. exact Z. }
  rewrite K. reflexivity.
Qed.
(** The times of a detector *)
Definition detected (E : env) (s : spectrum) (d : detector) : Prop :=
  d_elev d = sp_elev s /\ d_type d = sp_type s /\ d_azimuth d = lookup (str "AzimutAngle") (sp_esma s) /\
  ((lookup (str "RealTime") (sp_hardware s) = None /\ d_real d = None /\ d_live d = None) \/
   (exists a b r l x y, entry (sp_hardware s) "RealTime" a /\ entry (sp_hardware s) "LifeTime" b /\ value E a r /\ value E b l /\ d_real d = Some x /\ d_live d = Some y /\ (x * 1000 == r)%Q /\ (y * 1000 == l)%Q)).
Lemma detector_spec : forall E s d, detector_of E s = Ok d -> detected E s d.
Proof.
  intros E s d H. unfold detector_of in H. destruct (lookup (str "RealTime") (sp_hardware s)) as [a|] eqn:EA.
  - destruct (number E a) as [r|] eqn:ER; [cbn [bind] in H|discriminate]. destruct (key "LifeTime" (sp_hardware s)) as [b|] eqn:EB; [cbn [bind] in H|discriminate]. destruct (number E b) as [l|] eqn:EL; [cbn [bind] in H|discriminate]. injection H as <-.
    split; [reflexivity|]. split; [reflexivity|]. split; [reflexivity|]. right. exists a, b, r, l, (r / 1000)%Q, (l / 1000)%Q. split; [exact EA|]. split; [apply key_spec; exact EB|]. split; [apply number_spec; exact ER|]. split; [apply number_spec; exact EL|]. split; [reflexivity|]. split; [reflexivity|]. split; field.
  - cbn [bind] in H. injection H as <-. split; [reflexivity|]. split; [reflexivity|]. split; [reflexivity|]. left. split; [exact EA|split; reflexivity].
Qed.
(** The metadata of a map *)
Theorem C138_map : forall E file h ds c j sg, map_signal E file h ds c j = Ok sg ->
  exists s d a b t qa qb qt names lines, spectrum_of h j = Ok s /\ detected E s d /\
    d_elev (s_detector sg) = d_elev d /\ d_type (s_detector sg) = d_type d /\ d_azimuth (s_detector sg) = d_azimuth d /\ d_live (s_detector sg) = d_live d /\
    entry (sc_dsp (h_scope h)) "LineAverage" a /\ value E a qa /\ entry (sc_dsp (h_scope h)) "PixelAverage" b /\ value E b qb /\ entry (sc_dsp (h_scope h)) "PixelTime" t /\ value E t qt /\
    (exists r, d_real (s_detector sg) = Some r /\ (r * 1000000 == fold_right Qplus 0 (h_lines h) * qa * qb * qt * inject_Z (im_width (h_image h)))%Q) /\
    s_mode sg = sc_mode (h_scope h) /\ s_type sg = str "EDS_" ++ sc_mode (h_scope h) /\ s_mag sg = lookup (str "Mag") (sc_sem (h_scope h)) /\
    (forall v, sp_hv s = Some v -> s_beam sg = Some v) /\ (sp_hv s = None -> s_beam sg = sc_hv (h_scope h)) /\
    s_title sg = str "EDX" /\ s_file sg = file /\ s_date sg = h_date h /\ s_sample sg = h_name h /\
    s_elements sg = VList (map (fun n => VLeaf (LText n)) names) /\ Permutation (map fst (h_elements h)) names /\ StronglySorted lex names /\
    Forall2 (fun e l => exists n, line_name (fst (snd e)) n /\ l = fst e ++ [95] ++ n) (h_elements h) lines /\ Permutation lines (s_lines sg) /\ StronglySorted lex (s_lines sg).
Proof.
  intros E file h ds c j sg H. unfold map_signal in H. destruct (hypermap E h j ds c) as [[[[hh ww] n] data]|]; [cbn [bind] in H|discriminate]. destruct (spectrum_of h j) as [s|] eqn:ES; [cbn [bind] in H|discriminate].
  match type of H with bind ?r _ = _ => destruct r as [y|]; [cbn [bind] in H|discriminate] end. destruct (detector_of E s) as [d|] eqn:ED; [cbn [bind] in H|discriminate].
  destruct (real_time E h) as [t|] eqn:ET; [cbn [bind] in H|discriminate]. destruct (xray_lines (h_elements h)) as [lines|] eqn:EL; [cbn [bind] in H|discriminate]. injection H as <-.
  unfold real_time in ET. destruct (key "LineAverage" (sc_dsp (h_scope h))) as [a|] eqn:K1; [cbn [bind] in ET|discriminate]. destruct (key "PixelAverage" (sc_dsp (h_scope h))) as [b|] eqn:K2; [cbn [bind] in ET|discriminate]. destruct (key "PixelTime" (sc_dsp (h_scope h))) as [tt|] eqn:K3; [cbn [bind] in ET|discriminate].
  destruct (number E a) as [qa|] eqn:N1; [cbn [bind] in ET|discriminate]. destruct (number E b) as [qb|] eqn:N2; [cbn [bind] in ET|discriminate]. destruct (number E tt) as [qt|] eqn:N3; [cbn [bind] in ET|discriminate]. injection ET as <-.
  apply key_spec in K1, K2, K3. apply number_spec in N1, N2, N3. destruct (sort_spec (map fst (h_elements h))) as [P1 S1]. destruct (sort_spec lines) as [P2 S2].
  exists s, d, a, b, tt, qa, qb, qt, (sort_str (map fst (h_elements h))), lines.
  cbn [s_detector d_elev d_type d_azimuth d_real d_live s_mode s_type s_mag s_beam s_title s_file s_date s_sample s_elements s_lines].
  split; [reflexivity|]. split; [apply detector_spec; exact ED|]. do 4 (split; [reflexivity|]). do 6 (split; [assumption|]). split; [eexists; split; [reflexivity|field]|]. do 3 (split; [reflexivity|]). split; [intros v ->; reflexivity|]. split; [intros ->; reflexivity|].
  do 5 (split; [reflexivity|]). split; [exact P1|]. split; [exact S1|]. split; [|split; [exact P2|exact S2]].
  clear - EL. unfold xray_lines in EL. revert lines EL. induction (h_elements h) as [|p l IH]; intros lines EL; cbn [mapM] in EL; [injection EL as <-; constructor|].
  match type of EL with bind (bind ?r _) _ = _ => destruct r as [u|] eqn:PL; [cbn [bind] in EL|discriminate] end. match type of EL with bind ?r _ = _ => destruct r as [rest|] eqn:ER; [cbn [bind] in EL|discriminate] end. injection EL as <-. constructor; [exists u; split; [apply line_spec; exact PL|reflexivity]|apply IH; reflexivity].
Qed.

(** * Files of one spectrum *)
Theorem C139_spectrum : forall E file top sg, spx_reader E file top = Ok sg ->
  exists sp s, first_such (typed "TRTSpectrum") top sp /\ edx E sp = Ok s /\ s_data sg = sp_data s /\
    s_axes sg = [{| a_name := "Energy"; a_size := zlen (sp_data s); a_offset := Some (sp_offset s); a_scale := SGiven (sp_scale s); a_units := str "keV"; a_nav := Some false |}] /\
    mode_of E (sp_hv s) (s_mode sg) /\ s_type sg = str "EDS_" ++ s_mode sg /\ s_beam sg = sp_hv s /\ detected E s (s_detector sg) /\ sp_date s = Some (s_date sg) /\ s_title sg = str "EDX" /\ s_file sg = file /\
    (lookup (str "Name") (x_attrs sp) = Some (s_sample sg) \/ lookup (str "Name") (x_attrs sp) = None /\ s_sample sg = str "Undefinded") /\
    ((forall y, In y (x_children sp) -> ~ typed "TRTPSEElementList" y) /\ s_elements sg = VNone \/
     exists l d c, first_such (typed "TRTPSEElementList") sp l /\ told E l d /\ entry d "ChildClassInstances" (VDict c) /\ entry c "XmlClassName" (s_elements sg)).
Proof.
  intros E file top sg H. unfold spx_reader in H. destruct (node [inst "TRTSpectrum"] top) as [sp|] eqn:E1; [cbn [bind] in H|discriminate]. cbv zeta in H. destruct (edx E sp) as [s|] eqn:E2; [cbn [bind] in H|discriminate].
  destruct (guess_mode E (sp_hv s)) as [m|] eqn:E3; [cbn [bind] in H|discriminate]. destruct (detector_of E s) as [d|] eqn:E4; [cbn [bind] in H|discriminate]. destruct (sp_date s) as [date|] eqn:E5; [cbn [bind] in H|discriminate].
  match type of H with bind ?r _ = _ => destruct r; [cbn [bind] in H|discriminate] end. match type of H with bind ?r _ = _ => destruct r as [els|] eqn:E6; [cbn [bind] in H|discriminate] end. injection H as <-.
  exists sp, s. cbn [s_data s_axes s_mode s_type s_beam s_detector s_date s_title s_file s_sample s_elements].
  split; [apply node_typed; exact E1|]. split; [exact E2|]. do 2 (split; [reflexivity|]). split; [apply mode_spec; exact E3|]. do 2 (split; [reflexivity|]). split; [apply detector_spec; exact E4|]. split; [exact E5|]. do 2 (split; [reflexivity|]). split.
  { destruct (lookup (str "Name") (x_attrs sp)); [left; reflexivity|right; split; reflexivity]. }
  pose proof (find_typed "TRTPSEElementList" sp) as FE. destruct (find [inst "TRTPSEElementList"] sp) as [l|]; [|left; split; [exact FE|congruence]].
  right. destruct (todict E l) as [t|] eqn:T; [cbn [bind] in E6|discriminate]. destruct (key "ChildClassInstances" t) as [v|] eqn:V; [cbn [bind] in E6|discriminate]. destruct v; try discriminate. cbn [dict_of bind] in E6.
  exists l, t, d0. split; [exact FE|]. split; [apply todict_spec; exact T|]. split; [apply key_spec; exact V|apply key_spec; exact E6].
Qed.
