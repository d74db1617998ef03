(** C142: what the table of the metadata of Digital Micrograph files depends on, and whole files. *)
From Coq Require Import QArith.
From Verif Require DmProps.
From Verif Require Import Base Text HierModel HierProps SfsModel RplModel DmModel DmImageModel DmMetaModel LogText ProtoFile DmAxes DmTable.
Local Open Scope Z_scope.

(** * What the table depends on *)
(** The tags used: those of the image, or of the first one of a stack *)
Definition source_of (im tg : dval) : Prop := (present ["source"]%string im /\ tags ["source"; "Tags at creation"]%string im tg) \/ (~ present ["source"]%string im /\ tags [] im tg).
Lemma field_below : forall k v x, field (str k) v = Ok x <-> below [k] v x.
Proof.
  intros k v x. cbn [below]. unfold field. split.
  - destruct v; try discriminate. destruct (lookup (str k) d) as [y|] eqn:L; [|discriminate]. intro H. injection H as <-. exists d, y. split; [reflexivity|]. split; [exact L|reflexivity].
  - intros (d & y & -> & L & ->). rewrite L. reflexivity.
Qed.
Lemma inside_spec : forall k v b, inside k v = Ok b -> (b = true <-> exists x, below [k] v x).
Proof.
  intros k v b H. unfold inside in H. destruct v; try discriminate. injection H as <-. unfold has. destruct (lookup (str k) d) as [y|] eqn:L; split; try discriminate; try reflexivity.
  - intros _. exists y, d, y. split; [reflexivity|]. split; [exact L|reflexivity].
  - intros (x & d' & y & E & L' & _). injection E as <-. congruence.
Qed.
Lemma below_app : forall p q v x, below (p ++ q) v x <-> exists y, below p v y /\ below q y x.
Proof.
  induction p as [|k p IH]; intros q v x; cbn [app below]; [split; [intro H; exists v; tauto|intros (y & <- & H); exact H]|]. split.
  - intros (d & y & -> & L & B). apply IH in B. destruct B as (z & B1 & B2). exists z. split; [|exact B2]. exists d, y. tauto.
  - intros (z & (d & y & -> & L & B1) & B2). exists d, y. split; [reflexivity|]. split; [exact L|]. apply IH. exists z. tauto.
Qed.
Lemma below_fun : forall p v x y, below p v x -> below p v y -> x = y.
Proof. intros p v x y A B. apply get_spec in A. apply get_spec in B. congruence. Qed.
Theorem C142_flags : forall im f, flags_of im = Ok f -> exists tg, source_of im tg /\
  (f_source f = true <-> present ["source"]%string im) /\ (f_scanning f = true <-> exists x, below ["DigiScan"]%string tg x) /\ (f_si f = true <-> present ["SI"]%string im) /\ f_kind f = signal_type im /\
  (forall t, tags ["Microscope Info"; "Illumination Mode"]%string im (DStr t) -> (f_sem f = true <-> occurs (str "SEM") t /\ ~ occurs (str "STEM") t)) /\ (~ present ["Microscope Info"; "Illumination Mode"]%string im -> f_sem f = false) /\
  match f_scope f with
  | None => ~ exists m, below ["Microscope Info"]%string tg m
  | Some (a, b) => exists m, below ["Microscope Info"]%string tg m /\ (a = true <-> below ["Illumination Mode"]%string m (DStr (str "TEM"))) /\ (b = true <-> below ["Imaging Mode"]%string m (DStr (str "DIFFRACTION")))
  end.
Proof.
  intros im f H. unfold flags_of in H. destruct (field (str "ImageTags") im) as [t|] eqn:ET; [|discriminate]. cbn [bind] in H. pose proof (proj1 (field_below "ImageTags" im t) ET) as BT.
  assert (PR : forall p, present p im <-> exists x, below p t x).
  { intro p. unfold present, tags. change ("ImageTags"%string :: p) with (["ImageTags"%string] ++ p). split; intros [x X].
    - apply below_app in X. destruct X as (y & Y1 & Y2). rewrite (below_fun _ _ _ _ BT Y1). exists x. exact Y2.
    - exists x. apply below_app. exists t. tauto. }
  assert (TG : forall p x, tags p im x <-> below p t x).
  { intros p x. unfold tags. change ("ImageTags"%string :: p) with (["ImageTags"%string] ++ p). rewrite below_app. split; [intros (y & Y1 & Y2); rewrite (below_fun _ _ _ _ BT Y1); exact Y2|intro X; exists t; tauto]. }
  destruct (inside "source" t) as [src|] eqn:ES; [|discriminate]. cbn [bind] in H. pose proof (inside_spec _ _ _ ES) as IS.
  match type of H with bind ?r _ = _ => destruct r as [tg|] eqn:EI end; [|discriminate]. cbn [bind] in H.
  destruct (inside "DigiScan" tg) as [scan|] eqn:ED; [|discriminate]. cbn [bind] in H. pose proof (inside_spec _ _ _ ED) as ID.
  destruct (inside "Microscope Info" t) as [mi|] eqn:EM; [|discriminate]. cbn [bind] in H. pose proof (inside_spec _ _ _ EM) as IM.
  match type of H with bind ?r _ = _ => destruct r as [sem|] eqn:ESEM end; [|discriminate]. cbn [bind] in H.
  destruct (inside "Microscope Info" tg) as [mi'|] eqn:EM'; [|discriminate]. cbn [bind] in H. pose proof (inside_spec _ _ _ EM') as IM'.
  match type of H with bind ?r _ = _ => destruct r as [sc|] eqn:ESC end; [|discriminate]. cbn [bind] in H.
  destruct (inside "SI" t) as [si|] eqn:ESI; [|discriminate]. cbn [bind] in H. pose proof (inside_spec _ _ _ ESI) as II. injection H as <-. cbn [f_source f_scanning f_sem f_scope f_si f_kind].
  exists tg. split; [|split; [rewrite PR; exact IS|split; [exact ID|split; [rewrite PR; exact II|split; [reflexivity|split; [|split]]]]]].
  - unfold source_of. rewrite PR, !TG. destruct src.
    + left. split; [apply IS; reflexivity|]. destruct (field (str "source") t) as [s|] eqn:F1; [|discriminate]. cbn [bind] in EI. change ["source"; "Tags at creation"]%string with (["source"%string] ++ ["Tags at creation"%string]). apply below_app. exists s. split; [apply field_below; exact F1|apply field_below; exact EI].
    + right. injection EI as <-. split; [intro K; apply IS in K; discriminate|reflexivity].
  - intros x X. apply TG in X. change ["Microscope Info"; "Illumination Mode"]%string with (["Microscope Info"%string] ++ ["Illumination Mode"%string]) in X. apply below_app in X. destruct X as (m & X1 & X2).
    assert (mi = true) by (apply IM; exists m; exact X1). subst mi. rewrite (proj2 (field_below _ _ _) X1) in ESEM. cbn [bind] in ESEM. destruct (inside "Illumination Mode" m) as [b|] eqn:EB; [|discriminate]. cbn [bind] in ESEM.
    assert (b = true) by (apply (inside_spec _ _ _ EB); exists (DStr x); exact X2). subst b. rewrite (proj2 (field_below _ _ _) X2) in ESEM. cbn [bind] in ESEM.
    destruct (C141_mode x) as (r & R & RS). rewrite R in ESEM. cbn [bind] in ESEM. injection ESEM as <-. rewrite eqb_str_spec.
    destruct RS as [[-> O]|[(-> & O & N)|(-> & O & N)]]; split; try discriminate; try tauto.
  - intro N. destruct mi; [|injection ESEM as <-; reflexivity]. destruct (field (str "Microscope Info") t) as [m|] eqn:F1; [|discriminate]. cbn [bind] in ESEM. destruct (inside "Illumination Mode" m) as [b|] eqn:EB; [|discriminate]. cbn [bind] in ESEM.
    destruct b; [|injection ESEM as <-; reflexivity]. exfalso. apply N. rewrite PR. destruct (proj1 (inside_spec _ _ _ EB) eq_refl) as [x X]. exists x. change ["Microscope Info"; "Illumination Mode"]%string with (["Microscope Info"%string] ++ ["Illumination Mode"%string]). apply below_app. exists m. split; [apply field_below; exact F1|exact X].
  - destruct mi'.
    + destruct (field (str "Microscope Info") tg) as [m|] eqn:F1; [|discriminate]. cbn [bind] in ESC. destruct (inside "Illumination Mode" m); [|discriminate]. cbn [bind] in ESC. injection ESC as <-. exists m. split; [apply field_below; exact F1|]. split; apply text_spec.
    + injection ESC as <-. intro K. apply IM' in K. discriminate.
Qed.
(** Of a stack made with the stack builder the kind of microscope is not seen *)
Theorem C142_stack_refuted : exists im tg f, source_of im tg /\ below ["Microscope Info"; "Illumination Mode"]%string tg (DStr (str "SEM")) /\ flags_of im = Ok f /\ f_sem f = false.
Proof.
  set (tg := DDict [(str "Microscope Info", DDict [(str "Illumination Mode", DStr (str "SEM"))])]).
  exists (DDict [(str "ImageTags", DDict [(str "source", DDict [(str "Tags at creation", tg)])])]), tg. eexists. split; [|split; [|split; [vm_compute; reflexivity|reflexivity]]].
  - left. split; [eexists; apply get_spec; vm_compute; reflexivity|apply get_spec; vm_compute; reflexivity].
  - apply get_spec. vm_compute. reflexivity.
Qed.
(** The axis of energies of X-rays has no name of its own *)
Theorem C140_x_rays_refuted : exists im, kind im "EDS_TEM" /\ shape im = Ok [5; 2048] /\ units im = Ok [DStr (str "nm"); DStr (str "keV")] /\ names im = Ok [Some "y"; Some "x"]%string.
Proof.
  set (dim u := DDict [(str "Origin", DInt 2); (str "Scale", DInt 3); (str "Units", DStr (str u))]).
  exists (DDict [(str "ImageData", DDict [(str "Calibrations", DDict [(str "Dimension", DDict [(str "TagGroup0", dim "keV"%string); (str "TagGroup1", dim "nm"%string)])]); (str "Dimensions", DDict [(str "Data0", DInt 2048); (str "Data1", DInt 5)])]);
                 (str "ImageTags", DDict [(str "Meta Data", DDict [(str "Signal", DStr (str "X-ray"))])])]).
  split; [apply x_ray, get_spec; vm_compute; reflexivity|]. repeat split; vm_compute; reflexivity.
Qed.
(** * The file *)
Theorem C142_file : forall E file bytes l, dm_reader E file bytes = Ok l ->
  exists tg ims, parse_file bytes = Ok tg /\ images tg = Ok ims /\
    Forall2 (fun im s => get_data bytes im = Ok (s_data s) /\ get_axes E im = Ok (s_axes s) /\ s_title s = title im /\ s_type s = signal_type im /\ s_file s = file /\ to_spectrum E im = Ok (s_spectrum s) /\
      (exists f, flags_of im = Ok f /\ s_mapping s = table f) /\
      lookup (str "ImageList") (s_original s) = Some (DDict [(str "TagGroup0", im)]) /\ forall k, k <> str "ImageList" -> lookup k (s_original s) = lookup k tg) ims l.
Proof.
  intros E file bytes l H. unfold dm_reader in H. destruct (parse_file bytes) as [tg|] eqn:EP; [|discriminate]. cbn [bind] in H. destruct (images tg) as [ims|] eqn:EI; [|discriminate]. cbn [bind] in H. exists tg, ims. split; [reflexivity|]. split; [exact EI|].
  apply mapM_all in H. clear EI EP. induction H as [|im s ims l X F IH]; constructor; [|exact IH]. clear IH F. unfold signal_of in X.
  destruct (get_axes E im) as [a|] eqn:A; [|discriminate]. cbn [bind] in X. destruct (to_spectrum E im) as [sp|] eqn:S; [|discriminate]. cbn [bind] in X. destruct (get_data bytes im) as [d|] eqn:D; [|discriminate]. cbn [bind] in X.
  unfold get_mapping in X. destruct (flags_of im) as [f|] eqn:FL; [|discriminate]. cbn [bind] in X. injection X as <-. cbn [s_data s_axes s_title s_type s_file s_spectrum s_mapping s_original].
  repeat (split; [reflexivity|]). split; [exists f; split; reflexivity|]. unfold original. split.
  - induction tg as [|[k v] tg IH]; [reflexivity|]. cbn [filter]. destruct (eqb_str k (str "ImageList")) eqn:E0; cbn [negb]; [exact IH|]. cbn [app lookup]. assert (E1 : eqb_str (str "ImageList") k = false). { destruct (eqb_str (str "ImageList") k) eqn:Q; [|reflexivity]. apply eqb_str_spec in Q. rewrite Q, eqb_str_refl in E0. discriminate. } rewrite E1. exact IH.
  - intros k N. induction tg as [|[k' v] tg IH].
    + cbn [filter app lookup]. destruct (eqb_str k (str "ImageList")) eqn:Q; [apply eqb_str_spec in Q; contradiction|reflexivity].
    + cbn [filter]. destruct (eqb_str k' (str "ImageList")) eqn:E0; cbn [negb app lookup].
      * apply eqb_str_spec in E0. subst k'. destruct (eqb_str k (str "ImageList")) eqn:Q; [apply eqb_str_spec in Q; contradiction|]. exact IH.
      * destruct (eqb_str k k'); [reflexivity|exact IH].
Qed.
(** A cube of energy loss spectra of three dimensions, of which two are calibrated *)
Definition demo : dval :=
  let dim o s u := DDict [(str "Origin", DInt o); (str "Scale", DInt s); (str "Units", u)] in
  DDict [(str "ImageData", DDict [(str "Calibrations", DDict [(str "Dimension", DDict [(str "TagGroup0", dim 2 3 (DStr (str "nm"))); (str "TagGroup1", dim (-7) 5 (DList []))])]);
                                  (str "Dimensions", DDict [(str "Data0", DInt 20); (str "Data1", DInt 30); (str "Data2", DInt 1024)])]);
         (str "ImageTags", DDict [(str "Meta Data", DDict [(str "Signal", DStr (str "EELS")); (str "Format", DStr (str "Spectrum image"))]); (str "SI", DDict []);
                                  (str "Microscope Info", DDict [(str "Illumination Mode", DStr (str "TEM")); (str "Imaging Mode", DStr (str "DIFFRACTION"))])]);
         (str "Name", DStr (str "map"))].
Definition demo_spectrum : dval :=
  DDict [(str "ImageData", DDict [(str "Calibrations", DDict [(str "Dimension", DDict [(str "TagGroup0", DDict [(str "Origin", DInt 100); (str "Scale", DInt 2); (str "Units", DStr (str "eV"))]);
                                                                                       (str "TagGroup1", DDict [(str "Origin", DInt 0); (str "Scale", DInt 1); (str "Units", DStr (str "nm"))])])]);
                                  (str "Dimensions", DDict [(str "Data0", DInt 2048); (str "Data1", DInt 9)])]);
         (str "ImageTags", DDict [(str "spim", DDict [(str "eels", DDict [])])])].
Example C140_demo : kind demo "EELS" /\ shape demo = Ok [1024; 30; 20] /\ names demo = Ok [Some "z"; Some "y"; Some "x"]%string /\ to_spectrum small demo = Ok true /\ title demo = DStr (str "map") /\
  (let! l := get_axes small demo in Ok (map (fun a => (a_size a, Qred (a_scale a), Qred (a_offset a), a_units a, a_nav a)) l)) =
    Ok [(1024, 1%Q, 0%Q, DStr [], true); (30, 5%Q, 35%Q, DStr [], false); (20, 3%Q, (-6)%Q, DStr (str "nm"), false)].
Proof.
  split; [apply loss; [intro K|intros [K|[x K]]|left]; [| | |apply get_spec; vm_compute; reflexivity]; apply get_spec in K; vm_compute in K; discriminate|]. repeat split; vm_compute; reflexivity.
Qed.
Example C140_spectrum_demo : spectral "EELS" "eV" "Energy loss" /\ units demo_spectrum = Ok [DStr (str "nm"); DStr (str "eV")] /\ first_with "eV" [DStr (str "nm"); DStr (str "eV")] 1 /\
  (let! l := get_axes small demo_spectrum in Ok (map (fun a => (a_name a, a_size a, Qred (a_offset a), a_nav a)) l)) = Ok [(Some "x"%string, 9, 0%Q, true); (Some "Energy loss"%string, 2048, (-200)%Q, false)].
Proof. split; [constructor|]. split; [vm_compute; reflexivity|]. split; [exists [DStr (str "nm")], []; repeat split; intros [K|[]]; discriminate|vm_compute; reflexivity]. Qed.
Example C142_demo : exists f, flags_of demo = Ok f /\ f_scope f = Some (true, true) /\ f_si f = true /\ f_sem f = false /\ branch_of (f_kind f) = Eels /\ List.length (table f) = 27%nat.
Proof. eexists. split; [vm_compute; reflexivity|]. repeat split; vm_compute; reflexivity. Qed.
Example C142_instrument_demo : exists f, f_sem f = true /\ f_kind f = str "CL" /\ (forall b, f_scope f <> Some (true, b)) /\ List.length (table f) = 44%nat.
Proof. exists {| f_source := true; f_scanning := true; f_sem := true; f_scope := None; f_si := false; f_kind := str "CL" |}. repeat split; discriminate. Qed.

Print Assumptions C140_kind.
Print Assumptions C140_names.
Print Assumptions C140_axes.
Print Assumptions C140_turned.
Print Assumptions C140_title.
Print Assumptions C140_x_rays_refuted.
Print Assumptions C141_mode.
Print Assumptions C141_quantity.
Print Assumptions C141_microscope.
Print Assumptions C141_exposure.
Print Assumptions C141_texts.
Print Assumptions C141_detector.
Print Assumptions C142_once.
Print Assumptions C142_sources.
Print Assumptions C142_general.
Print Assumptions C142_magnification.
Print Assumptions C142_branch.
Print Assumptions C142_dates.
Print Assumptions C142_kinds.
Print Assumptions C142_brightness.
Print Assumptions C142_instrument.
Print Assumptions C142_eds_refuted.
Print Assumptions C142_flags.
Print Assumptions C142_stack_refuted.
Print Assumptions C142_file.
(** A file with one image of two numbers *)
Definition whole_file : list Z :=
  DmProps.enc_file true false 0 0 0
    [(str "ImageList", DmProps.Node 0 0 0 [([], DmProps.Node 0 0 0
      [(str "ImageData", DmProps.Node 0 0 0
         [(str "Calibrations", DmProps.Node 0 0 0 [(str "Dimension", DmProps.Node 0 0 0 [([], DmProps.Node 0 0 0 [(str "Origin", DmProps.Leaf 0 (DmProps.TSimple 5 4)); (str "Scale", DmProps.Leaf 0 (DmProps.TSimple 5 3)); (str "Units", DmProps.Leaf 0 (DmProps.TArray 4 [110; 109]))])])]);
          (str "Data", DmProps.Leaf 0 (DmProps.TArray 2 [7; 8])); (str "DataType", DmProps.Leaf 0 (DmProps.TSimple 5 1)); (str "Dimensions", DmProps.Node 0 0 0 [([], DmProps.Leaf 0 (DmProps.TSimple 5 2))])]);
       (str "ImageTags", DmProps.Node 0 0 0 [(str "DigiScan", DmProps.Node 0 0 0 [])])])])] [].
Example C142_file_demo : (let! l := dm_reader small (str "a.dm4") whole_file in Ok (map (fun s => (s_data s, map (fun a => (a_name a, a_size a, Qred (a_offset a), a_nav a)) (s_axes s), s_type s, s_spectrum s, List.length (s_mapping s))) l)) =
  Ok [(Plain [2] [[7; 0]; [8; 0]], [(Some "x"%string, 2, (-12)%Q, false)], [], false, 16%nat)].
Proof. vm_compute. reflexivity. Qed.
(** Modes from lists, which empty texts of the files are read as *)
Lemma in_texts : forall s l, existsb (fun x => is_text s (Some x)) l = true <-> In (DStr (str s)) l.
Proof.
  intros s l. rewrite existsb_exists. split.
  - intros (x & I & H). unfold is_text in H. destruct x; try discriminate. apply eqb_str_spec in H. subst. exact I.
  - intro I. exists (DStr (str s)). split; [exact I|]. unfold is_text. apply eqb_str_refl.
Qed.
Theorem C141_lists : forall l, exists m, mode (DList l) = Ok (str m) /\ mode (DTuple l) = Ok (str m) /\
  (m = "STEM"%string /\ In (DStr (str "STEM")) l \/ m = "SEM"%string /\ In (DStr (str "SEM")) l /\ ~ In (DStr (str "STEM")) l \/ m = "TEM"%string /\ ~ In (DStr (str "SEM")) l /\ ~ In (DStr (str "STEM")) l).
Proof.
  intro l. unfold mode. destruct (existsb (fun x => is_text "STEM" (Some x)) l) eqn:A.
  - apply in_texts in A. exists "STEM"%string. tauto.
  - assert (N : ~ In (DStr (str "STEM")) l) by (intro K; apply in_texts in K; congruence).
    destruct (existsb (fun x => is_text "SEM" (Some x)) l) eqn:B.
    + apply in_texts in B. exists "SEM"%string. tauto.
    + assert (N' : ~ In (DStr (str "SEM")) l) by (intro K; apply in_texts in K; congruence). exists "TEM"%string. tauto.
Qed.
Example C141_lists_demo : mode (DList []) = Ok (str "TEM") /\ mode (DList [DStr (str "SEM")]) = Ok (str "SEM").
Proof. split; reflexivity. Qed.
Print Assumptions C141_lists.
