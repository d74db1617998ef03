(** Property C78: headers and spectra of EDAX files. *)
From Coq Require Import QArith Permutation Sorted.
From Verif Require Import Base Text Bytes SfsModel SfsProps HierModel RowMajor SurFloat EdaxModel.
Local Open Scope Z_scope.

(** * Specification *)
(** Numbers of [w] bytes in a file: unsigned, signed, and [n] of them *)
Definition word (big : bool) (w : nat) (f : list Z) (p : Z) : Z := dec_int big (slice (Z.to_nat p) w f).
Definition integer (big : bool) (w : nat) (f : list Z) (p : Z) : Z := signed w (word big w f p).
Definition words_from (big : bool) (w : nat) (f : list Z) (p n : Z) : list Z := map (fun i => word big w f (p + Z.of_nat w * i)) (zseq 0 (Z.to_nat n)).
Definition o (s : string) (z : Z) : string * Z := (s, z).
(** Where the numbers of a .spc file are, in the order of the file *)
Definition spc_offsets : list (string * Z) :=
  [o "fVersion" 0; o "aVersion" 4; o "fileName" 8; o "collectDateYear" 16; o "collectDateDay" 18; o "collectDateMon" 19; o "collectTimeMin" 20; o "collectTimeHour" 21;
   o "collectTimeHund" 22; o "collectTimeSec" 23; o "fileSize" 24; o "dataStart" 28; o "numPts" 32; o "intersectingDist" 34; o "workingDist" 36; o "scaleSetting" 38;
   o "filler1" 40; o "spectrumLabel" 64; o "imageFilename" 320; o "spotX" 328; o "spotY" 330; o "imageADC" 332; o "discrValues" 334; o "discrEnabled" 354; o "pileupProcessed" 359;
   o "fpgaVersion" 360; o "pileupProcVersion" 364; o "NB5000CFG" 368; o "filler2" 372; o "evPerChan" 384; o "ADCTimeConstant" 388; o "analysisType" 390; o "preset" 392; o "maxp" 396;
   o "maxPeakCh" 400; o "xRayTubeZ" 404; o "filterZ" 406; o "current" 408; o "sampleCond" 412; o "sampleType" 414; o "xrayCollimator" 416; o "xrayCapilaryType" 418;
   o "xrayCapilarySize" 420; o "xrayFilterThickness" 422; o "spectrumSmoothed" 424; o "detector_Size_SiLi" 426; o "spectrumReCalib" 428; o "eagleSystem" 430; o "sumPeakRemoved" 432;
   o "edaxSoftwareType" 434; o "filler3" 436; o "escapePeakRemoved" 442; o "analyzerType" 444; o "startEnergy" 448; o "endEnergy" 452; o "liveTime" 456; o "tilt" 460; o "takeoff" 464;
   o "beamCurFact" 468; o "detReso" 472; o "detectType" 476; o "parThick" 480; o "alThick" 484; o "beWinThick" 488; o "auThick" 492; o "siDead" 496; o "siLive" 500; o "xrayInc" 504;
   o "azimuth" 508; o "elevation" 512; o "bCoeff" 516; o "cCoeff" 520; o "tailMax" 524; o "tailHeight" 528; o "kV" 532; o "apThick" 536; o "xTilt" 540; o "yTilt" 544; o "yagStatus" 548;
   o "filler4" 552; o "rawDataType" 576; o "totalBkgdCount" 578; o "totalSpectralCount" 582; o "avginputCount" 586; o "stdDevInputCount" 590; o "peakToBack" 594; o "peakToBackValue" 596;
   o "filler5" 600; o "numElem" 638; o "at" 640; o "line" 736; o "energy" 832; o "height" 1024; o "spkht" 1216; o "filler5_1" 1312; o "numRois" 1342; o "st" 1344; o "end" 1440;
   o "roiEnable" 1536; o "roiNames" 1632; o "filler5_2" 1824; o "userID" 1825; o "filler5_3" 1905; o "sRoi" 2016; o "scaNum" 2112; o "filler6" 2208; o "backgrdWidth" 2220;
   o "manBkgrdPerc" 2222; o "numBkgrdPts" 2226; o "backMethod" 2228; o "backStEng" 2232; o "backEndEng" 2236; o "bg" 2240; o "bgType" 2368; o "concenKev1" 2372; o "concenKev2" 2376;
   o "concenMethod" 2380; o "jobFilename" 2382; o "filler7" 2414; o "numLabels" 2430; o "label" 2432; o "labelx" 2752; o "labely" 2772; o "zListFlag" 2812; o "bgPercents" 2816;
   o "IswGBg" 3072; o "BgPoints" 3074; o "IswGConc" 3094; o "numConcen" 3096; o "ZList" 3098; o "GivenConc" 3146; o "filler8" 3242; o "s" 3840; o "longFileName" 20224;
   o "longImageFileName" 20480].
Definition spc_offsets_new : list (string * Z) :=
  [o "ADCTimeConstantNew" 20736; o "filler9" 20740; o "numZElements" 20800; o "zAtoms" 20802; o "zShells" 20898].
Definition spc_offsets_short : list (string * Z) :=
  [o "dataStart" 28; o "numPts" 32; o "evPerChan" 384; o "startEnergy" 448; o "endEnergy" 452; o "liveTime" 456; o "tilt" 460; o "detReso" 472; o "azimuth" 508; o "elevation" 512;
   o "kV" 532; o "numElem" 638; o "at" 640].
(** The version of the file is at least 0.7 once rounded to hundredths *)
Definition new_version (big : bool) (f : list Z) : bool := 70 <=? hundredths (word big 4 f 0).
(** Length of the header *)
Definition header_size (all new : bool) : Z := if all then if new then 20994 else 20736 else 20740.
(** Order of texts *)
Inductive lex : pystr -> pystr -> Prop :=
  | lex_nil : forall b, lex [] b
  | lex_lt : forall x y a b, x < y -> lex (x :: a) (y :: b)
  | lex_eq : forall x a b, lex a b -> lex (x :: a) (x :: b).
(** Chemical elements *)
Definition atomic (z : Z) : Prop := 1 <= z <= 119.

(** [n] values of a kind from a position of the file *)
Definition values (big : bool) (k : kind) (n : Z) (f : list Z) (p : Z) : list Z :=
  match k with
  | Int w => map (signed (Z.to_nat w)) (words_from big (Z.to_nat w) f p n)
  | Uint w => words_from big (Z.to_nat w) f p n
  | Flt => words_from big 4 f p n
  | Raw w => slice (Z.to_nat p) (Z.to_nat (n * w)) f
  end.

(** * Fields of a structure *)
Lemma ok_inj : forall A (a b : A), Ok a = Ok b -> a = b.
Proof. intros A a b H. injection H as H. exact H. Qed.
Fixpoint locate (name : pystr) (o : Z) (l : list field) : option (Z * field) :=
  match l with [] => None | f :: l' => if eqb_str name (f_name f) then Some (o, f) else locate name (o + width f) l' end.
Definition positive (f : field) : Prop := 0 <= f_count f /\ 0 <= item_width (f_kind f).
Lemma width_nonneg : forall f, positive f -> 0 <= width f.
Proof. intros f [A B]. unfold width. nia. Qed.
Lemma lookup_fields : forall big l f o name p fl, Forall positive l -> 0 <= o -> locate name o l = Some (p, fl) -> 
  o <= p /\ positive fl /\ lookup name (read_fields big l (skipz o f)) = Some (read_field big fl (skipz p f)).
Proof.
  intros big l f. induction l as [|g l IH]; intros o name p fl HP Ho H; [discriminate H|]. cbn [locate] in H. cbn [read_fields lookup]. inversion HP as [|? ? Hg HP']; subst. destruct (eqb_str name (f_name g)).
  - injection H as <- <-. split; [lia|]. split; [exact Hg|reflexivity].
  - pose proof (width_nonneg g Hg) as W. destruct (IH (o + width g) name p fl HP' ltac:(lia) H) as [A [B C]]. split; [lia|]. split; [exact B|].
    rewrite <- C. rewrite (skipz_skipn _ (skipz o f)), (skipz_skipn _ f o), skipn_skipn, (skipz_skipn _ f (o + width g)). do 3 f_equal. lia.
Qed.
Lemma records_slices : forall (f : list Z) n w p, (0 <= p) -> records n w (skipz p f) = map (fun i => slice (Z.to_nat (p + Z.of_nat w * i)) w f) (zseq 0 n).
Proof.
  intros f n w p Hp. assert (G : forall n k, 0 <= k -> records n w (skipz (p + Z.of_nat w * k) f) = map (fun i => slice (Z.to_nat (p + Z.of_nat w * i)) w f) (zseq k n)).
  { induction n0 as [|n0 IH]; intros k Hk; [reflexivity|]. cbn [records zseq map]. f_equal; [rewrite skipz_skipn; reflexivity|]. rewrite <- IH by lia. f_equal. rewrite !skipz_skipn, skipn_skipn. f_equal. nia. }
  rewrite <- (G n 0) by lia. f_equal. f_equal. lia.
Qed.
Lemma read_values : forall big fl f p, 0 <= p -> read_field big fl (skipz p f) = values big (f_kind fl) (f_count fl) f p.
Proof.
  intros big [nm k n] f p Hp. unfold read_field, values, items_of, words_from, word, width. cbn [f_kind f_count]. destruct k as [w|w| |w]; cbn [item_width].
  1-3: rewrite records_slices by exact Hp; rewrite !map_map; reflexivity.
  rewrite firstz_firstn, skipz_skipn. reflexivity.
Qed.
Definition positiveb (f : field) : bool := (0 <=? f_count f) && (0 <=? item_width (f_kind f)).
Lemma all_positive : forall l, forallb positiveb l = true -> Forall positive l.
Proof. intros l H. apply Forall_forall. intros f Hf. pose proof (proj1 (forallb_forall positiveb l) H f Hf) as P. unfold positiveb in P. split; lia. Qed.
Lemma layout_positive : forall all v, Forall positive (spc_layout all v).
Proof. intros all v. unfold spc_layout. destruct all; [destruct (70 <=? v)|]; apply all_positive; vm_compute; reflexivity. Qed.
Lemma layout_size : forall all v, size_of (spc_layout all v) = header_size all (70 <=? v).
Proof. intros all v. unfold spc_layout, header_size. destruct all; [destruct (70 <=? v)|]; vm_compute; reflexivity. Qed.

(** * Headers of .spc files *)
Lemma header_ok : forall big all f, 20736 <= zlen f -> header_size all (new_version big f) <= zlen f ->
  spc_header big all f = Ok (read_fields big (spc_layout all (hundredths (word big 4 f 0))) f).
Proof.
  intros big all f H4 H. unfold spc_header. replace (zlen f <? 4) with false by (symmetry; apply Z.ltb_ge; lia).
  assert (EF : firstz 4 f = slice (Z.to_nat 0) 4 f) by (rewrite firstz_firstn; reflexivity). rewrite EF. fold (word big 4 f 0). unfold read_struct. rewrite layout_size. fold (new_version big f).
  replace (zlen f <? header_size all (new_version big f)) with false by (symmetry; apply Z.ltb_ge; exact H). reflexivity.
Qed.
Lemma header_get : forall big all f h name p fl, 20736 <= zlen f -> header_size all (new_version big f) <= zlen f -> spc_header big all f = Ok h ->
  (locate (str name) 0 (spc_layout all (hundredths (word big 4 f 0))) = Some (p, fl)) -> get name h = Ok (values big (f_kind fl) (f_count fl) f p).
Proof.
  intros big all f h name p fl H4 H E L. rewrite (header_ok big all f H4 H) in E. apply ok_inj in E. subst h. unfold get.
  destruct (lookup_fields big (spc_layout all (hundredths (word big 4 f 0))) f 0 (str name) p fl (layout_positive _ _) ltac:(lia) L) as [P [_ C]].
  replace (skipz 0 f) with f in C by (rewrite skipz_skipn; reflexivity). rewrite C. rewrite read_values by lia. reflexivity.
Qed.
(** Every value of the header is read from its place in the file *)
Definition located (l : list field) (t : string * Z) : bool := match locate (str (fst t)) 0 l with Some (p, _) => p =? snd t | None => false end.
Lemma located_get : forall big all f h t, 20736 <= zlen f -> header_size all (new_version big f) <= zlen f -> spc_header big all f = Ok h ->
  located (spc_layout all (hundredths (word big 4 f 0))) t = true -> exists k n, get (fst t) h = Ok (values big k n f (snd t)).
Proof.
  intros big all f h t H4 H E L. unfold located in L. destruct (locate (str (fst t)) 0 _) as [[p fl]|] eqn:El; [|discriminate L]. apply Z.eqb_eq in L. subst p.
  exists (f_kind fl), (f_count fl). exact (header_get big all f h (fst t) (snd t) fl H4 H E El).
Qed.
Theorem C78_offsets : forall big f name p, header_size true (new_version big f) <= zlen f -> In (name, p) (spc_offsets ++ if new_version big f then spc_offsets_new else []) ->
  exists h k n, spc_header big true f = Ok h /\ get name h = Ok (values big k n f p).
Proof.
  intros big f name p H HI. assert (H4 : 20736 <= zlen f) by (unfold header_size in H; destruct (new_version big f); lia).
  pose proof (header_ok big true f H4 H) as E. eexists.
  destruct (located_get big true f _ (name, p) H4 H E) as [k [n G]]; [|exists k, n; split; [exact E|exact G]].
  unfold spc_layout. unfold new_version in HI. destruct (70 <=? hundredths (word big 4 f 0)).
  - refine (proj1 (forallb_forall (located (spc_full ++ spc_new)) (spc_offsets ++ spc_offsets_new)) _ (name, p) HI). vm_compute. reflexivity.
  - rewrite app_nil_r in HI. refine (proj1 (forallb_forall (located spc_full) spc_offsets) _ (name, p) HI). vm_compute. reflexivity.
Qed.
Theorem C78_offsets_short : forall big f name p, 20740 <= zlen f -> In (name, p) spc_offsets_short ->
  exists h k n, spc_header big false f = Ok h /\ get name h = Ok (values big k n f p).
Proof.
  intros big f name p H HI. pose proof (header_ok big false f ltac:(lia) H) as E. eexists.
  destruct (located_get big false f _ (name, p) ltac:(lia) H E) as [k [n G]]; [|exists k, n; split; [exact E|exact G]].
  refine (proj1 (forallb_forall (located spc_part) spc_offsets_short) _ (name, p) HI). vm_compute. reflexivity.
Qed.

(** * Chemical elements *)
Lemma element_names : forall z, atomic z -> exists s, element_name z = Ok s.
Proof.
  intros z H. unfold element_name. destruct (find (fun p => fst p =? z) elements) as [p|] eqn:E; [eexists; reflexivity|].
  assert (I : In z (map fst elements)) by (replace (map fst elements) with (zseq 1 119) by (vm_compute; reflexivity); apply in_zseq; unfold atomic in H; lia).
  apply in_map_iff in I. destruct I as [p [Ep Ip]]. pose proof (find_none _ _ E p Ip) as F. cbv beta in F. lia.
Qed.
Lemma element_unknown : forall z, ~ atomic z -> element_name z = Err KeyError.
Proof.
  intros z H. unfold element_name. destruct (find (fun p => fst p =? z) elements) as [p|] eqn:E; [|reflexivity]. exfalso. apply H. apply find_some in E. destruct E as [I E].
  assert (I' : In z (map fst elements)) by (apply in_map_iff; exists p; split; [lia|exact I]). replace (map fst elements) with (zseq 1 119) in I' by (vm_compute; reflexivity). apply in_zseq in I'. unfold atomic. lia.
Qed.
Theorem C78_elements : forall z, (exists s, element_name z = Ok s) <-> atomic z.
Proof.
  intro z. split; [|apply element_names]. intros [s E]. destruct (Z_le_dec 1 z) as [A|A]; [destruct (Z_le_dec z 119) as [B|B]; [split; assumption|]|];
    rewrite element_unknown in E by (unfold atomic; lia); discriminate E.
Qed.
Definition distinct_names (l : list (Z * string)) : bool :=
  forallb (fun p => forallb (fun q => (fst p =? fst q) || negb (eqb_str (str (snd p)) (str (snd q)))) l) l.
Theorem C78_elements_differ : forall z z' s, element_name z = Ok s -> element_name z' = Ok s -> z = z'.
Proof.
  intros z z' s A B. unfold element_name in A, B. destruct (find (fun p => fst p =? z) elements) as [p|] eqn:E; [|discriminate A]. destruct (find (fun p => fst p =? z') elements) as [q|] eqn:F; [|discriminate B].
  apply find_some in E. apply find_some in F. destruct E as [Ip Ep], F as [Iq Eq]. apply ok_inj in A. apply ok_inj in B.
  assert (D : distinct_names elements = true) by (vm_compute; reflexivity). unfold distinct_names in D. pose proof (proj1 (forallb_forall _ _) D p Ip) as D1. cbv beta in D1. pose proof (proj1 (forallb_forall _ _) D1 q Iq) as D2. cbv beta in D2.
  rewrite A, B, (proj2 (eqb_str_spec s s) eq_refl) in D2. lia.
Qed.

(** Names are sorted *)
Lemma leb_lex : forall a b, leb_str a b = true -> lex a b.
Proof.
  induction a as [|x a IH]; intros [|y b] H; cbn [leb_str] in H; try solve [constructor]; try discriminate H. apply orb_prop in H. destruct H as [H|H]; [apply lex_lt; lia|].
  apply andb_prop in H. destruct H as [E H]. apply Z.eqb_eq in E. subst y. apply lex_eq. apply IH. exact H.
Qed.
Lemma leb_lex_not : forall a b, leb_str a b = false -> lex b a.
Proof.
  induction a as [|x a IH]; intros [|y b] H; cbn [leb_str] in H; try solve [constructor]; try discriminate H. apply orb_false_elim in H. destruct H as [H1 H2].
  destruct (Z.eq_dec x y) as [E|E]; [subst y; apply lex_eq; apply IH; rewrite Z.eqb_refl in H2; exact H2|apply lex_lt; lia].
Qed.
Lemma lex_trans : forall a b c, lex a b -> lex b c -> lex a c.
Proof.
  intros a b c H. revert c. induction H as [b|x y a b L|x a b H IH]; intros c K; [constructor| |].
  - inversion K; subst; apply lex_lt; lia.
  - inversion K; subst; [apply lex_lt; assumption|apply lex_eq; apply IH; assumption].
Qed.
Lemma insert_perm : forall x l, Permutation (x :: l) (insert_str x l).
Proof. intros x l. induction l as [|y l IH]; [reflexivity|]. cbn [insert_str]. destruct (leb_str x y); [reflexivity|]. rewrite <- IH. apply perm_swap. Qed.
Lemma insert_sorted : forall x l, StronglySorted lex l -> StronglySorted lex (insert_str x l).
Proof.
  intros x l H. induction H as [|y l HS IH HF]; [repeat constructor|]. cbn [insert_str]. destruct (leb_str x y) eqn:E.
  - apply leb_lex in E. constructor; [constructor; assumption|]. constructor; [exact E|]. eapply Forall_impl; [|exact HF]. intros z Hz. exact (lex_trans _ _ _ E Hz).
  - apply leb_lex_not in E. constructor; [exact IH|]. rewrite <- insert_perm. constructor; assumption.
Qed.
Lemma sort_spec : forall l, Permutation l (sort_str l) /\ StronglySorted lex (sort_str l).
Proof.
  induction l as [|x l [P S]]; [split; constructor|]. cbn [sort_str]. split; [rewrite P at 1; apply insert_perm|apply insert_sorted; exact S].
Qed.

(** * Spectra *)
(** A name for the header values *)
Definition float_at (big : bool) (f : list Z) (p : Z) : list Z := [word big 4 f p].
Lemma one_word : forall big w f p, words_from big w f p 1 = [word big w f p].
Proof. intros. unfold words_from. change (Z.to_nat 1) with 1%nat. cbn [zseq map]. rewrite Z.mul_0_r, Z.add_0_r. reflexivity. Qed.
Section Header.
  Variables (big all : bool) (f : list Z).
  Hypothesis H0 : 20736 <= zlen f.
  Hypothesis H1 : header_size all (new_version big f) <= zlen f.
  Let h := read_fields big (spc_layout all (hundredths (word big 4 f 0))) f.
  Lemma got : forall name p fl, locate (str name) 0 spc_full = Some (p, fl) -> locate (str name) 0 (spc_full ++ spc_new) = Some (p, fl) -> locate (str name) 0 spc_part = Some (p, fl) ->
    get name h = Ok (values big (f_kind fl) (f_count fl) f p).
  Proof.
    intros name p fl A B C. apply (header_get big all f h name p fl H0 H1 (header_ok big all f H0 H1)). unfold spc_layout. destruct all; [destruct (70 <=? _)|]; assumption.
  Qed.
  Ltac got := match goal with |- get ?name _ = _ => let r := eval vm_compute in (locate (str name) 0 spc_part) in
     match r with Some (?p, ?fl) => rewrite (got name p fl) by (vm_compute; reflexivity) end end; unfold values; cbn [f_kind f_count]; rewrite ?one_word; reflexivity.
  Lemma get_start : get "dataStart" h = Ok [integer big 4 f 28]. Proof. got. Qed.
  Lemma get_points : get "numPts" h = Ok [integer big 2 f 32]. Proof. got. Qed.
  Lemma get_ev : get "evPerChan" h = Ok [integer big 4 f 384]. Proof. got. Qed.
  Lemma get_energy : get "startEnergy" h = Ok [word big 4 f 448]. Proof. got. Qed.
  Lemma get_live : get "liveTime" h = Ok [word big 4 f 456]. Proof. got. Qed.
  Lemma get_tilt : get "tilt" h = Ok [word big 4 f 460]. Proof. got. Qed.
  Lemma get_reso : get "detReso" h = Ok [word big 4 f 472]. Proof. got. Qed.
  Lemma get_azimuth : get "azimuth" h = Ok [word big 4 f 508]. Proof. got. Qed.
  Lemma get_elevation : get "elevation" h = Ok [word big 4 f 512]. Proof. got. Qed.
  Lemma get_kv : get "kV" h = Ok [word big 4 f 532]. Proof. got. Qed.
  Lemma get_num : get "numElem" h = Ok [integer big 2 f 638]. Proof. got. Qed.
  Lemma get_at : get "at" h = Ok (words_from big 2 f 640 48). Proof. got. Qed.
End Header.

(** The energy axis and the metadata of a spectrum *)
Definition spectrum_axis (big : bool) (f : list Z) (n : Z) : axis :=
  {| a_name := "Energy"%string; a_size := n; a_index := 0; a_scale := Number (integer big 4 f 384 # 1000); a_offset := Word (word big 4 f 448); a_units := Some "keV"%string; a_navigate := false |}.
(** Atomic numbers of the header, and their names, sorted *)
Definition header_elements (big : bool) (f : list Z) : list Z := firstz (integer big 2 f 638) (words_from big 2 f 640 48).
Definition names_ok (zs : list Z) (o : option (list pystr)) : Prop :=
  match zs with
  | [] => o = None
  | _ => exists l names, o = Some l /\ Forall2 (fun z s => element_name z = Ok s) zs names /\ Permutation names l /\ StronglySorted lex l
  end.
Definition meta_ok (big : bool) (f : list Z) (m : spc_meta) : Prop :=
  m_azimuth m = [word big 4 f 508] /\ m_elevation m = [word big 4 f 512] /\ m_resolution m = [word big 4 f 472] /\ m_live_time m = [word big 4 f 456] /\
  m_beam_energy m = [word big 4 f 532] /\ m_tilt m = [word big 4 f 460] /\ names_ok (header_elements big f) (m_elements m).

Lemma mapM_names : forall zs, Forall atomic zs -> exists names, mapM element_name zs = Ok names /\ Forall2 (fun z s => element_name z = Ok s) zs names.
Proof.
  intros zs H. induction H as [|z zs Hz H [names [E F]]]; [exists []; split; [reflexivity|constructor]|]. destruct (element_names z Hz) as [s Es]. exists (s :: names). cbn [mapM]. rewrite Es. cbn [bind]. rewrite E. split; [reflexivity|constructor; assumption].
Qed.
Lemma number_get : forall e name h x, get name h = Ok [x] -> number_of e name h = Ok x.
Proof. intros e name h x H. unfold number_of. rewrite H. reflexivity. Qed.
Lemma meta_read : forall big all f, 20736 <= zlen f -> header_size all (new_version big f) <= zlen f -> Forall atomic (header_elements big f) ->
  exists m, spc_metadata (read_fields big (spc_layout all (hundredths (word big 4 f 0))) f) = Ok m /\ meta_ok big f m.
Proof.
  intros big all f H0 H1 HA. unfold spc_metadata. rewrite (get_azimuth big all f H0 H1), (get_elevation big all f H0 H1), (get_reso big all f H0 H1), (get_live big all f H0 H1), (get_kv big all f H0 H1), (get_tilt big all f H0 H1). cbn [bind].
  rewrite (number_get _ _ _ _ (get_num big all f H0 H1)). cbn [bind]. destruct (0 <? integer big 2 f 638) eqn:E.
  - rewrite (get_at big all f H0 H1). cbn [bind]. destruct (mapM_names _ HA) as [names [Em F]]. unfold header_elements in Em. rewrite Em. cbn [bind].
    eexists. split; [reflexivity|]. unfold meta_ok. cbn [m_azimuth m_elevation m_resolution m_live_time m_beam_energy m_tilt m_elements]. repeat (split; [reflexivity|]). unfold names_ok. destruct (sort_spec names) as [P S].
    destruct (header_elements big f) as [|z zs] eqn:EH.
    + exfalso. unfold header_elements in EH. rewrite firstz_firstn in EH. assert (L : List.length (firstn (Z.to_nat (integer big 2 f 638)) (words_from big 2 f 640 48)) = O) by (rewrite EH; reflexivity).
      rewrite firstn_length in L. unfold words_from in L. rewrite map_length, zseq_length in L. change (Z.to_nat 48) with 48%nat in L. lia.
    + exists (sort_str names), names. repeat split; assumption.
  - cbn [bind]. eexists. split; [reflexivity|]. unfold meta_ok. cbn [m_azimuth m_elevation m_resolution m_live_time m_beam_energy m_tilt m_elements]. repeat (split; [reflexivity|]). unfold names_ok, header_elements. rewrite firstz_firstn.
    replace (Z.to_nat (integer big 2 f 638)) with O by lia. reflexivity.
Qed.
Lemma zlen_words : forall big w f p n, 0 <= n -> zlen (words_from big w f p n) = n.
Proof. intros. unfold zlen, words_from. rewrite map_length, zseq_length. lia. Qed.
Lemma items_words : forall big w f p n, 0 <= p -> map (dec_int big) (items_of n (Z.of_nat w) (skipz p f)) = words_from big w f p n.
Proof. intros big w f p n Hp. unfold items_of, words_from, word. rewrite Nat2Z.id. rewrite records_slices by exact Hp. rewrite map_map. reflexivity. Qed.
Lemma skipz_len : forall (f : list Z) p, 0 <= p -> zlen (skipz p f) = Z.max 0 (zlen f - p).
Proof. intros f p Hp. unfold zlen. rewrite skipz_skipn, skipn_length. lia. Qed.
Lemma fromfile_words : forall big w f p n, 0 <= p -> 0 <= n -> (0 < w)%nat -> fromfile big (Z.of_nat w) p n f = Ok (words_from big w f p (Z.min n (Z.max 0 (zlen f - p) / Z.of_nat w))).
Proof.
  intros big w f p n Hp Hn Hw. unfold fromfile. replace (p <? 0) with false by lia. replace (n <? 0) with false by lia. rewrite items_words by exact Hp. rewrite skipz_len by exact Hp. reflexivity.
Qed.
Lemma memmap_words : forall big w f p n, 0 <= p -> 0 <= n -> p + n * Z.of_nat w <= zlen f -> memmap big (Z.of_nat w) p n f = Ok (words_from big w f p n).
Proof.
  intros big w f p n Hp Hn H. unfold memmap. replace ((p <? 0) || (n <? 0)) with false by lia. replace (zlen f <? p + n * Z.of_nat w) with false by lia. rewrite items_words by exact Hp. reflexivity.
Qed.

(** A spectrum with a complete header and complete data, read in any way *)
Theorem C78_spectrum : forall lazy big all f, let n := integer big 2 f 32 in let start := integer big 4 f 28 in
  20736 <= zlen f -> header_size all (new_version big f) <= zlen f -> 0 <= n -> 0 <= start -> start + 4 * n <= zlen f -> Forall atomic (header_elements big f) ->
  exists m, meta_ok big f m /\
    spc_reader lazy big all f = Ok {| s_shape := [n]; s_data := words_from big 4 f start n; s_axes := [spectrum_axis big f n]; s_title := "EDS Spectrum"%string; s_meta := Some m |}.
Proof.
  intros lazy big all f n start H0 H1 Hn Hs He HA. destruct (meta_read big all f H0 H1 HA) as [m [Em Hm]]. exists m. split; [exact Hm|]. unfold spc_reader. rewrite (header_ok big all f H0 H1). cbn [bind].
  rewrite (number_get _ _ _ _ (get_start big all f H0 H1)). cbn [bind]. rewrite (number_get _ _ _ _ (get_points big all f H0 H1)). cbn [bind]. fold n. fold start.
  assert (ED : (if lazy then memmap else fromfile) big 4 start n f = Ok (words_from big 4 f start n)).
  { destruct lazy; [apply (memmap_words big 4); lia|]. rewrite (fromfile_words big 4) by lia. do 2 f_equal. change (Z.of_nat 4) with 4. lia. }
  rewrite ED. cbn [bind]. rewrite zlen_words by exact Hn. unfold energy_axis. rewrite (number_get _ _ _ _ (get_ev big all f H0 H1)). cbn [bind]. rewrite (number_get _ _ _ _ (get_energy big all f H0 H1)). cbn [bind]. rewrite Em. reflexivity.
Qed.
(** All header fields or only some of them: the same signal, or the same error *)
Theorem C78_same : forall lazy big f, 20740 <= zlen f -> header_size true (new_version big f) <= zlen f -> spc_reader lazy big true f = spc_reader lazy big false f.
Proof.
  intros lazy big f H0 H1. assert (G : 20736 <= zlen f) by lia. assert (H2 : header_size false (new_version big f) <= zlen f) by exact H0. unfold spc_reader.
  rewrite (header_ok big true f G H1), (header_ok big false f G H2). cbn [bind]. unfold energy_axis, spc_metadata, number_of.
  rewrite (get_start big true f G H1), (get_start big false f G H2), (get_points big true f G H1), (get_points big false f G H2). cbn [bind]. destruct ((if lazy then memmap else fromfile) big 4 _ _ f) as [d|e]; [|reflexivity]. cbn [bind].
  rewrite (get_ev big true f G H1), (get_ev big false f G H2). cbn [bind]. rewrite (get_energy big true f G H1), (get_energy big false f G H2). cbn [bind].
  rewrite (get_azimuth big true f G H1), (get_elevation big true f G H1), (get_reso big true f G H1), (get_live big true f G H1), (get_kv big true f G H1), (get_tilt big true f G H1).
  rewrite (get_azimuth big false f G H2), (get_elevation big false f G H2), (get_reso big false f G H2), (get_live big false f G H2), (get_kv big false f G H2), (get_tilt big false f G H2). cbn [bind].
  rewrite (get_num big true f G H1), (get_num big false f G H2). cbn [bind]. rewrite (get_at big true f G H1), (get_at big false f G H2). reflexivity.
Qed.
(** Cut data: fewer points, and a shorter axis *)
Theorem C78_cut : forall big all f, let n := integer big 2 f 32 in let start := integer big 4 f 28 in
  20736 <= zlen f -> header_size all (new_version big f) <= zlen f -> 0 <= n -> 0 <= start <= zlen f -> Forall atomic (header_elements big f) ->
  exists s, let k := Z.min n ((zlen f - start) / 4) in spc_reader false big all f = Ok s /\ s_data s = words_from big 4 f start k /\ s_axes s = [spectrum_axis big f k].
Proof.
  intros big all f n start H0 H1 Hn Hs HA. destruct (meta_read big all f H0 H1 HA) as [m [Em Hm]]. unfold spc_reader. rewrite (header_ok big all f H0 H1). cbn [bind].
  rewrite (number_get _ _ _ _ (get_start big all f H0 H1)). cbn [bind]. rewrite (number_get _ _ _ _ (get_points big all f H0 H1)). cbn [bind]. fold n. fold start.
  pose proof (fromfile_words big 4 f start n ltac:(lia) Hn ltac:(lia)) as ED. change (Z.of_nat 4) with 4 in ED. rewrite Z.max_r in ED by lia. rewrite ED. cbn [bind]. rewrite zlen_words by lia.
  unfold energy_axis. rewrite (number_get _ _ _ _ (get_ev big all f H0 H1)). cbn [bind]. rewrite (number_get _ _ _ _ (get_energy big all f H0 H1)). cbn [bind]. rewrite Em. cbn [bind]. eexists. repeat split.
Qed.
(** An element that is not known *)
Theorem C78_unknown : forall lazy big all f, let n := integer big 2 f 32 in let start := integer big 4 f 28 in
  20736 <= zlen f -> header_size all (new_version big f) <= zlen f -> 0 <= n -> 0 <= start -> start + 4 * n <= zlen f -> (exists z, In z (header_elements big f) /\ ~ atomic z) ->
  spc_reader lazy big all f = Err KeyError.
Proof.
  intros lazy big all f n start H0 H1 Hn Hs He [z [Hz HA]]. unfold spc_reader. rewrite (header_ok big all f H0 H1). cbn [bind].
  rewrite (number_get _ _ _ _ (get_start big all f H0 H1)). cbn [bind]. rewrite (number_get _ _ _ _ (get_points big all f H0 H1)). cbn [bind]. fold n. fold start.
  assert (ED : (if lazy then memmap else fromfile) big 4 start n f = Ok (words_from big 4 f start n)).
  { destruct lazy; [apply (memmap_words big 4); lia|]. rewrite (fromfile_words big 4) by lia. do 2 f_equal. change (Z.of_nat 4) with 4. lia. }
  rewrite ED. cbn [bind]. unfold energy_axis. rewrite (number_get _ _ _ _ (get_ev big all f H0 H1)). cbn [bind]. rewrite (number_get _ _ _ _ (get_energy big all f H0 H1)). cbn [bind].
  unfold spc_metadata. rewrite (get_azimuth big all f H0 H1), (get_elevation big all f H0 H1), (get_reso big all f H0 H1), (get_live big all f H0 H1), (get_kv big all f H0 H1), (get_tilt big all f H0 H1). cbn [bind].
  rewrite (number_get _ _ _ _ (get_num big all f H0 H1)). cbn [bind]. rewrite (get_at big all f H0 H1). unfold header_elements in Hz.
  destruct (0 <? integer big 2 f 638) eqn:E; [|exfalso; rewrite firstz_firstn in Hz; replace (Z.to_nat (integer big 2 f 638)) with O in Hz by lia; destruct Hz].
  cbn [bind]. assert (EK : mapM element_name (firstz (integer big 2 f 638) (words_from big 2 f 640 48)) = Err KeyError).
  { set (zs := firstz _ _) in *. clearbody zs. clear - Hz HA. induction zs as [|y zs IH]; [destruct Hz|]. cbn [mapM]. destruct Hz as [->|Hz]; [rewrite element_unknown by exact HA; reflexivity|].
    destruct (element_name y) as [s|e] eqn:Ey; cbn [bind]; [rewrite (IH Hz); reflexivity|]. unfold element_name in Ey. destruct (find _ elements); [discriminate Ey|]. injection Ey as <-. reflexivity. }
  rewrite EK. reflexivity.
Qed.

(** * Files of older versions *)
(** Their header has 20736 bytes, but 20740 are asked for unless all of it is read *)
Theorem C78_short : forall lazy big f, 4 <= zlen f < 20740 -> spc_reader lazy big false f = Err TypeError.
Proof.
  intros lazy big f H. unfold spc_reader, spc_header. replace (zlen f <? 4) with false by lia. cbn [bind]. unfold spc_layout, read_struct. replace (size_of spc_part) with 20740 by (vm_compute; reflexivity). replace (zlen f <? 20740) with true by lia. reflexivity.
Qed.
Theorem C78_short_refuted : exists f, 20736 <= zlen f /\ (exists s, spc_reader false false true f = Ok s /\ s_data s = [0; 5]) /\ spc_reader false false false f = Err TypeError.
Proof.
  set (f := repeat 0 28 ++ le 4 3836 ++ le 2 2 ++ repeat 0 3806 ++ le 4 5 ++ repeat 0 (Z.to_nat 16892)). assert (EL : zlen f = 20736) by (vm_compute; reflexivity). exists f. split; [lia|]. split; [|apply C78_short; lia].
  destruct (C78_spectrum false false true f) as [m [_ E]].
  - lia.
  - rewrite EL. replace (new_version false f) with false by (vm_compute; reflexivity). cbn. lia.
  - vm_compute. discriminate.
  - vm_compute. discriminate.
  - rewrite EL. vm_compute. discriminate.
  - replace (header_elements false f) with (@nil Z) by (vm_compute; reflexivity). constructor.
  - eexists. split; [exact E|]. vm_compute. reflexivity.
Qed.
(** A spectrum of version 0.7 with three points and two elements *)
Definition demo_spc : list Z :=
  le 4 1060320051 ++ repeat 0 24 ++ le 4 20994 ++ le 2 3 ++ repeat 0 350 ++ le 4 10 ++ repeat 0 60 ++ le 4 7 ++ repeat 0 4 ++ le 4 8 ++ le 4 9 ++ repeat 0 8 ++ le 4 11 ++ repeat 0 32 ++
  le 4 12 ++ le 4 13 ++ repeat 0 16 ++ le 4 14 ++ repeat 0 102 ++ le 2 2 ++ le 2 26 ++ le 2 13 ++ repeat 0 (Z.to_nat 20350) ++ flat_map (le 4) [100; 200; 300].
Example C78_example : zlen demo_spc = 21006 /\ new_version false demo_spc = true /\ header_elements false demo_spc = [26; 13] /\
  spc_reader false false true demo_spc = Ok {| s_shape := [3]; s_data := [100; 200; 300];
    s_axes := [{| a_name := "Energy"%string; a_size := 3; a_index := 0; a_scale := Number (10 # 1000); a_offset := Word 7; a_units := Some "keV"%string; a_navigate := false |}];
    s_title := "EDS Spectrum"%string;
    s_meta := Some {| m_azimuth := [12]; m_elevation := [13]; m_resolution := [11]; m_live_time := [8]; m_beam_energy := [14]; m_tilt := [9]; m_elements := Some [str "Al"; str "Fe"] |} |} /\
  spc_reader true false false demo_spc = spc_reader false false true demo_spc.
Proof. split; [vm_compute; reflexivity|]. split; [vm_compute; reflexivity|]. split; [vm_compute; reflexivity|]. split; vm_compute; reflexivity. Qed.
(** 0.7 and 0.61 as single precision numbers *)
Example C78_versions : hundredths 1060320051 = 70 /\ hundredths 1058810102 = 61.
Proof. split; vm_compute; reflexivity. Qed.
Print Assumptions C78_offsets.
Print Assumptions C78_offsets_short.
Print Assumptions C78_elements.
Print Assumptions C78_elements_differ.
Print Assumptions C78_spectrum.
Print Assumptions C78_same.
Print Assumptions C78_cut.
Print Assumptions C78_unknown.
Print Assumptions C78_short.
Print Assumptions C78_short_refuted.
