(** Property C43: EMPAD files. *)
From Verif Require Import Base Text Bytes RowMajor HierModel HierProof SfsModel SfsProps BcfUnpack MibProps MibImage DmImage XmlModel XmlProps EmpadModel.

(** * Specification *)
(** Frames have 130 rows of 128 numbers of four bytes; row [r] and column [c] of frame [k] *)
Definition stored (f : list Z) (k r c : Z) : list Z := slice (Z.to_nat (((k * 130 + r) * 128 + c) * 4)) 4 f.
Definition nav_sizes (n : nav) (sh : list Z) : Prop :=
  match n with Series c => sh = [c] | Scan y x => sh = [y; x] | Unknown => False end.

Lemma make_axes_sizes : forall l i, map (fun a => snd (fst (fst a))) (make_axes l i) = filter (fun n => 1 <? n) (map (fun a => snd (fst a)) l).
Proof. induction l as [|[[name n] nv] l IH]; intro i; [reflexivity|]. cbn [make_axes map fst snd filter]. destruct (1 <? n); cbn [map fst snd]; rewrite IH; reflexivity. Qed.
Lemma make_axes_index : forall l i, map (fun a => snd (fst a)) (make_axes l i) = zseq i (List.length (make_axes l i)).
Proof. induction l as [|[[name n] nv] l IH]; intro i; [reflexivity|]. cbn [make_axes]. destruct (1 <? n); [cbn [map List.length zseq fst snd]; rewrite IH; reflexivity|apply IH]. Qed.
Lemma filter_pos : forall sh, Forall (fun n => 1 <= n) sh -> filter (fun n => negb (n =? 1)) sh = filter (fun n => 1 <? n) sh.
Proof. induction 1 as [|n sh Hn _ IH]; [reflexivity|]. cbn [filter]. rewrite IH. destruct (n =? 1) eqn:E, (1 <? n) eqn:E2; cbn [negb]; try reflexivity; lia. Qed.



Lemma read_raw_ok : forall w h rh n f sh els, 0 < w -> 0 < h -> h <= rh -> read_raw_of w h rh n f = Ok (sh, els) ->
  exists nsh, navigation_shape n = Ok nsh /\ sh = nsh ++ [h; w] /\ prodZ nsh * (rh * w * 4) <= zlen f /\
  els = List.concat (map (records (Z.to_nat (h * w)) 4) (map (firstz (h * w * 4)) (records (Z.to_nat (prodZ nsh)) (Z.to_nat (rh * w * 4)) f))).
Proof.
  intros w h rh n f sh els Hw Hh Hr H. unfold read_raw_of in H. destruct (navigation_shape n) as [nsh|]; [|discriminate]. cbn [bind] in H.
  destruct (zlen f / (rh * w * 4) <? prodZ nsh) eqn:E; [discriminate|].
  exists nsh. split; [reflexivity|]. injection H as H1 H2. split; [symmetry; exact H1|]. split; [|symmetry; exact H2].
  assert (P : 0 < rh * w * 4) by nia. pose proof (Z.mul_div_le (zlen f) (rh * w * 4) P). nia.
Qed.
Lemma pixels : forall w h rh n f sh els nsh, 0 < w -> 0 < h -> h <= rh -> read_raw_of w h rh n f = Ok (sh, els) -> nav_sizes n nsh -> Forall (fun n => 0 <= n) nsh ->
  sh = nsh ++ [h; w] /\ zlen els = prodZ sh /\
  forall pos r c, in_shape nsh pos -> 0 <= r < h -> 0 <= c < w ->
    ((row_major nsh pos * rh + r) * w + c) * 4 + 4 <= zlen f /\
    nth_error els (Z.to_nat (row_major sh (pos ++ [r; c]))) = Some (slice (Z.to_nat (((row_major nsh pos * rh + r) * w + c) * 4)) 4 f).
Proof.
  intros w h rh n f sh els nsh Hw Hh Hr H Hn Hp. destruct (read_raw_ok _ _ _ _ _ _ _ Hw Hh Hr H) as [nsh' [N [Esh [Hlen Eels]]]].
  assert (nsh' = nsh) by (destruct n; cbn in N, Hn; try contradiction; congruence). subst nsh'. clear H N Hn. subst sh els.
  pose proof (prodZ_nonneg nsh Hp) as Hpn. set (item := rh * w * 4) in *. assert (Hitem : 0 < item) by (unfold item; nia).
  assert (Hhw : h * w * 4 <= item) by (unfold item; nia).
  set (fr := records (Z.to_nat (prodZ nsh)) (Z.to_nat item) f). set (dfr := map (firstz (h * w * 4)) fr).
  assert (Lfr : Forall (fun r => List.length r = Z.to_nat item) fr) by (apply records_each; unfold zlen in Hlen; nia).
  assert (Ldfr : Forall (fun r => List.length r = Z.to_nat (h * w * 4)) dfr).
  { unfold dfr. apply Forall_map. eapply Forall_impl; [|exact Lfr]. cbn. intros l Hl. rewrite firstz_firstn, firstn_length_le by lia. reflexivity. }
  set (px := map (records (Z.to_nat (h * w)) 4) dfr).
  assert (Lpx : Forall (fun r => List.length r = Z.to_nat (h * w)) px) by (unfold px; apply Forall_map; apply Forall_forall; intros; apply records_length).
  split; [reflexivity|]. split.
  - unfold zlen. rewrite (concat_length_const _ (Z.to_nat (h * w))) by exact Lpx. unfold px, dfr, fr. rewrite !map_length, records_length. rewrite prodZ_app. cbn [prodZ fold_right]. nia.
  - intros pos r c Hpos Hrr Hcc. pose proof (row_major_range nsh pos Hpos) as Rm. set (k := row_major nsh pos) in *.
    split; [unfold item in Hlen; nia|].
    rewrite row_major_app by (apply in_shape_length; exact Hpos). fold k. cbn [row_major prodZ fold_right].
    replace (Z.to_nat (k * (h * (w * 1)) + (r * (w * 1) + (c * 1 + 0)))) with (Z.to_nat k * Z.to_nat (h * w) + Z.to_nat (r * w + c))%nat by nia.
    assert (Kf : nth_error fr (Z.to_nat k) = Some (slice (Z.to_nat k * Z.to_nat item) (Z.to_nat item) f)) by (apply nth_records; lia).
    set (frame := slice (Z.to_nat k * Z.to_nat item) (Z.to_nat item) f) in *.
    rewrite (nth_concat _ px (Z.to_nat (h * w)) (Z.to_nat k) (Z.to_nat (r * w + c)) (records (Z.to_nat (h * w)) 4 (firstz (h * w * 4) frame))); [|exact Lpx| |nia].
    + rewrite nth_records by nia. f_equal. rewrite firstz_firstn. unfold frame. unfold slice. rewrite skipn_firstn_comm, firstn_firstn.
      rewrite Nat.min_l by nia. rewrite skipn_firstn_comm. rewrite firstn_firstn. rewrite Nat.min_l by (unfold item; nia). rewrite skipn_skipn. f_equal. f_equal. unfold item. nia.
    + unfold px, dfr. rewrite !nth_error_map, Kf. reflexivity.
Qed.
(** Index of the squeezed array *)
Fixpoint drop_ones (sh idx : list Z) : list Z :=
  match sh, idx with n :: sh', i :: idx' => if n =? 1 then drop_ones sh' idx' else i :: drop_ones sh' idx' | _, _ => [] end.
Lemma squeezed : forall sh idx, in_shape sh idx -> row_major (squeeze sh) (drop_ones sh idx) = row_major sh idx /\ prodZ (squeeze sh) = prodZ sh.
Proof.
  intros sh idx H. induction H as [|n i sh idx Hi H [IH1 IH2]]; [split; reflexivity|]. unfold squeeze in *. cbn [filter drop_ones row_major]. destruct (n =? 1) eqn:E; cbn [negb].
  - assert (n = 1) by lia. assert (i = 0) by lia. subst n i. rewrite IH1, IH2. split; [lia|]. unfold prodZ. cbn [fold_right]. lia.
  - cbn [row_major]. rewrite IH1, IH2. split; [reflexivity|]. unfold prodZ in *. cbn [fold_right]. rewrite IH2. reflexivity.
Qed.

(** The data is what is stored, without the two last rows of each frame. *)
Theorem C43_data : forall om files sh els ax, file_reader om files = Ok (sh, els, ax) ->
  exists i f nsh, parse_info om = Ok i /\ files (raw_filename i) = Ok f /\ nav_sizes (navigation i) nsh /\
    (Forall (fun n => 0 <= n) nsh -> zlen els = prodZ (nsh ++ [128; 128]) /\ sh = filter (fun n => negb (n =? 1)) (nsh ++ [128; 128]) /\
     forall pos r c, in_shape nsh pos -> 0 <= r < 128 -> 0 <= c < 128 ->
       ((row_major nsh pos * 130 + r) * 128 + c) * 4 + 4 <= zlen f /\
       nth_error els (Z.to_nat (row_major sh (drop_ones nsh pos ++ [r; c]))) = Some (stored f (row_major nsh pos) r c)).
Proof.
  intros om files sh els ax H. unfold file_reader in H. destruct (parse_info om) as [i|]; [|discriminate]. cbn [bind] in H.
  destruct (axes (navigation i)) as [a|] eqn:Ea; [|discriminate]. cbn [bind] in H. destruct (files (raw_filename i)) as [f|] eqn:Ef; [|discriminate]. cbn [bind] in H.
  destruct (read_raw (navigation i) f) as [[s e]|] eqn:Er; [|discriminate]. cbn [bind] in H.
  assert (Es : sh = squeeze s) by congruence. assert (Ee : els = e) by congruence. subst e. clear H.
  assert (Hn : exists nsh, nav_sizes (navigation i) nsh) by (destruct (navigation i); [exists [n]|exists [y; x]|discriminate]; reflexivity).
  destruct Hn as [nsh Hn]. exists i, f, nsh. split; [reflexivity|]. split; [exact Ef|]. split; [exact Hn|]. intro Hp.
  destruct (pixels 128 128 130 _ _ _ _ _ ltac:(lia) ltac:(lia) ltac:(lia) Er Hn Hp) as [E1 [E2 E3]]. subst s. split; [exact E2|]. split; [exact Es|].
  intros pos r c Hpos Hr Hc. destruct (E3 pos r c Hpos Hr Hc) as [B1 B2]. split; [exact B1|]. unfold stored. rewrite <- B2. f_equal. f_equal. subst sh.
  assert (In2 : in_shape (nsh ++ [128; 128]) (pos ++ [r; c])) by (apply Forall2_app; [exact Hpos|repeat constructor; lia]).
  rewrite <- (proj1 (squeezed _ _ In2)). f_equal. clear - Hpos. induction Hpos as [|n i nsh pos Hi H IH]; [reflexivity|]. cbn [app drop_ones]. rewrite <- IH. destruct (n =? 1); reflexivity.
Qed.
Ltac ok_inj H := match type of H with Ok ?x = Ok ?y => apply (f_equal (fun r => match r with Ok v => v | Err _ => x end)) in H; cbv beta iota in H; subst y end.
(** The axes have the sizes of the data. *)
Theorem C43_axes : forall om files sh els ax i nsh, file_reader om files = Ok (sh, els, ax) -> parse_info om = Ok i -> nav_sizes (navigation i) nsh -> Forall (fun n => 1 <= n) nsh ->
  map (fun a => snd (fst (fst a))) ax = sh /\ map (fun a => snd (fst a)) ax = zseq 0 (List.length sh) /\
  map (fun a => snd a) ax = repeat true (List.length sh - 2) ++ [false; false].
Proof.
  intros om files sh els ax i nsh H Hi Hn Hp. unfold file_reader in H. rewrite Hi in H. cbn [bind] in H.
  destruct (axes (navigation i)) as [a|] eqn:Ea; [|discriminate]. cbn [bind] in H. destruct (files (raw_filename i)) as [f|]; [|discriminate]. cbn [bind] in H.
  destruct (read_raw (navigation i) f) as [[s e]|] eqn:Er; [|discriminate]. cbn [bind] in H.
  assert (Es : sh = squeeze s) by congruence. assert (Ex : ax = a) by congruence. subst ax sh. clear H.
  assert (Hp0 : Forall (fun n => 0 <= n) nsh) by (eapply Forall_impl; [|exact Hp]; cbn; intros; lia).
  destruct (pixels 128 128 130 _ _ _ _ _ ltac:(lia) ltac:(lia) ltac:(lia) Er Hn Hp0) as [-> _].
  assert (E1 : map (fun a => snd (fst (fst a))) a = squeeze (nsh ++ [128; 128])).
  { unfold squeeze. rewrite filter_pos by (apply Forall_app; split; [exact Hp|repeat constructor; lia]).
    destruct (navigation i); cbn in Hn; cbn [axes] in Ea; try contradiction; subst nsh; ok_inj Ea; rewrite make_axes_sizes; reflexivity. }
  split; [exact E1|]. assert (L : List.length a = List.length (squeeze (nsh ++ [128; 128]))) by (rewrite <- E1, map_length; reflexivity). rewrite <- L. split.
  - destruct (navigation i); cbn [axes] in Ea; try discriminate; ok_inj Ea; apply make_axes_index.
  - destruct (navigation i) as [n|y x|]; cbn [axes make_axes] in Ea; try discriminate; injection Ea as <-; [destruct (1 <? n)|destruct (1 <? y), (1 <? x)]; reflexivity.
Qed.
(** A scan of no lines has data with an axis of size zero, but no axis for it. *)
Theorem C43_zero_refuted : exists om files sh els ax i, file_reader om files = Ok (sh, els, ax) /\ parse_info om = Ok i /\ nav_sizes (navigation i) [0; 5] /\
  map (fun a => snd (fst (fst a))) ax <> sh.
Proof.
  exists (TDict [(str "root", TDict [(str "raw_file", TDict [(str "filename", TStr (str "a"))]); (str "pix_x", TStr (str "5")); (str "pix_y", TStr (str "0"))])]), (fun _ => Ok []).
  eexists _, _, _, _. split; [vm_compute; reflexivity|]. split; [vm_compute; reflexivity|]. split; [reflexivity|discriminate].
Qed.

(** * What the xml file says *)
Lemma get_tree : forall p t, get t p = tree_get t p.
Proof. reflexivity. Qed.
Lemma get_root : forall e p om, clean e -> x_tag e = str "root" -> xml2dtb e [] = Ok om -> get (TDict om) (str "root" :: p) = tree_get (plain e) p.
Proof.
  intros e p om Hc Ht H. rewrite (C42_simple e Hc []) in H by (intros []). injection H as <-. cbn [app get lookup]. rewrite Ht, eqb_str_refl. apply get_tree.
Qed.
Theorem C43_series : forall e name c, clean e -> x_tag e = str "root" -> 0 <= c ->
  held e [str "raw_file"; str "filename"] name -> held e [str "scan_parameters"; str "series_count"] (dec c) ->
  exists om, xml2dtb e [] = Ok om /\ parse_info (TDict om) = Ok {| raw_filename := name; navigation := Series c |}.
Proof.
  intros e name c Hc Ht H0 H1 H2. pose proof (C42_simple e Hc [] ltac:(intros [])) as E. eexists. split; [exact E|].
  unfold parse_info. rewrite !(get_root e _ _ Hc Ht E), (C42_paths e _ _ Hc H1). cbn [bind]. unfold has, int_at. rewrite !(get_root e _ _ Hc Ht E), (C42_paths e _ _ Hc H2).
  rewrite <- (app_nil_l (dec c)). change ([] ++ dec c) with (num_text 0 c). rewrite num_text_int by exact H0. reflexivity.
Qed.
Theorem C43_scan : forall e name x y, clean e -> x_tag e = str "root" -> 0 <= x -> 0 <= y ->
  held e [str "raw_file"; str "filename"] name -> held e [str "pix_x"] (dec x) -> held e [str "pix_y"] (dec y) ->
  tree_get (plain e) [str "scan_parameters"; str "series_count"] = None ->
  exists om, xml2dtb e [] = Ok om /\ parse_info (TDict om) = Ok {| raw_filename := name; navigation := Scan y x |}.
Proof.
  intros e name x y Hc Ht Hx Hy H1 H2 H3 H4. pose proof (C42_simple e Hc [] ltac:(intros [])) as E. eexists. split; [exact E|].
  unfold parse_info, has, int_at. rewrite !(get_root e _ _ Hc Ht E), (C42_paths e _ _ Hc H1), (C42_paths e _ _ Hc H2), (C42_paths e _ _ Hc H3), H4. cbn [bind andb].
  change (dec x) with (num_text 0 x). change (dec y) with (num_text 0 y). rewrite !num_text_int by assumption. reflexivity.
Qed.
(** The scan shape in the name of the file *)
Lemma split_two : forall c a b d, ~ In c b -> ~ In c d -> exists l, split_char c (a ++ c :: b ++ c :: d) = l ++ [b; d].
Proof.
  intros c a b d Hb Hd. induction a as [|x a IH].
  - exists [[]]. cbn [app]. change (c :: b ++ c :: d) with ([] ++ c :: b ++ c :: d). rewrite split_char_app by (intros []). rewrite split_char_app by exact Hb. rewrite split_char_nosep by exact Hd. reflexivity.
  - destruct IH as [l IH]. cbn [app split_char]. rewrite IH. destruct (x =? c); [exists ([] :: l); reflexivity|]. destruct l as [|l0 l]; cbn [app]; [|exists ((x :: l0) :: l); reflexivity].
    exfalso. cbn [app] in IH. assert (L : forall s, List.length (split_char c s) = Datatypes.S (List.length (filter (fun z => z =? c) s))).
    { induction s as [|z s IHs]; [reflexivity|]. cbn [split_char filter]. destruct (z =? c); [cbn; rewrite IHs; reflexivity|]. destruct (split_char c s); [cbn in IHs; lia|exact IHs]. }
    pose proof (L (a ++ c :: b ++ c :: d)) as L1. rewrite IH in L1. rewrite filter_app in L1. cbn [filter] in L1. rewrite Z.eqb_refl in L1. rewrite app_length in L1. cbn [List.length app] in L1.
    rewrite filter_app in L1. cbn [filter] in L1. rewrite Z.eqb_refl, app_length in L1. cbn [List.length] in L1. lia.
Qed.
Lemma from_end_app : forall A (l : list A) x y, from_end (l ++ [x; y]) 1 = Ok x /\ from_end (l ++ [x; y]) 0 = Ok y.
Proof. intros A l x y. unfold from_end. rewrite rev_app_distr. split; reflexivity. Qed.
Theorem C43_name : forall m a b x y ext, 0 <= x -> 0 <= y -> ~ In 46 m -> ~ In a (str "_.") -> ~ In b (str "_.") -> ext = [] \/ (exists r, ext = 46 :: r) ->
  (m = [] \/ exists m', m = m' ++ str "_") ->
  shape_in_name (str "scan_" ++ m ++ (a :: dec x) ++ str "_" ++ (b :: dec y) ++ ext) = Ok (Scan y x).
Proof.
  intros m a b x y ext Hx Hy Hm Ha Hb He Hmm. unfold shape_in_name.
  assert (S0 : forall r, startswith (str "scan_") (str "scan_" ++ r) = true) by reflexivity. rewrite S0.
  assert (Dn : forall n c, 0 <= n -> (c < 48 \/ 57 < c) -> ~ In c (dec n)).
  { intros n c Hn Hc K. pose proof (dec_digits n Hn) as D. rewrite Forall_forall in D. apply D in K. unfold is_digit in K. lia. }
  cbn in Ha, Hb.
  set (base := str "scan_" ++ m ++ (a :: dec x) ++ str "_" ++ (b :: dec y)).
  assert (Eb : str "scan_" ++ m ++ (a :: dec x) ++ str "_" ++ (b :: dec y) ++ ext = base ++ ext) by (unfold base; repeat (rewrite <- ?app_assoc; cbn [app]); reflexivity).
  rewrite Eb. assert (Nb : ~ In 46 base).
  { unfold base. rewrite !in_app_iff. cbn [In]. intros K. repeat destruct K as [K|K]; try contradiction; try (cbn in K; intuition discriminate); try (subst; tauto); try (eapply Dn; [| |exact K]; lia). }
  assert (E0 : match split_char 46 (base ++ ext) with b0 :: _ => b0 | [] => [] end = base).
  { destruct He as [->|[r ->]]; [rewrite app_nil_r, split_char_nosep by exact Nb; reflexivity|]. rewrite split_char_app by exact Nb. reflexivity. }
  rewrite E0. assert (Es : exists p, base = p ++ 95 :: (a :: dec x) ++ 95 :: (b :: dec y)).
  { unfold base. destruct Hmm as [->|[m' ->]]; [exists (str "scan"); reflexivity|]. exists (str "scan_" ++ m'). repeat (rewrite <- ?app_assoc; cbn [app]). reflexivity. }
  destruct Es as [p Ep]. rewrite Ep. destruct (split_two 95 p (a :: dec x) (b :: dec y)) as [l El].
  { intros [K|K]; [subst; tauto|]. eapply Dn; [| |exact K]; lia. }
  { intros [K|K]; [subst; tauto|]. eapply Dn; [| |exact K]; lia. }
  rewrite El. destruct (from_end_app pystr l (a :: dec x) (b :: dec y)) as [F1 F2]. cbv zeta. unfold pystr in *. rewrite F1. cbn [bind]. rewrite F2. cbn [bind skipn].
  change (dec x) with (num_text 0 x). change (dec y) with (num_text 0 y). rewrite !num_text_int by assumption. reflexivity.
Qed.
(** Other names are an error that is not the one announced. *)
Theorem C43_name_refuted : exists om, has om [str "root"; str "raw_file"; str "filename"] = true /\ forall files, file_reader om files = Err KeyError.
Proof. exists (TDict [(str "root", TDict [(str "raw_file", TDict [(str "filename", TStr (str "acquisition_x4_y4.raw"))])])]). split; reflexivity. Qed.

(** * Examples *)
Definition root_ex : xml := Elem (str "root") [] [] []
  [Elem (str "raw_file") [(str "filename", str "series.raw")] [] [] []; Elem (str "scan_parameters") [] [] [] [el "series_count" "7" []]].
Example C43_series_example : clean root_ex /\ held root_ex [str "raw_file"; str "filename"] (str "series.raw") /\ held root_ex [str "scan_parameters"; str "series_count"] (dec 7).
Proof.
  split; [repeat (constructor; try discriminate); cbn; intuition discriminate|]. split.
  - apply (held_child _ _ _ _ _ (Elem (str "raw_file") [(str "filename", str "series.raw")] [] [] [])); [left; reflexivity|]. apply held_attr. left. reflexivity.
  - apply (held_child _ _ _ _ _ (Elem (str "scan_parameters") [] [] [] [el "series_count" "7" []])); [right; left; reflexivity|]. apply (held_child _ _ _ _ _ (el "series_count" "7" [])); [left; reflexivity|].
    apply held_text. discriminate.
Qed.
Example C43_name_example : shape_in_name (str "scan_x64_y32.raw") = Ok (Scan 32 64).
Proof. vm_compute. reflexivity. Qed.
Example C43_small : read_raw_of 2 1 2 (Scan 1 2) (zseq 0 32) = Ok ([1; 2; 1; 2], [[0; 1; 2; 3]; [4; 5; 6; 7]; [16; 17; 18; 19]; [20; 21; 22; 23]]).
Proof. vm_compute. reflexivity. Qed.
Example C43_axes_example : axes (Scan 1 5) = Ok [(str "scan_x", 5, 0, true); (str "height", 128, 1, false); (str "width", 128, 2, false)].
Proof. vm_compute. reflexivity. Qed.

Print Assumptions C43_data.
Print Assumptions C43_axes.
Print Assumptions C43_zero_refuted.
Print Assumptions C43_series.
Print Assumptions C43_scan.
Print Assumptions C43_name.
Print Assumptions C43_name_refuted.
