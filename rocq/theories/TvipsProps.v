(** C27, C29: TVIPS series on disk. *)
From Coq Require Import Permutation.
From Verif Require Import Base Text Bytes HierModel Dict RowMajor TvipsModel TvipsProof.

(** ** C27: the writer splits the frames over numbered files *)
Fixpoint whole_parts (first : Z) (hdr : list Z) (recs : list (list Z)) (counts : list Z) : list (list Z) :=
  match counts with
  | [] => []
  | c :: cs => ((if first =? 0 then hdr else []) ++ List.concat (firstn (Z.to_nat c) recs))
               :: whole_parts (first + 1) hdr (skipn (Z.to_nat c) recs) cs
  end.

Definition all_records (extra : Z) (s : tsig) : list (list Z) := map (record extra s) (zseq 0 (Z.to_nat (prodZ (t_nav s)))).

Lemma sum_pos : forall cs, Forall (fun c => 0 < c) cs -> 0 <= sumZ cs.
Proof. induction 1 as [|c cs Hc _ IH]; cbn [sumZ]; lia. Qed.

Lemma contents_parts : forall hdr (rc : Z -> list Z) cs idx cur, Forall (fun c => 0 < c) cs ->
  contents hdr rc idx cur cs = whole_parts idx hdr (map rc (zseq cur (Z.to_nat (sumZ cs)))) cs.
Proof.
  induction cs as [|c cs IH]; intros idx cur H; [reflexivity|]. inversion H as [|? ? H1 H2]; subst. assert (S := sum_pos _ H2).
  cbn [contents whole_parts sumZ]. rewrite Z2Nat.inj_add by lia. rewrite zseq_app, map_app. rewrite Z2Nat.id by lia.
  rewrite firstn_app_exact, skipn_app_exact by (rewrite map_length, zseq_length; reflexivity).
  rewrite <- flat_map_concat_map. rewrite IH by exact H2. reflexivity.
Qed.

Lemma rec_total_all : forall extra s, map (rec_total extra s) (zseq 0 (Z.to_nat (prodZ (t_nav s)))) = all_records extra s.
Proof.
  intros. unfold all_records. apply map_ext_in. intros i Hi. apply in_zseq in Hi. unfold rec_total.
  destruct ((0 <=? i) && (i <? prodZ (t_nav s))) eqn:E; [reflexivity|lia].
Qed.

(** Names of the files. *)
Lemma strip_suffix : forall b, strip_000 (b ++ str "_000") = b.
Proof.
  intros b. unfold strip_000, endswith. rewrite rev_app_distr. change (rev (str "_000")) with [48; 48; 48; 95]. cbn [app startswith Z.eqb Pos.eqb andb].
  rewrite app_length. change (List.length (str "_000")) with 4%nat. rewrite Nat.add_sub. apply firstn_app_exact. reflexivity.
Qed.
Lemma strip_other : forall f, (forall b, f <> b ++ str "_000") -> strip_000 f = f.
Proof.
  intros f H. unfold strip_000. destruct (endswith (str "_000") f) eqn:E; [|reflexivity]. exfalso. unfold endswith in E.
  change (rev (str "_000")) with [48; 48; 48; 95] in E. destruct (rev f) as [|a [|b [|c [|d r]]]] eqn:R; cbn [startswith] in E; try discriminate; try (rewrite ?Bool.andb_false_r in E; discriminate).
  apply (H (rev r)). rewrite <- (rev_involutive f), R. cbn [rev]. rewrite <- !app_assoc. cbn [app].
  assert (a = 48 /\ b = 48 /\ c = 48 /\ d = 95) as [-> [-> [-> ->]]] by lia. reflexivity.
Qed.
Theorem C27_names : forall b ext i, 0 <= i < 1000 ->
  part_name (strip_000 (b ++ str "_000")) ext i = b ++ [95; 48 + i / 100; 48 + i / 10 mod 10; 48 + i mod 10] ++ ext
  /\ ((forall p, b <> p ++ str "_000") -> part_name (strip_000 b) ext i = b ++ [95; 48 + i / 100; 48 + i / 10 mod 10; 48 + i mod 10] ++ ext).
Proof.
  intros b ext i Hi.
  assert (Z3 : zfill3 i = [48 + i / 100; 48 + i / 10 mod 10; 48 + i mod 10]).
  { assert (A : forallb (fun i => eqb_str (zfill3 i) [48 + i / 100; 48 + i / 10 mod 10; 48 + i mod 10]) (zseq 0 1000) = true) by (vm_compute; reflexivity).
    rewrite forallb_forall in A. apply eqb_str_spec. apply A. apply in_zseq. change (Z.of_nat 1000) with 1000. lia. }
  unfold part_name. rewrite Z3. split; [rewrite strip_suffix; reflexivity|]. intros H. rewrite strip_other by exact H. reflexivity.
Qed.
Example C27_names_ex : part_name (strip_000 (str "run_000")) (str ".tvips") 12 = str "run_012.tvips".
Proof. reflexivity. Qed.

Theorem C27_split : forall fnb ext s maxsize version extra d, good_sig s extra ->
  exists d' counts, tvips_write fnb ext s maxsize version extra d = Ok d'
    /\ Forall (fun c => 0 < c) counts /\ sumZ counts = prodZ (t_nav s)
    /\ Z.of_nat (List.length counts) = file_count s extra maxsize
    /\ let parts := whole_parts 0 (main_header version extra s) (all_records extra s) counts in
       (forall j b, nth_error parts j = Some b -> lookup (part_name (strip_000 fnb) ext (Z.of_nat j)) d' = Some b)
       /\ List.concat parts = main_header version extra s ++ List.concat (all_records extra s)
       /\ Forall (fun b => Z.of_nat (List.length b) <= limit s extra maxsize) parts
       /\ (forall nm, (forall j, (j < List.length counts)%nat -> nm <> part_name (strip_000 fnb) ext (Z.of_nat j)) -> lookup nm d' = lookup nm d).
Proof.
  intros fnb ext s maxsize version extra d G. destruct (write_spec fnb ext s maxsize version extra d G) as [d' [cs [H1 [H2 [H3 [H4 [HN [H5 [H6 H7]]]]]]]]].
  exists d', cs. split; [exact H1|]. split; [exact H2|]. split; [exact H3|]. split; [exact HN|]. cbn zeta.
  rewrite contents_parts in H5, H6 by exact H2. rewrite H3, rec_total_all in H5, H6.
  split; [exact H5|]. split; [|split; [exact H6|exact H7]].
  assert (K : forall cs idx recs hdr, (idx = 0 -> cs <> []) -> 0 <= idx -> Forall (fun c => 0 < c) cs -> Z.of_nat (List.length recs) = sumZ cs ->
      List.concat (whole_parts idx hdr recs cs) = (if idx =? 0 then hdr else []) ++ List.concat recs).
  { clear. induction cs as [|c cs IH]; intros idx recs hdr Hi Hp H HL.
    - cbn [sumZ] in HL. destruct recs; [|cbn in HL; lia]. cbn. destruct (idx =? 0) eqn:E; [exfalso; apply Hi; [lia|reflexivity]|reflexivity].
    - inversion H as [|? ? H1 H2]; subst. assert (S := sum_pos _ H2). cbn [sumZ] in HL. cbn [whole_parts List.concat].
      rewrite IH; [|lia|lia|exact H2|rewrite skipn_length; lia]. replace (idx + 1 =? 0) with false by lia. cbn [app].
      rewrite <- app_assoc. f_equal. rewrite <- concat_app. rewrite firstn_skipn. reflexivity. }
  rewrite K; [reflexivity|intros; exact H4|lia|exact H2|]. unfold all_records. rewrite map_length, zseq_length. 
  assert (0 <= sumZ cs) by (apply sum_pos; exact H2). lia.
Qed.

(** ** C29: reading what was written *)
Definition tvips_ext (ext : pystr) : Prop := List.length ext = 6%nat /\ lower ext = str ".tvips".

Lemma valid_first_name : forall fnb ext, fnb <> [] -> tvips_ext ext -> valid_first (part_name fnb ext 0) = true.
Proof.
  intros fnb ext Hf [L E]. unfold valid_first, part_name. change (zfill3 0) with [48; 48; 48].
  destruct ext as [|e0 [|e1 [|e2 [|e3 [|e4 [|e5 [|e6 ext]]]]]]]; cbn [List.length] in L; try lia.
  cbn in E. injection E as E0 E1 E2 E3 E4 E5.
  assert (e0 = 46). { unfold lower_char in E0. destruct ((65 <=? e0) && (e0 <=? 90)) eqn:B; lia. } subst e0.
  rewrite !rev_app_distr. cbn [rev app firstn skipn]. cbn [app lower map]. rewrite E1, E2, E3, E4, E5.
  rewrite !app_length. cbn [List.length]. destruct fnb as [|c fnb]; [congruence|]. cbn [List.length].
  cbn [eqb_str]. rewrite !andb_true_iff. repeat split; try reflexivity. lia.
Qed.

Lemma nth_frames : forall A (d : A) (l : list A), map (fun i => nth (Z.to_nat i) l d) (zseq 0 (List.length l)) = l.
Proof.
  intros A d l. apply nth_ext with (d := d) (d' := d); rewrite map_length, zseq_length; [reflexivity|].
  intros n Hn. assert (K : nth_error (map (fun i => nth (Z.to_nat i) l d) (zseq 0 (List.length l))) n = Some (nth n l d)).
  { rewrite nth_error_map, nth_error_zseq by exact Hn. cbn [option_map]. f_equal. f_equal. lia. }
  apply nth_error_nth with (d := d) in K. exact K.
Qed.

Lemma header_words : forall v e s rest, 0 <= v < 2 ^ 32 -> good_sig s e ->
  let b := main_header v e s ++ rest in
  word 0 b = 256 /\ word 1 b = v /\ word 2 b = t_dimx s /\ word 3 b = t_dimy s /\ word 4 b = t_item s * 8 /\ word 12 b = 60 + e.
Proof.
  intros v e s rest Hv [_ [_ [He [Hy [Hx [Hi _]]]]]]. cbn zeta. unfold main_header. rewrite <- app_assoc. change (2 ^ 32) with 4294967296 in *.
  repeat split; apply word_words; try reflexivity; lia.
Qed.

(** Images and rotator indices after a write into a directory without a file of the number
    following the last one written. *)
Lemma load_after_write : forall fnb ext s maxsize extra d d', good_sig s extra -> strip_000 fnb <> [] -> tvips_ext ext ->
  tvips_write fnb ext s maxsize 2 extra d = Ok d' ->
  lookup (part_name (strip_000 fnb) ext (file_count s extra maxsize)) d = None ->
  exists tm, load_stack (part_name (strip_000 fnb) ext 0) d' =
    Ok (mkStack (t_dimy s) (t_dimx s) (t_item s) (t_frames s) (zseq 1 (List.length (t_frames s))) tm)
    /\ List.length tm = List.length (t_frames s).
Proof.
  intros fnb ext s maxsize extra d d' G Hf He Hw Hfree.
  destruct (write_spec fnb ext s maxsize 2 extra d G) as [d2 [cs [H1 [H2 [H3 [H4 [HN [H5 [H6 H7]]]]]]]]].
  rewrite Hw in H1. injection H1 as <-. clear Hw. assert (G' := G). destruct G' as [Hnav [Hn1 [Hex [Hy [Hx [Hit [HL [Hb HF]]]]]]]].
  set (f := strip_000 fnb) in *. set (rc := rec_total extra s) in *. set (hdr := main_header 2 extra s) in *.
  assert (RS : 0 < record_size extra s).
  { unfold record_size. assert (0 <= t_dimy s * t_dimx s * t_item s) by (repeat apply Z.mul_nonneg_nonneg; lia). lia. }
  assert (Hrc : forall i, 0 <= i -> Z.of_nat (List.length (rc i)) = record_size extra s).
  { intros i Hi. unfold rc, rec_total. destruct ((0 <=? i) && (i <? prodZ (t_nav s))) eqn:E; [apply record_length; [exact G|lia]|]. rewrite repeat_length. lia. }
  destruct cs as [|c cs]; [congruence|]. cbn [contents] in H5. cbn [Z.eqb] in H5. inversion H2 as [|? ? Hc0 Hcs]; subst.
  unfold load_stack. rewrite valid_first_name by assumption. cbn [negb].
  assert (Hlen : List.length (part_name f ext 0) = (List.length f + 10)%nat).
  { unfold part_name. change (zfill3 0) with [48; 48; 48]. rewrite !app_length. cbn [List.length]. destruct He as [-> _]. lia. }
  assert (B1 : firstn (List.length (part_name f ext 0) - 9) (part_name f ext 0) = f ++ [95]).
  { rewrite Hlen. unfold part_name. rewrite app_assoc. apply firstn_app_exact. rewrite app_length. cbn. lia. }
  assert (B2 : skipn (List.length (part_name f ext 0) - 6) (part_name f ext 0) = ext).
  { rewrite Hlen. unfold part_name. change (zfill3 0) with [48; 48; 48]. rewrite !app_assoc. apply skipn_app_exact. rewrite !app_length. cbn. lia. }
  rewrite B1, B2.
  assert (OF : other_files (S (List.length d')) (f ++ [95]) ext 1 d' = Ok (contents hdr rc 1 c cs)).
  { apply other_files_spec.
    - intros j b Hj. specialize (H5 (S j) b Hj). unfold part_name in H5. rewrite <- app_assoc. replace (1 + Z.of_nat j) with (Z.of_nat (S j)) by lia. exact H5.
    - rewrite contents_length. rewrite <- app_assoc. rewrite H7.
      + replace (1 + Z.of_nat (List.length cs)) with (file_count s extra maxsize) by (rewrite <- HN; cbn [List.length]; lia). exact Hfree.
      + intros j Hj K. apply (part_name_inj f ext) in K; [|lia|lia]. cbn [List.length] in Hj. lia.
    - assert (KB := keys_bound _ (map (fun j => part_name f ext (Z.of_nat (S j))) (seq 0 (List.length cs))) d').
      rewrite map_length, seq_length in KB. rewrite contents_length. apply Nat.lt_succ_r. apply KB.
      + apply NoDup_map_in; [|apply seq_NoDup]. intros a b _ _ K. apply part_name_inj in K; lia.
      + intros k Hk. apply in_map_iff in Hk. destruct Hk as [j [<- Hj]]. apply in_seq in Hj.
        destruct (nth_error (contents hdr rc 1 c cs) j) as [b|] eqn:E.
        * assert (L5 := H5 (S j) b E). intro Z0. rewrite Z0 in L5. discriminate L5.
        * apply nth_error_None in E. rewrite contents_length in E. lia. }
  rewrite OF. cbn [bind].
  assert (L0 := H5 0%nat _ eq_refl). cbn [Z.of_nat] in L0. rewrite L0. clear L0.
  assert (LH : List.length hdr = 256%nat) by apply main_header_length.
  set (body := flat_map rc (zseq 0 (Z.to_nat c))).
  replace (Z.of_nat (List.length (hdr ++ body)) <? 256) with false by (rewrite app_length, LH; lia).
  destruct (header_words 2 extra s body ltac:(lia) G) as [W0 [W1 [W2 [W3 [W4 W12]]]]]. fold hdr in W0, W1, W2, W3, W4, W12.
  rewrite W0, W1, W2, W3, W4, W12. cbv zeta. rewrite Z.div_mul by lia.
  replace ((t_item s =? 1) || (t_item s =? 2) || (t_item s =? 4) || (t_item s =? 8)) with true by lia. cbn [negb Z.eqb Pos.eqb bind].
  replace (60 + extra <? 60) with false by lia.
  change (60 + extra + t_dimy s * t_dimx s * t_item s) with (record_size extra s).
  rewrite skipz_skipn. rewrite skipn_app_exact by (rewrite LH; reflexivity). unfold body.
  rewrite (memmap_recs _ hdr rc RS Hrc) by lia. cbn [bind].
  rewrite (memmaps_contents _ hdr rc RS Hrc) by (assumption || lia). cbn [bind]. rewrite <- map_app.
  assert (SP := sum_pos _ Hcs). cbn [sumZ] in H3.
  assert (ZS : zseq 0 (Z.to_nat c) ++ zseq c (Z.to_nat (sumZ cs)) = zseq 0 (List.length (t_frames s))).
  { replace (List.length (t_frames s)) with (Z.to_nat c + Z.to_nat (sumZ cs))%nat by lia. rewrite zseq_app. rewrite Z2Nat.id by lia. reflexivity. }
  rewrite ZS. 
  assert (RR : map rc (zseq 0 (List.length (t_frames s))) = map (record extra s) (zseq 0 (List.length (t_frames s)))).
  { apply map_ext_in. intros i Hi. apply in_zseq in Hi. unfold rc, rec_total. destruct ((0 <=? i) && (i <? prodZ (t_nav s))) eqn:E; [reflexivity|lia]. }
  rewrite RR. rewrite !map_map. eexists. split; [|rewrite map_length, zseq_length; reflexivity].
  f_equal. f_equal.
  - rewrite <- (nth_frames _ [] (t_frames s)) at 2. apply map_ext_in. intros i Hi. unfold record. rewrite app_assoc.
    rewrite skipz_skipn. apply skipn_app_exact. rewrite app_length, frame_header_length, repeat_length. lia.
  - assert (forall n a, 0 <= a -> a + Z.of_nat n < 2 ^ 32 -> map (fun x => word 12 (record extra s x)) (zseq a n) = zseq (a + 1) n) as K.
    { clear. induction n as [|n IH]; intros a Ha Hb; [reflexivity|]. cbn [zseq map]. rewrite IH by lia. f_equal.
      unfold record, frame_header. apply word_words; [reflexivity|lia]. }
    apply (K _ 0); lia.
Qed.

Definition stack_axes (n y x : Z) : list taxis :=
  [mkTaxis "time" n false true; mkTaxis "dy" y true false; mkTaxis "dx" x true false].

Theorem C29_read_after_write : forall fnb ext s maxsize extra d, good_sig s extra -> strip_000 fnb <> [] -> tvips_ext ext ->
  2 <= prodZ (t_nav s) ->
  lookup (part_name (strip_000 fnb) ext (file_count s extra maxsize)) d = None ->
  exists d', tvips_write fnb ext s maxsize 2 extra d = Ok d'
    /\ tvips_read (part_name (strip_000 fnb) ext 0) SNone 0 None 0 d'
       = Ok (mkTdict [prodZ (t_nav s); t_dimy s; t_dimx s] (t_frames s) (stack_axes (prodZ (t_nav s)) (t_dimy s) (t_dimx s))).
Proof.
  intros fnb ext s maxsize extra d G Hf He H2 Hfree.
  destruct (write_spec fnb ext s maxsize 2 extra d G) as [d' [cs [H1 _]]]. exists d'. split; [exact H1|].
  destruct (load_after_write _ _ _ _ _ _ _ G Hf He H1 Hfree) as [tm [L LT]].
  unfold tvips_read. rewrite L. cbn [bind k_time k_frames k_dimy k_dimx].
  assert (HL : Z.of_nat (List.length (t_frames s)) = prodZ (t_nav s)) by apply G.
  destruct tm as [|t0 [|t1 tm]]; cbn [List.length] in LT; try lia. rewrite HL. reflexivity.
Qed.

(** A series written over another one with at most as many files. *)
Theorem C29_overwrite : forall fnb ext s1 m1 s2 m2 extra d d1, good_sig s1 extra -> good_sig s2 extra -> strip_000 fnb <> [] -> tvips_ext ext ->
  2 <= prodZ (t_nav s2) ->
  (forall i, 0 <= i -> lookup (part_name (strip_000 fnb) ext i) d = None) ->
  tvips_write fnb ext s1 m1 2 extra d = Ok d1 ->
  file_count s1 extra m1 <= file_count s2 extra m2 ->
  exists d2, tvips_write fnb ext s2 m2 2 extra d1 = Ok d2
    /\ exists ax, tvips_read (part_name (strip_000 fnb) ext 0) SNone 0 None 0 d2 = Ok (mkTdict [prodZ (t_nav s2); t_dimy s2; t_dimx s2] (t_frames s2) ax).
Proof.
  intros fnb ext s1 m1 s2 m2 extra d d1 G1 G2 Hf He H2 Hd H1 Hle.
  destruct (write_spec fnb ext s1 m1 2 extra d G1) as [d' [cs [E [_ [_ [_ [HN [_ [_ H7]]]]]]]]]. rewrite H1 in E. injection E as <-.
  destruct (C29_read_after_write fnb ext s2 m2 extra d1 G2 Hf He H2) as [d2 [W R]].
  - rewrite H7.
    + apply Hd. lia.
    + intros j Hj K. apply part_name_inj in K; lia.
  - exists d2. split; [exact W|]. eexists. exact R.
Qed.

(** ** Witnesses *)
Definition ex_sig (nav : list Z) (fr : list (list Z)) : tsig :=
  mkTsig nav 1 2 1 fr 0 0 10 200 0 2 [] (fun _ => 1000) (fun i => i).
Definition ex5 : tsig := ex_sig [5] [[1; 2]; [3; 4]; [5; 6]; [7; 8]; [9; 10]].
Definition ex2 : tsig := ex_sig [2] [[21; 22]; [23; 24]].
Lemma ex5_good : good_sig ex5 0.
Proof.
  split; [discriminate|]. split; [repeat constructor; lia|]. repeat split; cbn; try lia. repeat constructor.
Qed.
Lemma ex2_good : good_sig ex2 0.
Proof.
  split; [discriminate|]. split; [repeat constructor; lia|]. repeat split; cbn; try lia. repeat constructor.
Qed.
Lemma ext_ok : tvips_ext (str ".tvips").
Proof. split; reflexivity. Qed.

(** One record is 62 bytes; files of at most 400 bytes hold two frames, then six. *)
Example C27_ex : exists d' counts, tvips_write (str "a") (str ".tvips") ex5 (Some 400) 2 0 [] = Ok d' /\ sumZ counts = 5 /\ List.length counts = 2%nat
  /\ (exists b, lookup (str "a_001.tvips") d' = Some b) /\ Forall (fun c => 0 < c) counts.
Proof.
  destruct (C27_split (str "a") (str ".tvips") ex5 (Some 400) 2 0 [] ex5_good) as [d' [cs [H1 [H2 [H3 [H4 [H5 _]]]]]]].
  exists d', cs. split; [exact H1|]. split; [exact H3|]. split; [apply Nat2Z.inj; rewrite H4; reflexivity|]. split; [|exact H2].
  assert (L : List.length cs = 2%nat) by (apply Nat2Z.inj; rewrite H4; reflexivity).
  destruct cs as [|c0 [|c1 [|]]]; try discriminate L. eexists. apply (H5 1%nat). reflexivity.
Qed.
Example C29_ex : exists d', tvips_write (str "a_000") (str ".tvips") ex5 (Some 400) 2 0 [(str "b_001.tvips", [1])] = Ok d'
  /\ exists ax, tvips_read (str "a_000.tvips") SNone 0 None 0 d' = Ok (mkTdict [5; 1; 2] [[1; 2]; [3; 4]; [5; 6]; [7; 8]; [9; 10]] ax).
Proof.
  destruct (C29_read_after_write (str "a_000") (str ".tvips") ex5 (Some 400) 0 [(str "b_001.tvips", [1])] ex5_good) as [d' [H1 H2]].
  - discriminate. - apply ext_ok. - vm_compute. discriminate. - reflexivity.
  - exists d'. split; [exact H1|]. eexists. exact H2.
Qed.

(** ** Refutations *)
Definition then_read (d : res dir) : res (list (list Z)) :=
  let! d' := d in let! o := tvips_read (str "a_000.tvips") SNone 0 None 0 d' in Ok (o_frames o).
(** A shorter series written over a longer one is read with the leftover frames. *)
Theorem C29_stale_files_refuted : exists m1 m2 d1, tvips_write (str "a") (str ".tvips") ex5 m1 2 0 [] = Ok d1
  /\ then_read (tvips_write (str "a") (str ".tvips") ex2 m2 2 0 d1) = Ok (t_frames ex2 ++ skipn 2 (t_frames ex5)).
Proof. exists (Some 400), None. eexists. split; [vm_compute; reflexivity|]. vm_compute. reflexivity. Qed.
(** A series of a single frame is written but cannot be read as a stack; a signal without
    navigation axis cannot be written; version 1 files cannot be read. *)
Theorem C29_single_frame_refuted : then_read (tvips_write (str "a") (str ".tvips") (ex_sig [1] [[1; 2]]) None 2 0 []) = Err IndexError.
Proof. vm_compute. reflexivity. Qed.
Theorem C27_no_navigation_refuted : tvips_write (str "a") (str ".tvips") (ex_sig [] [[1; 2]]) None 2 0 [] = Err NameError.
Proof. vm_compute. reflexivity. Qed.
Theorem C29_version_1_refuted : is_ok (tvips_write (str "a") (str ".tvips") ex5 None 1 0 []) = true
  /\ then_read (tvips_write (str "a") (str ".tvips") ex5 None 1 0 []) = Err ValueError.
Proof. vm_compute. auto. Qed.

Print Assumptions C27_names.
Print Assumptions C27_split.
Print Assumptions C27_no_navigation_refuted.
Print Assumptions C29_read_after_write.
Print Assumptions C29_overwrite.
Print Assumptions C29_stale_files_refuted.
Print Assumptions C29_single_frame_refuted.
Print Assumptions C29_version_1_refuted.
