(** MRC files: C24 and C48. *)
From Coq Require Import Permutation.
From Verif Require Import Base Text Bytes HierModel HierProof HierProps Dict DistModel RowMajor MrcModel.

(** * C24: names of images *)
Lemma numbered_inj : forall x i j, 0 <= i -> 0 <= j -> numbered x i = numbered x j -> i = j.
Proof.
  intros x i j Hi Hj H. unfold numbered in H. apply app_inv_head in H. injection H as H. unfold str_int in H.
  destruct (i <? 0) eqn:A; [lia|]. destruct (j <? 0) eqn:B; [lia|]. apply dec_inj in H; assumption.
Qed.

Lemma free_count_spec : forall seen x b f c, 0 <= b <= c ->
  (forall j, b <= j < c -> In (numbered x j) (map fst seen)) -> (List.length seen <= f + Z.to_nat (c - b))%nat ->
  exists c', free_count f x c seen = Ok c' /\ c <= c' /\ ~ In (numbered x c') (map fst seen).
Proof.
  intros seen x b. induction f as [|f IH]; intros c Hb Hall Hlen; cbn [free_count];
    destruct (lookup (numbered x c) seen) eqn:E.
  - exfalso. assert (C : (S (Z.to_nat (c - b)) <= List.length (map fst seen))%nat).
    { rewrite <- (zseq_length (S (Z.to_nat (c - b))) b) at 1. rewrite <- (map_length (numbered x)).
      apply NoDup_incl_length.
      - apply NoDup_map_in; [|apply NoDup_zseq]. intros i j Hi Hj. rewrite in_zseq in Hi, Hj. apply numbered_inj; lia.
      - intros q Hq. apply in_map_iff in Hq. destruct Hq as [j [<- Hj]]. rewrite in_zseq in Hj.
        destruct (Z.eq_dec j c) as [->|]; [|apply Hall; lia].
        apply lookup_some_in in E. apply in_map_iff. eexists. split; [|exact E]. reflexivity. }
    rewrite map_length in C. lia.
  - exists c. split; [reflexivity|]. split; [lia|]. apply lookup_none_in. exact E.
  - destruct (IH (c + 1)) as [c' [A [B D]]]; [lia| |lia|].
    + intros j Hj. destruct (Z.eq_dec j c) as [->|]; [|apply Hall; lia].
      apply lookup_some_in in E. apply in_map_iff. eexists. split; [|exact E]. reflexivity.
    + exists c'. split; [exact A|]. split; [lia|exact D].
  - exists c. split; [reflexivity|]. split; [lia|]. apply lookup_none_in. exact E.
Qed.

(** What the names become: the name itself or the name with a number. *)
Definition derived (x y : pystr) : Prop := y = x \/ exists c, 1 <= c /\ y = numbered x c.

Lemma dedupe_loop_spec : forall seq seen, Forall (fun p => 1 <= snd p) seen ->
  exists out, dedupe_loop seq seen = Ok out /\ Forall2 derived seq out /\ NoDup out /\
    (forall y, In y out -> ~ In y (map fst seen)).
Proof.
  induction seq as [|x seq IH]; intros seen Hs; cbn [dedupe_loop].
  - exists []. split; [reflexivity|]. split; [constructor|]. split; [constructor|intros ? []].
  - assert (Pput : forall k v (l : list (pystr * Z)), 1 <= v -> Forall (fun p => 1 <= snd p) l -> Forall (fun p => 1 <= snd p) (put k v l)).
    { clear. intros k v l Hv H. induction H as [|[k' w] l Hw Hl IHl]; cbn [put]; [constructor; [exact Hv|constructor]|].
      destruct (eqb_str k k'); (constructor; [first [exact Hv|exact Hw]|assumption]). }
    destruct (lookup x seen) as [count|] eqn:E.
    + assert (Hc : 1 <= count) by (apply lookup_some_in in E; rewrite Forall_forall in Hs; apply (Hs _ E)).
      destruct (free_count_spec seen x count (List.length seen) count) as [c [A [B D]]]; [lia|intros; lia|lia|].
      rewrite A. cbn [bind].
      destruct (IH (put (numbered x c) 1 (put x (c + 1) seen))) as [out [O1 [O2 [O3 O4]]]].
      { apply Pput; [lia|]. apply Pput; [lia|exact Hs]. }
      rewrite O1. cbn [bind]. exists (numbered x c :: out). split; [reflexivity|]. split; [|split].
      * constructor; [right; exists c; split; [lia|reflexivity]|exact O2].
      * constructor; [|exact O3]. intro K. apply (O4 _ K). apply put_keys. left. reflexivity.
      * intros y [<-|Hy]; [exact D|]. intro K. apply (O4 _ Hy). apply put_keys. right. apply put_keys. right. exact K.
    + destruct (IH (put x 1 seen)) as [out [O1 [O2 [O3 O4]]]]; [apply Pput; [lia|exact Hs]|].
      rewrite O1. cbn [bind]. exists (x :: out). split; [reflexivity|]. split; [|split].
      * constructor; [left; reflexivity|exact O2].
      * constructor; [|exact O3]. intro K. apply (O4 _ K). apply put_keys. left. reflexivity.
      * intros y [<-|Hy]; [apply lookup_none_in; exact E|]. intro K. apply (O4 _ Hy). apply put_keys. right. exact K.
Qed.

(** Every name is kept or numbered, and the results are pairwise different. *)
Theorem C24_unique_names : forall seq, exists out, dedupe seq = Ok out /\ Forall2 derived seq out /\ NoDup out.
Proof.
  intros seq. destruct (dedupe_loop_spec seq []) as [out [A [B [C _]]]]; [constructor|]. exists out. auto.
Qed.

(** If no name has an underscore, the first occurrence of every name is kept as it is. *)
Lemma dedupe_first : forall (seq : list pystr) (seen : list (pystr * Z)) before out, Forall (fun x => ~ In 95 x) seq ->
  (forall k, In k (map fst seen) -> In k before \/ In 95 k) -> dedupe_loop seq seen = Ok out ->
  forall i x, nth_error seq i = Some x -> ~ In x before -> ~ In x (firstn i seq) -> nth_error out i = Some x.
Proof.
  induction seq as [|y seq IH]; intros seen before out Hu Hk H i x Hi Hb Hf; [destruct i; discriminate|].
  inversion Hu as [|? ? U1 U2]; subst. cbn [dedupe_loop] in H. destruct (lookup y seen) as [count|] eqn:E.
  - destruct (free_count (List.length seen) y count seen) as [c|] eqn:Ec; cbn [bind] in H; [|discriminate H].
    destruct (dedupe_loop seq (put (numbered y c) 1 (put y (c + 1) seen))) as [o|] eqn:Eo; cbn [bind] in H; [|discriminate H]. injection H as <-.
    assert (Hy : In y before).
    { destruct (Hk y) as [K|K]; [|exact K|contradiction]. apply lookup_some_in in E. apply in_map_iff. eexists. split; [|exact E]. reflexivity. }
    destruct i as [|i]; [cbn in Hi; injection Hi as <-; contradiction|]. cbn [nth_error firstn] in *.
    eapply (IH _ before); [exact U2| |exact Eo|exact Hi|exact Hb|intro K; apply Hf; right; exact K].
    intros k Hkk. apply put_keys in Hkk. destruct Hkk as [->|Hkk]; [right; unfold numbered; apply in_or_app; right; left; reflexivity|].
    apply put_keys in Hkk. destruct Hkk as [->|Hkk]; [left; exact Hy|apply Hk; exact Hkk].
  - destruct (dedupe_loop seq (put y 1 seen)) as [o|] eqn:Eo; cbn [bind] in H; [|discriminate H]. injection H as <-.
    destruct i as [|i]; [cbn in Hi; injection Hi as ->; reflexivity|]. cbn [nth_error firstn] in *.
    eapply (IH _ (y :: before)); [exact U2| |exact Eo|exact Hi| |intro K; apply Hf; right; exact K].
    + intros k Hkk. apply put_keys in Hkk. destruct Hkk as [->|Hkk]; [left; left; reflexivity|].
      destruct (Hk k Hkk); [left; right; assumption|right; assumption].
    + intros [K|K]; [apply Hf; left; exact K|contradiction].
Qed.

Theorem C24_first_kept : forall seq out i x, Forall (fun x => ~ In 95 x) seq -> dedupe seq = Ok out ->
  nth_error seq i = Some x -> ~ In x (firstn i seq) -> nth_error out i = Some x.
Proof. intros seq out i x Hu H Hi Hf. eapply (dedupe_first seq [] []); eauto; intros k []. Qed.

Example C24_example : dedupe (map str ["a"; "b"; "a"; "a"; "b"]%string) = Ok (map str ["a"; "b"; "a_1"; "a_2"; "b_1"]%string).
Proof. vm_compute. reflexivity. Qed.
(** With underscores (possible for external images) a first occurrence can be renamed. *)
Theorem C24_underscore_refuted : exists seq out, dedupe seq = Ok out /\ nth_error seq 2 = Some (str "a_1") /\
  ~ In (str "a_1") (firstn 2 seq) /\ nth_error out 2 = Some (str "a_1_1").
Proof. exists (map str ["a"; "a"; "a_1"]%string), (map str ["a"; "a_1"; "a_1_1"]%string). vm_compute. intuition discriminate. Qed.
Print Assumptions C24_unique_names.
Print Assumptions C24_first_kept.
Print Assumptions C24_underscore_refuted.

(** ** Names belong to the images *)
(** When the directory is listed in the order of names, image [i] has the name of file [i]. *)
Theorem C24_names_of_images : forall listing paths names, sorted listing -> related_images listing = Ok (paths, names) ->
  paths = map fst listing /\ Forall2 derived (map snd listing) names.
Proof.
  intros listing paths names Hs H. unfold related_images in H.
  destruct (C24_unique_names (map snd listing)) as [out [A [B _]]]. rewrite A in H. cbn [bind] in H. injection H as <- <-.
  rewrite sort_sorted by exact Hs. auto.
Qed.
(** glob gives no order: in another order the images are swapped. *)
Theorem C24_names_swapped_refuted : exists listing, 
  related_images listing = Ok (map str ["1.mrc"; "2.mrc"]%string, map str ["ADF"; "BF"]%string) /\
  Permutation listing [(str "1.mrc", str "BF"); (str "2.mrc", str "ADF")].
Proof.
  exists [(str "2.mrc", str "ADF"); (str "1.mrc", str "BF")]. split; [vm_compute; reflexivity|]. apply perm_swap.
Qed.
(** A virtual and an external image of the same name: one of them is lost. *)
Theorem C24_lost_image_refuted :
  navigators [(str "v.mrc", str "HAADF")] [(str "e.mrc", str "HAADF")] = Ok [(str "_sig_HAADF", str "e.mrc")].
Proof. vm_compute. reflexivity. Qed.
Print Assumptions C24_names_of_images.
Print Assumptions C24_names_swapped_refuted.
Print Assumptions C24_lost_image_refuted.

(** Without that, every image is there. *)
Lemma store_keys : forall T (images : list T) names d n im, NoDup names ->
  lookup (str "_sig_" ++ n) (store images names d) = Some im ->
  (exists i, nth_error images i = Some im /\ nth_error names i = Some n) \/ (lookup (str "_sig_" ++ n) d = Some im).
Proof.
  induction images as [|im0 images IH]; intros [|n0 names] d n im Hn H; cbn [store] in H; auto.
  inversion Hn as [|? ? N1 N2]; subst. destruct (IH names _ n im N2 H) as [[i [A B]]|K].
  - left. exists (S i). auto.
  - rewrite lookup_put in K. destruct (eqb_str (str "_sig_" ++ n) (str "_sig_" ++ n0)) eqn:E; [|right; exact K].
    apply eqb_str_spec in E. apply app_inv_head in E. subst n0. injection K as ->. left. exists 0%nat. auto.
Qed.

Lemma store_has : forall T (images : list T) names d, NoDup names -> List.length images = List.length names ->
  (forall n v, In n names -> lookup (str "_sig_" ++ n) d = Some v -> False) ->
  (forall i im n, nth_error images i = Some im -> nth_error names i = Some n -> lookup (str "_sig_" ++ n) (store images names d) = Some im) /\
  (forall k, (forall n, In n names -> k <> str "_sig_" ++ n) -> lookup k (store images names d) = lookup k d).
Proof.
  induction images as [|im0 images IH]; intros [|n0 names] d Hn Hl Hd; try discriminate Hl; cbn [store].
  - split; [intros [|i]; discriminate|auto].
  - inversion Hn as [|? ? N1 N2]; subst. injection Hl as Hl.
    destruct (IH names (put (str "_sig_" ++ n0) im0 d) N2 Hl) as [A B].
    { intros n v Hin K. rewrite lookup_put in K. destruct (eqb_str (str "_sig_" ++ n) (str "_sig_" ++ n0)) eqn:E.
      - apply eqb_str_spec in E. apply app_inv_head in E. subst n0. contradiction.
      - eapply Hd; [right; exact Hin|exact K]. }
    split.
    + intros [|i] im n H1 H2; cbn [nth_error] in *; [|eapply A; eassumption].
      injection H1 as ->. injection H2 as ->. rewrite B.
      * rewrite lookup_put, eqb_str_refl. reflexivity.
      * intros n' Hn' K. apply app_inv_head in K. subst n'. contradiction.
    + intros k Hk. rewrite B by (intros n Hin; apply Hk; right; exact Hin). rewrite lookup_put.
      destruct (eqb_str k (str "_sig_" ++ n0)) eqn:E; [|reflexivity]. apply eqb_str_spec in E. exfalso. apply (Hk n0); [left; reflexivity|exact E].
Qed.

Lemma Forall2_len : forall A B (R : A -> B -> Prop) l1 l2, Forall2 R l1 l2 -> List.length l1 = List.length l2.
Proof. induction 1; cbn; congruence. Qed.

Theorem C24_all_images : forall virt ext pv nv pe ne d, related_images virt = Ok (pv, nv) -> related_images ext = Ok (pe, ne) ->
  (forall n, In n nv -> ~ In n ne) -> navigators virt ext = Ok d ->
  (forall i p n, nth_error pv i = Some p -> nth_error nv i = Some n -> lookup (str "_sig_" ++ n) d = Some p) /\
  (forall i p n, nth_error pe i = Some p -> nth_error ne i = Some n -> lookup (str "_sig_" ++ n) d = Some p).
Proof.
  intros virt ext pv nv pe ne d Hv He Hdis H. unfold navigators in H. rewrite Hv, He in H. cbn [bind fst snd] in H. injection H as <-.
  assert (N : forall l p n, related_images l = Ok (p, n) -> NoDup n /\ List.length p = List.length n).
  { intros l p n Hr. unfold related_images in Hr. destruct (C24_unique_names (map snd l)) as [out [A [B C]]]. rewrite A in Hr.
    cbn [bind] in Hr. injection Hr as <- <-. split; [exact C|]. apply Forall2_len in B. rewrite map_length in *. rewrite <- B.
    apply Permutation_length, Permutation_sym, sort_is_perm. }
  destruct (N _ _ _ Hv) as [V1 V2]. destruct (N _ _ _ He) as [E1 E2].
  destruct (store_has _ pv nv [] V1 V2) as [A B]; [intros n v _ K; discriminate|].
  destruct (store_has _ pe ne (store pv nv []) E1 E2) as [A' B'].
  { intros n v Hin K. apply store_keys in K; [|exact V1]. destruct K as [[i [_ K]]|K]; [|discriminate].
    apply nth_error_In in K. apply (Hdis n K Hin). }
  split; [|exact A']. intros i p n H1 H2. rewrite B'.
  - eapply A; eassumption.
  - intros n' Hn' K. apply app_inv_head in K. subst n'. apply (Hdis n); [eapply nth_error_In; exact H2|exact Hn'].
Qed.
Print Assumptions C24_all_images.
Example C24_all_example : exists d, navigators [(str "v1", str "A"); (str "v2", str "A")] [(str "e", str "B")] = Ok d /\
  d = [(str "_sig_A", str "v1"); (str "_sig_A_1", str "v2"); (str "_sig_B", str "e")].
Proof. eexists. split; [vm_compute; reflexivity|reflexivity]. Qed.

(** * C48: volumes *)
(** ** Specification: an MRC file with the given sizes, any header bytes elsewhere, any
    extended header. *)
Record mrc_file := { f_nx : Z; f_ny : Z; f_nz : Z; f_mode : Z; f_size : nat; f_h1 : list Z; f_h2 : list Z; f_ext : list Z;
                     f_get : list Z -> Z; f_tail : list Z }.
Definition u32 (x : Z) : Prop := 0 <= x < 2 ^ 32.
Definition valid_mrc (m : mrc_file) : Prop :=
  u32 (f_nx m) /\ u32 (f_ny m) /\ u32 (f_nz m) /\ u32 (Z.of_nat (List.length (f_ext m))) /\
  In (f_mode m, f_size m) [(0, 1%nat); (1, 2%nat); (2, 4%nat); (4, 8%nat); (6, 2%nat); (12, 2%nat)] /\
  List.length (f_h1 m) = 76%nat /\ List.length (f_h2 m) = 928%nat /\
  forall idx, 0 <= f_get m idx < 256 ^ Z.of_nat (f_size m).
Definition mrc_bytes (big : bool) (m : mrc_file) : list Z :=
  enc big 4 (f_nx m) ++ enc big 4 (f_ny m) ++ enc big 4 (f_nz m) ++ enc big 4 (f_mode m) ++ f_h1 m ++
  enc big 4 (Z.of_nat (List.length (f_ext m))) ++ f_h2 m ++ f_ext m ++
  flat_map (enc big (f_size m)) (map (f_get m) (box_indices [f_nz m; f_ny m; f_nx m])) ++ f_tail m.

Lemma mode_size_ok : forall m, valid_mrc m -> mode_size (f_mode m) = Ok (f_size m) /\ 0 <= f_mode m < 256.
Proof.
  intros m [_ [_ [_ [_ [H _]]]]]. cbn in H.
  repeat (destruct H as [H|H]; [injection H as <- <-; split; [reflexivity|lia]|]). contradiction.
Qed.

Theorem C48_volume : forall m, valid_mrc m ->
  exists v, mrc_read false (mrc_bytes false m) = Ok v /\ v_shape v = [f_nz m; f_ny m; f_nx m] /\
    Z.of_nat (List.length (v_flat v)) = f_nz m * f_ny m * f_nx m /\
    forall z y x, 0 <= z < f_nz m -> 0 <= y < f_ny m -> 0 <= x < f_nx m ->
      nth_error (v_flat v) (Z.to_nat ((z * f_ny m + y) * f_nx m + x)) = Some (f_get m [z; y; x]).
Proof.
  intros m Hm. destruct (mode_size_ok m Hm) as [Hmode Hmr]. destruct Hm as [Hx [Hy [Hz [He [_ [L1 [L2 Hg]]]]]]]. unfold u32 in *.
  set (vals := map (f_get m) (box_indices [f_nz m; f_ny m; f_nx m])).
  set (body := flat_map (enc false (f_size m)) vals).
  assert (Lv : Z.of_nat (List.length vals) = f_nx m * f_ny m * f_nz m).
  { unfold vals. rewrite map_length, box_length; [unfold prodZ; cbn [fold_right]; ring|]. repeat constructor; lia. }
  assert (Lb : List.length body = (List.length vals * f_size m)%nat).
  { unfold body. apply flat_map_len. intros; apply enc_length. }
  set (pre := enc false 4 (f_nx m) ++ enc false 4 (f_ny m) ++ enc false 4 (f_nz m) ++ enc false 4 (f_mode m) ++ f_h1 m ++
     enc false 4 (Z.of_nat (List.length (f_ext m))) ++ f_h2 m ++ f_ext m).
  assert (Ef : mrc_bytes false m = pre ++ body ++ f_tail m).
  { unfold mrc_bytes, pre, body, vals. rewrite <- !app_assoc. reflexivity. }
  assert (Lp : List.length pre = (1024 + List.length (f_ext m))%nat).
  { unfold pre. rewrite !app_length, !enc_length, L1, L2. lia. }
  assert (F0 : slice 0 4 (mrc_bytes false m) = enc false 4 (f_nx m)) by (unfold mrc_bytes; apply slice_here, enc_length).
  assert (F1 : slice 4 4 (mrc_bytes false m) = enc false 4 (f_ny m)).
  { unfold mrc_bytes. rewrite slice_skip by (rewrite enc_length; lia). rewrite enc_length. apply slice_here, enc_length. }
  assert (F2 : slice 8 4 (mrc_bytes false m) = enc false 4 (f_nz m)).
  { unfold mrc_bytes. do 2 (rewrite slice_skip by (rewrite ?enc_length; lia)). rewrite !enc_length. apply slice_here, enc_length. }
  assert (F3 : slice 12 4 (mrc_bytes false m) = enc false 4 (f_mode m)).
  { unfold mrc_bytes. do 3 (rewrite slice_skip by (rewrite ?enc_length; lia)). rewrite !enc_length. apply slice_here, enc_length. }
  assert (F4 : slice 92 4 (mrc_bytes false m) = enc false 4 (Z.of_nat (List.length (f_ext m)))).
  { unfold mrc_bytes. do 4 (rewrite slice_skip by (rewrite ?enc_length; lia)). rewrite slice_skip by (rewrite ?enc_length, L1; lia).
    rewrite !enc_length, L1. apply slice_here, enc_length. }
  unfold mrc_read. rewrite F0, F1, F2, F3, F4. change (2 ^ 32) with (256 ^ Z.of_nat 4) in *.
  rewrite !dec_enc by (try assumption; change (256 ^ Z.of_nat 4) with 4294967296; lia).
  assert (Lf : List.length (mrc_bytes false m) = (1024 + List.length (f_ext m) + List.length vals * f_size m + List.length (f_tail m))%nat).
  { rewrite Ef, !app_length, Lp, Lb. lia. }
  assert (G0 : (List.length (mrc_bytes false m) <? 1024)%nat = false) by (apply Nat.ltb_ge; rewrite Lf; clear; lia).
  rewrite G0, Hmode. cbn [bind].
  assert (G1 : (Z.of_nat (List.length (mrc_bytes false m)) <? 1024 + Z.of_nat (List.length (f_ext m)) + f_nx m * f_ny m * f_nz m * Z.of_nat (f_size m)) = false).
  { apply Z.ltb_ge. rewrite Lf, <- Lv. clear. nia. }
  rewrite G1. eexists. split; [reflexivity|]. cbn [v_shape v_flat]. split; [reflexivity|].
  assert (Hflat : map (dec_int false) (records (Z.to_nat (f_nx m * f_ny m * f_nz m)) (f_size m) (skipz (1024 + Z.of_nat (List.length (f_ext m))) (mrc_bytes false m))) = vals).
  { rewrite skipz_skipn, Ef. rewrite skipn_app_exact by (rewrite Lp; lia). unfold body. rewrite flat_map_concat_map.
    replace (Z.to_nat (f_nx m * f_ny m * f_nz m)) with (List.length (map (enc false (f_size m)) vals)) by (rewrite map_length; lia).
    rewrite records_concat.
    - rewrite map_map. rewrite <- (map_id vals) at 2. apply map_ext_in. intros x Hxx. apply dec_enc.
      unfold vals in Hxx. apply in_map_iff in Hxx. destruct Hxx as [idx [<- _]]. apply Hg.
    - rewrite Forall_map. apply Forall_forall. intros; apply enc_length. }
  rewrite Hflat. split; [rewrite Lv; ring|]. intros z y x Az Ay Ax. unfold vals. rewrite nth_error_map.
  replace ((z * f_ny m + y) * f_nx m + x) with (row_major [f_nz m; f_ny m; f_nx m] [z; y; x]) by (unfold row_major, prodZ; cbn [fold_right]; ring).
  rewrite box_nth; [reflexivity|]. repeat constructor; lia.
Qed.
Print Assumptions C48_volume.

Definition ex_mrc : mrc_file :=
  {| f_nx := 3; f_ny := 2; f_nz := 2; f_mode := 1; f_size := 2; f_h1 := repeat 7 76; f_h2 := repeat 0 928; f_ext := repeat 5 10;
     f_get := fun idx => match idx with [z; y; x] => (100 * z + 10 * y + x) mod 65536 | _ => 0 end; f_tail := [] |}.
Example C48_example_valid : valid_mrc ex_mrc.
Proof.
  repeat split; cbn; try lia; try tauto.
  all: destruct idx as [|a [|b [|c [|? ?]]]]; try lia; apply Z.mod_pos_bound; lia.
Qed.
Example C48_example : mrc_read false (mrc_bytes false ex_mrc) =
  Ok {| v_shape := [2; 2; 3]; v_flat := [0; 1; 2; 10; 11; 12; 100; 101; 102; 110; 111; 112] |}.
Proof. vm_compute. reflexivity. Qed.

(** Big endian files: the header is read in that order, the data is not. *)
Theorem C48_big_endian_refuted : exists m, valid_mrc m /\ mrc_read true (mrc_bytes true m) =
  Ok {| v_shape := [2; 2; 3]; v_flat := map (fun x => 256 * x) [0; 1; 2; 10; 11; 12; 100; 101; 102; 110; 111; 112] |}.
Proof. exists ex_mrc. split; [exact C48_example_valid|vm_compute; reflexivity]. Qed.

(** Axes: without axes of length one, and for a single image or row, names and sizes agree. *)
Theorem C48_axes : forall v nz ny nx, v_shape v = [nz; ny; nx] -> 1 <= nz -> 1 <= ny -> 1 <= nx ->
  (ny = 1 -> nz = 1) -> (nx = 1 -> ny = 1) ->
  mrc_axes v = filter (fun a => negb (snd a =? 1)) [(str "z", nz); (str "y", ny); (str "x", nx)].
Proof.
  intros v nz ny nx H Hz Hy Hx H1 H2. unfold mrc_axes. rewrite H. unfold squeeze_shape. cbn [existsb filter snd].
  destruct (nz =? 1) eqn:Ez, (ny =? 1) eqn:Ey, (nx =? 1) eqn:Ex; cbn [negb];
    try rewrite (Z.eqb_sym 1 nz), Ez; try rewrite (Z.eqb_sym 1 ny), Ey; try rewrite (Z.eqb_sym 1 nx), Ex; cbn; try reflexivity; exfalso; lia.
Qed.
(** A stack of five line profiles comes back with the stack named y. *)
Theorem C48_axes_refuted : exists v, v_shape v = [5; 1; 7] /\ mrc_axes v = [(str "y", 5); (str "x", 7)].
Proof. exists {| v_shape := [5; 1; 7]; v_flat := [] |}. split; reflexivity. Qed.
Print Assumptions C48_big_endian_refuted.
Print Assumptions C48_axes.
Print Assumptions C48_axes_refuted.
