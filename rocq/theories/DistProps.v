(** Properties C06 and C07: chunked loading of memory mapped files. *)
From Verif Require Import Base DistModel.

(** * Specification *)

(** A chunking of one axis of length [n]: non-negative sizes adding up to [n]. *)
Definition chunks_axis (n : Z) (c : list Z) : Prop := sumZ c = n /\ Forall (Z.le 0) c.

(** Index vector [g] lies inside [sh]. *)
Definition inside (sh g : list Z) : Prop := Forall2 (fun n i => 0 <= i < n) sh g.

(** [ind] names a chunk. *)
Definition chunk_index (chunks : list (list Z)) (ind : list nat) : Prop :=
  Forall2 (fun c i => (i < List.length c)%nat) chunks ind.

(** [g] lies in the box given by one half-open interval per axis. *)
Definition in_box (sl : list (Z * Z)) (g : list Z) : Prop :=
  Forall2 (fun ab i => fst ab <= i < snd ab) sl g.

(** The frame to be shown at [g]: that of the last acquisition at [g], else zero. *)
Definition frame_at {F} (positions : list (list Z)) (frames : list F) (zero : F) (g : list Z) (f : F) : Prop :=
  (exists i, nth_error positions i = Some g /\ nth_error frames i = Some f /\
     forall j, (i < j)%nat -> nth_error positions j <> Some g)
  \/ ((forall i, nth_error positions i <> Some g) /\ f = zero).

(** * Lemmas *)
Lemma sumZ_firstn_nonneg : forall c i, Forall (Z.le 0) c -> 0 <= sumZ (firstn i c).
Proof.
  induction c as [|x c IH]; intros i H; destruct i as [|i]; cbn [firstn sumZ]; try lia.
  inversion H; subst. specialize (IH i H3). lia.
Qed.

Lemma sumZ_firstn_S : forall c i, sumZ (firstn (S i) c) = sumZ (firstn i c) + nth i c 0.
Proof.
  induction c as [|x c IH]; intros i.
  - destruct i; reflexivity.
  - destruct i as [|i]; cbn [firstn sumZ nth]; [lia|].
    specialize (IH i). cbn [firstn sumZ] in IH. rewrite IH. lia.
Qed.

Lemma sumZ_firstn_mono : forall c i j, Forall (Z.le 0) c -> (i <= j)%nat ->
  sumZ (firstn i c) <= sumZ (firstn j c).
Proof.
  intros c i j H Hij. induction Hij as [|j Hij IH]; [lia|].
  rewrite sumZ_firstn_S.
  assert (0 <= nth j c 0); [|lia].
  destruct (Nat.lt_ge_cases j (List.length c)) as [K|K].
  - rewrite Forall_forall in H. apply H. apply nth_In. exact K.
  - rewrite nth_overflow by exact K. lia.
Qed.

Lemma axis_cover : forall n c g, chunks_axis n c -> 0 <= g < n ->
  exists i, (i < List.length c)%nat /\ chunk_start c i <= g < chunk_stop c i.
Proof.
  intros n c. revert n. induction c as [|x c IH]; intros n g [Hs Hp] Hg; cbn [sumZ] in Hs; [lia|].
  inversion Hp; subst.
  destruct (Z_lt_ge_dec g x) as [K|K].
  - exists O. split; [cbn; lia|]. unfold chunk_stop, chunk_start. cbn. lia.
  - destruct (IH (sumZ c) (g - x)) as [i [Hi H]]; [split; auto|lia|].
    exists (S i). split; [cbn; lia|]. unfold chunk_stop, chunk_start in *. cbn [firstn sumZ nth]. lia.
Qed.

Lemma axis_unique : forall c g i j, Forall (Z.le 0) c ->
  chunk_start c i <= g < chunk_stop c i -> chunk_start c j <= g < chunk_stop c j -> i = j.
Proof.
  intros c g i j Hp Hi Hj. unfold chunk_stop, chunk_start in *.
  destruct (Nat.lt_trichotomy i j) as [K|[K|K]]; [exfalso|exact K|exfalso].
  - pose proof (sumZ_firstn_mono c (S i) j Hp ltac:(lia)) as M. rewrite sumZ_firstn_S in M. lia.
  - pose proof (sumZ_firstn_mono c (S j) i Hp ltac:(lia)) as M. rewrite sumZ_firstn_S in M. lia.
Qed.

(** * C06 *)
(** Every element of the array lies in exactly one chunk slice. *)
Theorem C06_slices_partition : forall sh chunks g,
  Forall2 chunks_axis sh chunks -> inside sh g ->
  exists ind, (chunk_index chunks ind /\ in_box (get_chunk_slice chunks ind) g) /\
    forall ind', chunk_index chunks ind' -> in_box (get_chunk_slice chunks ind') g -> ind' = ind.
Proof.
  intros sh chunks g H. revert g. induction H as [|n c sh chunks Hc _ IH]; intros g Hg.
  - inversion Hg; subst. exists []. split; [split; constructor|].
    intros ind' H _. inversion H. reflexivity.
  - inversion Hg as [|? i ? g' Hi Hg']; subst.
    destruct (axis_cover _ _ _ Hc Hi) as [k [Hk Hin]].
    destruct (IH g' Hg') as [ind [[Hv Hb] Hu]].
    exists (k :: ind). split; [split|].
    + constructor; assumption.
    + cbn [get_chunk_slice]. constructor; [exact Hin|exact Hb].
    + intros ind' Hv' Hb'. inversion Hv' as [|? k' ? ind'' Hk' Hv'']; subst.
      cbn [get_chunk_slice] in Hb'. inversion Hb'; subst. cbn [fst snd] in *.
      f_equal; [|apply Hu; assumption].
      destruct Hc as [_ Hp]. eapply axis_unique; eassumption.
Qed.
Print Assumptions C06_slices_partition.

(** Along an axis the slices follow each other without gap, from 0 to the axis length. *)
Theorem C06_slices_in_order : forall n c, chunks_axis n c ->
  chunk_start c 0 = 0 /\ chunk_stop c (List.length c - 1) = n /\
  forall i, chunk_stop c i = chunk_start c (S i) /\ chunk_start c i <= chunk_stop c i.
Proof.
  intros n c [Hs Hp]. split; [reflexivity|]. split.
  - unfold chunk_stop, chunk_start. rewrite <- sumZ_firstn_S.
    destruct c as [|x c]; [exact Hs|]. rewrite firstn_all2 by (cbn [List.length]; lia). exact Hs.
  - intros i. unfold chunk_stop, chunk_start. rewrite sumZ_firstn_S. split; [reflexivity|].
    pose proof (sumZ_firstn_mono c i (S i) Hp ltac:(lia)). rewrite sumZ_firstn_S in H. lia.
Qed.
Print Assumptions C06_slices_in_order.

(** The block loaded for a chunk has the declared shape, and each of its elements is the
    element of the file that dask puts it in place of. *)
Theorem C06_blocks_are_the_data : forall A (data : arr A) chunks ind,
  Forall2 chunks_axis (shape data) chunks -> chunk_index chunks ind ->
  let b := slice_memmap data (get_chunk_slice chunks ind) in
  shape b = block_shape chunks ind /\
  forall loc, inside (block_shape chunks ind) loc ->
    at_ b loc = at_ data (global_index chunks ind loc) /\
    inside (shape data) (global_index chunks ind loc).
Proof.
  intros A [sh f] chunks ind H Hv. cbn [shape] in H. cbn [slice_memmap np_slice shape at_].
  unfold slice_memmap, np_slice. cbn [shape at_].
  assert (G : slice_shape (get_chunk_slice chunks ind) sh = block_shape chunks ind /\
    forall loc, inside (block_shape chunks ind) loc ->
      slice_index (get_chunk_slice chunks ind) sh loc = global_index chunks ind loc /\
      inside sh (global_index chunks ind loc)).
  { revert ind Hv. induction H as [|n c sh chunks Hc _ IH]; intros ind Hv.
    - inversion Hv; subst. split; [reflexivity|]. intros loc Hl. split; [reflexivity|constructor].
    - inversion Hv as [|? i ? ind' Hi Hv']; subst.
      destruct (IH ind' Hv') as [IH1 IH2]. destruct Hc as [Hs Hp].
      pose proof (sumZ_firstn_nonneg c i Hp) as P1.
      pose proof (sumZ_firstn_mono c i (S i) Hp ltac:(lia)) as P2.
      pose proof (sumZ_firstn_mono c (S i) (List.length c) Hp ltac:(lia)) as P3.
      rewrite firstn_all in P3. rewrite sumZ_firstn_S in *.
      cbn [get_chunk_slice slice_shape block_shape]. unfold chunk_stop, chunk_start. split.
      + f_equal; [lia|exact IH1].
      + intros loc Hl. inversion Hl as [|? l ? loc' Hl1 Hl2]; subst.
        destruct (IH2 loc' Hl2) as [E1 E2].
        cbn [slice_index global_index]. split.
        * f_equal; [lia|exact E1].
        * constructor; [lia|exact E2]. }
  destruct G as [G1 G2]. split; [exact G1|].
  intros loc Hl. destruct (G2 loc Hl) as [E1 E2]. rewrite E1. split; [reflexivity|exact E2].
Qed.
Print Assumptions C06_blocks_are_the_data.

Example C06_example :
  Forall2 chunks_axis [5; 4] [[2; 2; 1]; [3; 1]] /\
  get_chunk_slice [[2; 2; 1]; [3; 1]] [1; 1]%nat = [(2, 4); (3, 4)] /\
  block_shape [[2; 2; 1]; [3; 1]] [1; 1]%nat = [2; 1].
Proof.
  split; [|split; reflexivity].
  repeat constructor; cbn; lia.
Qed.

(** * C07 *)
Lemma eqb_zs_spec : forall a b, eqb_zs a b = true <-> a = b.
Proof.
  induction a as [|x a IH]; intros [|y b]; cbn [eqb_zs]; split; intro H; try discriminate; auto.
  - apply andb_prop in H. destruct H as [H1 H2]. apply IH in H2. subst. f_equal. lia.
  - injection H as -> ->. rewrite Z.eqb_refl. apply IH. reflexivity.
Qed.

Lemma norm_inside : forall sh p, inside sh p -> norm_indices sh p = Ok p.
Proof.
  intros sh p H. induction H as [|n i sh p Hi _ IH]; [reflexivity|].
  cbn [norm_indices]. unfold norm_index.
  destruct ((0 <=? i) && (i <? n)) eqn:E; [|lia]. cbn [bind]. rewrite IH. reflexivity.
Qed.

(** What the filled mapping says: index + 1 of the last position equal to g. *)
Lemma fill_positions_spec : forall nav ps m i, Forall (inside nav) ps ->
  exists m', fill_positions nav m i ps = Ok m' /\
  forall g, (exists k, nth_error ps k = Some g /\ m' g = i + Z.of_nat k + 1 /\
               forall j, (k < j)%nat -> nth_error ps j <> Some g)
         \/ ((forall k, nth_error ps k <> Some g) /\ m' g = m g).
Proof.
  intros nav. induction ps as [|p ps IH]; intros m i H.
  - exists m. split; [reflexivity|]. intros g. right. split; [|reflexivity]. intros [|k]; discriminate.
  - inversion H as [|? ? Hp Hps]; subst. cbn [fill_positions]. rewrite (norm_inside _ _ Hp). cbn [bind].
    destruct (IH (fun g => if eqb_zs g p then i + 1 else m g) (i + 1) Hps) as [m' [E S]].
    exists m'. split; [exact E|]. intros g. destruct (S g) as [[k [H1 [H2 H3]]]|[H1 H2]].
    + left. exists (Datatypes.S k). split; [exact H1|]. split; [lia|].
      intros [|j] Hj; [lia|]. cbn [nth_error]. apply H3. lia.
    + destruct (eqb_zs g p) eqn:Eg.
      * left. exists O. apply eqb_zs_spec in Eg. subst g. split; [reflexivity|]. split; [lia|].
        intros [|j] Hj; [lia|]. cbn [nth_error]. apply H1.
      * right. split; [|exact H2]. intros [|k]; cbn [nth_error]; [|apply H1].
        intro K. injection K as ->. assert (eqb_zs g g = true) by (apply eqb_zs_spec; reflexivity). congruence.
Qed.

Lemma squeeze_id : forall sh, Forall (fun n => n <> 1) sh -> squeeze_shape sh = sh.
Proof.
  unfold squeeze_shape. induction sh as [|n sh IH]; intros H; [reflexivity|].
  inversion H; subst. cbn [filter]. destruct (n =? 1) eqn:E; [lia|]. cbn [negb]. rewrite IH by assumption. reflexivity.
Qed.

Lemma take_frames_map : forall F (frames : list F) zero A (h : A -> Z) (s : A -> F -> Prop) l,
  (forall x, In x l -> exists f, take_frame frames (h x) zero = Ok f /\ s x (if h x =? -1 then zero else f)) ->
  exists fs, take_frames frames zero (map h l) = Ok fs /\ Forall2 s l fs.
Proof.
  intros F frames zero A h s. induction l as [|x l IH]; intros H.
  - exists []. split; [reflexivity|constructor].
  - destruct (H x) as [f [Hf Hs]]; [left; reflexivity|].
    destruct IH as [fs [E Hfs]]; [intros; apply H; right; assumption|].
    cbn [map take_frames]. rewrite Hf. cbn [bind]. rewrite E. cbn [bind].
    eexists. split; [reflexivity|]. constructor; assumption.
Qed.

(** For chunks without an axis of length one, every position of the block shows the
    frame the positions ask for. *)
Theorem C07_positions : forall F (frames : list F) zero nav positions navchunks ind,
  frames <> [] -> List.length positions = List.length frames ->
  Forall (inside nav) positions -> block_shape navchunks ind <> [] ->
  Forall (fun n => n <> 1) (block_shape navchunks ind) ->
  exists fs, load_block frames zero nav positions navchunks ind = Ok (block_shape navchunks ind, fs) /\
    Forall2 (fun loc f => frame_at positions frames zero (global_index navchunks ind loc) f)
      (box_indices (block_shape navchunks ind)) fs.
Proof.
  intros F frames zero nav positions navchunks ind Hne Hlen Hpos Hb H1.
  unfold load_block, pos_mapping.
  destruct (fill_positions_spec nav positions (fun _ => 0) 0 Hpos) as [m [-> S]]. cbn [bind].
  unfold slice_memmap_positions. rewrite squeeze_id by exact H1.
  unfold mapping_block.
  destruct (take_frames_map F frames zero _ (fun loc => m (global_index navchunks ind loc) - 1)
     (fun loc f => frame_at positions frames zero (global_index navchunks ind loc) f)
     (box_indices (block_shape navchunks ind))) as [fs [E H]].
  - intros loc _. set (g := global_index navchunks ind loc).
    unfold take_frame, norm_index. destruct (S g) as [[k [A1 [A2 A3]]]|[A1 A2]].
    + assert (Hk : (k < List.length positions)%nat) by (apply nth_error_Some; congruence).
      destruct ((0 <=? m g - 1) && (m g - 1 <? Z.of_nat (List.length frames))) eqn:E; [|lia].
      cbn [bind]. eexists. split; [reflexivity|].
      destruct (m g - 1 =? -1) eqn:E2; [lia|].
      replace (Z.to_nat (m g - 1)) with k by lia.
      left. exists k. split; [exact A1|]. split; [|exact A3].
      apply nth_error_nth'. lia.
    + assert (L : (0 < List.length frames)%nat) by (destruct frames; [congruence|cbn; lia]).
      assert (L2 : Z.of_nat (List.length frames) >= 1) by lia.
      rewrite A2. destruct ((0 <=? 0 - 1) && _) eqn:E; [lia|].
      destruct ((- Z.of_nat (List.length frames) <=? 0 - 1) && _) eqn:E3; [|lia].
      cbn [bind]. eexists. split; [reflexivity|]. right. split; [exact A1|reflexivity].
  - exists fs. rewrite E. cbn [bind].
    destruct (block_shape navchunks ind) eqn:Eb; [congruence|]. split; [reflexivity|exact H].
Qed.
Print Assumptions C07_positions.

Example C07_example :
  Forall (inside [2; 3]) [[0; 0]; [1; 2]; [0; 0]] /\
  load_block [10; 20; 30] 0 [2; 3] [[0; 0]; [1; 2]; [0; 0]] [[2]; [3]] [0; 0]%nat
  = Ok ([2; 3], [30; 0; 0; 0; 0; 20]).
Proof. split; [repeat constructor; cbn; lia|reflexivity]. Qed.

(** A chunk with one axis of length one loses that axis: the loaded block has not the
    declared shape. *)
Theorem C07_size_one_axis_refuted : exists (frames : list Z) zero nav positions navchunks ind,
  Forall2 chunks_axis nav navchunks /\ chunk_index navchunks ind /\
  Forall (inside nav) positions /\ List.length positions = List.length frames /\
  exists sh fs, load_block frames zero nav positions navchunks ind = Ok (sh, fs) /\
    sh <> block_shape navchunks ind.
Proof.
  exists [10; 20; 30], 0, [1; 3], [[0; 0]; [0; 1]; [0; 2]], [[1]; [3]], [0; 0]%nat.
  split; [repeat constructor; cbn; lia|]. split; [repeat constructor|].
  split; [repeat constructor; cbn; lia|]. split; [reflexivity|].
  eexists _, _. split; [reflexivity|]. discriminate.
Qed.
Print Assumptions C07_size_one_axis_refuted.

(** A chunk with a single position cannot be loaded at all. *)
Theorem C07_single_position_refuted : exists (frames : list Z) zero nav positions navchunks ind,
  Forall2 chunks_axis nav navchunks /\ chunk_index navchunks ind /\
  Forall (inside nav) positions /\ List.length positions = List.length frames /\
  load_block frames zero nav positions navchunks ind = Err TypeError.
Proof.
  exists [10; 20], 0, [1; 2], [[0; 0]; [0; 1]], [[1]; [1; 1]], [0; 0]%nat.
  split; [repeat constructor; cbn; lia|]. split; [repeat constructor|].
  split; [repeat constructor; cbn; lia|]. split; reflexivity.
Qed.
Print Assumptions C07_single_position_refuted.
