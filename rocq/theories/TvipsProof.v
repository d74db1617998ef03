(** Lemmas on the TVIPS model: files. *)
From Coq Require Import Permutation.
From Verif Require Import Base Text Bytes HierModel Dict HierProof RowMajor TvipsModel.

Lemma zfill3_undec : forall n, 0 <= n -> undec (zfill3 n) = Some n.
Proof.
  intros n H. unfold zfill3. assert (D := undec_dec n H). assert (NE := dec_ne n H).
  generalize dependent (dec n). intros l D NE. 
  assert (K : forall k, undec_aux 0 (repeat 48 k ++ l) = Some n).
  { destruct l as [|c l]; [congruence|]. cbn [undec] in D. intros k. induction k as [|k IH]; [exact D|].
    cbn [repeat app undec_aux]. cbn. exact IH. }
  unfold undec. destruct (repeat 48 (3 - List.length l) ++ l) eqn:E.
  - apply app_eq_nil in E. destruct E. congruence.
  - rewrite <- E. apply K.
Qed.
Lemma zfill3_inj : forall a b, 0 <= a -> 0 <= b -> zfill3 a = zfill3 b -> a = b.
Proof. intros a b Ha Hb E. apply zfill3_undec in Ha. apply zfill3_undec in Hb. rewrite E in Ha. congruence. Qed.
Lemma part_name_inj : forall fnb ext a b, 0 <= a -> 0 <= b -> part_name fnb ext a = part_name fnb ext b -> a = b.
Proof.
  intros fnb ext a b Ha Hb E. unfold part_name in E. apply app_inv_head in E. apply app_inv_head in E. apply app_inv_tail in E.
  apply zfill3_inj; assumption.
Qed.

Lemma lookup_put_eq : forall A k (v : A) l, lookup k (put k v l) = Some v.
Proof.
  induction l as [|[k' v'] l IH]; cbn [put lookup].
  - rewrite eqb_str_refl. reflexivity.
  - destruct (eqb_str k k') eqn:E; cbn [lookup]; [rewrite eqb_str_refl; reflexivity|]. rewrite E. exact IH.
Qed.
Lemma lookup_put_neq : forall A k k' (v : A) l, k <> k' -> lookup k (put k' v l) = lookup k l.
Proof.
  induction l as [|[k2 v2] l IH]; intros H; cbn [put lookup].
  - destruct (eqb_str k k') eqn:E; [apply eqb_str_spec in E; contradiction|reflexivity].
  - destruct (eqb_str k' k2) eqn:E; cbn [lookup].
    + apply eqb_str_spec in E. subst k2. destruct (eqb_str k k') eqn:F; [apply eqb_str_spec in F; contradiction|reflexivity].
    + rewrite IH by exact H. reflexivity.
Qed.

Section Loop.
  Variables (fnb ext : pystr) (maxsize rsz : Z) (hdr : list Z) (rc : Z -> list Z).
  Hypothesis Hrsz : 0 < rsz.
  Hypothesis Hmax : Z.of_nat (List.length hdr) + rsz <= maxsize.
  Hypothesis Hrc : forall i, 0 <= i -> Z.of_nat (List.length (rc i)) = rsz.

  Fixpoint contents (idx cur : Z) (cs : list Z) : list (list Z) :=
    match cs with
    | [] => []
    | c :: cs' => ((if idx =? 0 then hdr else []) ++ flat_map rc (zseq cur (Z.to_nat c))) :: contents (idx + 1) (cur + c) cs'
    end.

  Lemma flat_rc_length : forall n cur, 0 <= cur -> Z.of_nat (List.length (flat_map rc (zseq cur n))) = Z.of_nat n * rsz.
  Proof.
    induction n as [|n IH]; intros cur Hc; [reflexivity|]. cbn [zseq flat_map]. rewrite app_length, Nat2Z.inj_add, IH by lia.
    rewrite Hrc by exact Hc. lia.
  Qed.

  (** Number of files for [todo] frames. *)
  Definition per_file : Z := maxsize / rsz.
  Definition in_first : Z := (maxsize - Z.of_nat (List.length hdr)) / rsz.
  Definition ceil_div (a b : Z) : Z := (a + b - 1) / b.
  Definition nparts (idx todo : Z) : Z :=
    if idx =? 0 then (if todo =? 0 then 0 else 1 + ceil_div (Z.max 0 (todo - in_first)) per_file) else ceil_div todo per_file.
  Lemma nparts_step : forall idx todo, 0 <= idx -> 0 < todo ->
    let cap := if idx =? 0 then in_first else per_file in
    let c := if todo <? cap then todo else cap in
    nparts idx todo = 1 + nparts (idx + 1) (todo - c).
  Proof.
    intros idx todo Hi Ht. unfold nparts. replace (idx + 1 =? 0) with false by lia. destruct (idx =? 0) eqn:E; cbn zeta.
    - replace (todo =? 0) with false by lia. f_equal. f_equal. destruct (todo <? in_first) eqn:F; lia.
    - assert (Q : 1 <= per_file) by (unfold per_file; apply Z.div_le_lower_bound; lia).
      unfold ceil_div. generalize dependent per_file. intros q Hq. destruct (todo <? q) eqn:F.
      + replace (todo - todo + q - 1) with (q - 1) by lia. rewrite (Z.div_small (q - 1)) by lia.
        symmetry. apply Z.div_unique with (todo - 1); lia.
      + replace (todo + q - 1) with (todo - q + q - 1 + 1 * q) by lia. rewrite Z.div_add by lia. lia.
  Qed.

  Lemma write_loop_spec : forall fuel todo cur idx d, 0 <= todo -> 0 <= cur -> 0 <= idx -> (Z.to_nat todo < fuel)%nat ->
    exists d' cs, write_loop fuel fnb ext maxsize rsz hdr rc todo cur idx d = Ok d'
      /\ Forall (fun c => 0 < c) cs /\ sumZ cs = todo /\ Z.of_nat (List.length cs) = nparts idx todo
      /\ (forall j b, nth_error (contents idx cur cs) j = Some b -> lookup (part_name fnb ext (idx + Z.of_nat j)) d' = Some b)
      /\ Forall (fun b => Z.of_nat (List.length b) <= maxsize) (contents idx cur cs)
      /\ (forall nm, (forall j, (j < List.length cs)%nat -> nm <> part_name fnb ext (idx + Z.of_nat j)) -> lookup nm d' = lookup nm d).
  Proof.
    induction fuel as [|fuel IH]; intros todo cur idx d Ht Hc Hi Hf; [lia|]. cbn [write_loop].
    destruct (todo =? 0) eqn:E.
    - exists d, []. cbn [contents sumZ]. replace todo with 0 by lia. repeat split; [constructor| | |constructor].
      + unfold nparts. destruct (idx =? 0); [reflexivity|]. cbn [List.length Z.of_nat]. unfold ceil_div.
        assert (Q : 1 <= per_file) by (unfold per_file; apply Z.div_le_lower_bound; lia).
        symmetry. apply Z.div_small. lia.
      + intros j b K. destruct j; discriminate K.
    - set (start := if idx =? 0 then hdr else []). 
      assert (Hs : Z.of_nat (List.length start) + rsz <= maxsize) by (unfold start; destruct (idx =? 0); cbn; lia).
      set (sv := (maxsize - Z.of_nat (List.length start)) / rsz).
      assert (Hsv : 1 <= sv). { unfold sv. apply Z.div_le_lower_bound; lia. }
      assert (Hsv2 : sv * rsz <= maxsize - Z.of_nat (List.length start)). { unfold sv. rewrite Z.mul_comm. apply Z.mul_div_le. exact Hrsz. }
      set (c := if todo <? sv then todo else sv). assert (Hc1 : 0 < c <= todo /\ c <= sv) by (unfold c; destruct (todo <? sv) eqn:F; lia).
      replace (c <=? 0) with false by lia.
      destruct (IH (todo - c) (cur + c) (idx + 1) (put (part_name fnb ext idx) (start ++ flat_map rc (zseq cur (Z.to_nat c))) d)) as [d' [cs [H1 [H2 [H3 [HN [H4 [H5 H6]]]]]]]]; try lia.
      exists d', (c :: cs). split; [exact H1|]. split; [constructor; [lia|exact H2]|]. split; [cbn [sumZ]; lia|].
      split.
      { cbn [List.length]. rewrite Nat2Z.inj_succ, HN. rewrite (nparts_step idx todo) by lia. cbn zeta.
        replace (if idx =? 0 then in_first else per_file) with sv.
        2:{ unfold sv, start, in_first, per_file. destruct (idx =? 0); [reflexivity|]. cbn [List.length Z.of_nat]. rewrite Z.sub_0_r. reflexivity. }
        fold c. lia. }
      split; [|split].
      + intros j b K. destruct j as [|j]; cbn [contents nth_error] in K.
        * injection K as <-. rewrite Z.add_0_r. rewrite H6.
          -- rewrite lookup_put_eq. reflexivity.
          -- intros j _ K. apply part_name_inj in K; lia.
        * apply H4 in K. rewrite <- K. f_equal. f_equal. lia.
      + cbn [contents]. constructor; [|exact H5]. fold start. rewrite app_length, Nat2Z.inj_add, flat_rc_length by exact Hc.
        rewrite Z2Nat.id by lia. assert (c * rsz <= sv * rsz) by (apply Z.mul_le_mono_nonneg_r; lia). lia.
      + intros nm K. rewrite H6.
        * apply lookup_put_neq. specialize (K 0%nat). cbn in K. rewrite Z.add_0_r in K. apply K. lia.
        * intros j Hj. specialize (K (S j)). replace (idx + 1 + Z.of_nat j) with (idx + Z.of_nat (S j)) by lia. apply K. cbn. lia.
  Qed.

  Lemma contents_length : forall cs idx cur, List.length (contents idx cur cs) = List.length cs.
  Proof. induction cs as [|c cs IH]; intros; [reflexivity|]. cbn [contents List.length]. rewrite IH. reflexivity. Qed.

  Lemma memmap_recs : forall n cur, 0 <= cur -> (0 < n)%nat -> memmap rsz (flat_map rc (zseq cur n)) = Ok (map rc (zseq cur n)).
  Proof.
    intros n cur Hc Hn. unfold memmap. rewrite flat_rc_length by exact Hc.
    assert (P : 0 < Z.of_nat n * rsz) by (apply Z.mul_pos_pos; lia).
    replace (Z.of_nat n * rsz =? 0) with false by lia. rewrite Z.mod_mul by lia. cbn [Z.eqb negb orb].
    rewrite Z.div_mul by lia. rewrite Nat2Z.id. f_equal.
    rewrite flat_map_concat_map. rewrite <- (app_nil_r (List.concat _)). 
    rewrite <- (zseq_length n cur) at 1. rewrite <- (map_length rc). apply records_concat.
    apply Forall_forall. intros r Hr. apply in_map_iff in Hr. destruct Hr as [i [<- Hi]]. apply in_zseq in Hi. specialize (Hrc i). lia.
  Qed.

  Lemma memmaps_contents : forall cs idx cur, 0 < idx -> 0 <= cur -> Forall (fun c => 0 < c) cs ->
    memmaps rsz (contents idx cur cs) = Ok (map rc (zseq cur (Z.to_nat (sumZ cs)))).
  Proof.
    induction cs as [|c cs IH]; intros idx cur Hi Hc H; [reflexivity|]. inversion H as [|? ? H1 H2]; subst.
    cbn [contents memmaps]. replace (idx =? 0) with false by lia. cbn [app]. rewrite memmap_recs by lia. cbn [bind].
    rewrite IH by (assumption || lia). cbn [bind sumZ]. f_equal. rewrite <- map_app.
    assert (S : 0 <= sumZ cs). { clear - H2. induction H2 as [|x l Hx _ IH]; cbn [sumZ]; lia. }
    rewrite Z2Nat.inj_add by lia. rewrite zseq_app. rewrite Z2Nat.id by lia. reflexivity.
  Qed.
End Loop.

Lemma other_files_spec : forall base ext d bs i fuel, 
  (forall j b, nth_error bs j = Some b -> lookup (base ++ zfill3 (i + Z.of_nat j) ++ ext) d = Some b) ->
  lookup (base ++ zfill3 (i + Z.of_nat (List.length bs)) ++ ext) d = None ->
  (List.length bs < fuel)%nat -> other_files fuel base ext i d = Ok bs.
Proof.
  induction bs as [|b bs IH]; intros i fuel H1 H2 Hf; (destruct fuel as [|fuel]; [cbn in Hf; lia|]); cbn [other_files].
  - cbn [List.length Z.of_nat] in H2. rewrite Z.add_0_r in H2. rewrite H2. reflexivity.
  - assert (K := H1 0%nat b eq_refl). cbn [Z.of_nat] in K. rewrite Z.add_0_r in K. rewrite K.
    rewrite (IH (i + 1) fuel); [reflexivity| | |cbn in Hf; lia].
    + intros j b' Hj. specialize (H1 (S j) b' Hj). replace (i + 1 + Z.of_nat j) with (i + Z.of_nat (S j)) by lia. exact H1.
    + cbn [List.length] in H2. replace (i + 1 + Z.of_nat (List.length bs)) with (i + Z.of_nat (S (List.length bs))) by lia. exact H2.
Qed.

Lemma keys_bound : forall A (ks : list pystr) (d : list (pystr * A)), NoDup ks -> (forall k, In k ks -> lookup k d <> None) ->
  (List.length ks <= List.length d)%nat.
Proof.
  intros A ks d N H. rewrite <- (map_length fst d). apply NoDup_incl_length; [exact N|]. intros k Hk. specialize (H k Hk).
  destruct (lookup k d) as [v|] eqn:E; [|congruence]. apply lookup_some_in in E. apply (in_map fst) in E. exact E.
Qed.

(** ** What the writer leaves in the directory *)
Definition good_sig (s : tsig) (extra : Z) : Prop :=
  t_nav s <> [] /\ Forall (fun n => 1 <= n) (t_nav s) /\ 0 <= extra < 2 ^ 32 - 60
  /\ 1 <= t_dimy s < 2 ^ 32 /\ 1 <= t_dimx s < 2 ^ 32 /\ (t_item s = 1 \/ t_item s = 2 \/ t_item s = 4 \/ t_item s = 8)
  /\ Z.of_nat (List.length (t_frames s)) = prodZ (t_nav s) /\ prodZ (t_nav s) < 2 ^ 32
  /\ Forall (fun f => Z.of_nat (List.length f) = t_dimy s * t_dimx s * t_item s) (t_frames s).

Lemma words_len : forall l, List.length (flat_map (le 4) l) = (4 * List.length l)%nat.
Proof.
  induction l as [|x l IH]; [reflexivity|]. change (flat_map (le 4) (x :: l)) with (le 4 x ++ flat_map (le 4) l).
  rewrite app_length, le_length, IH. cbn [List.length]. lia.
Qed.
Lemma main_header_length : forall v e s, List.length (main_header v e s) = 256%nat.
Proof. intros. unfold main_header. rewrite app_length, words_len. reflexivity. Qed.
Lemma frame_header_length : forall s i, List.length (frame_header s i) = 60%nat.
Proof. intros. unfold frame_header. rewrite words_len. reflexivity. Qed.

Lemma word_words : forall l i x rest, nth_error l i = Some x -> 0 <= x < 2 ^ 32 -> word i (flat_map (le 4) l ++ rest) = x.
Proof.
  intros l i x rest. revert i. induction l as [|y l IH]; intros i H Hx; [destruct i; discriminate H|].
  change (flat_map (le 4) (y :: l)) with (le 4 y ++ flat_map (le 4) l). rewrite <- app_assoc. unfold word. destruct i as [|i].
  - cbn [nth_error] in H. injection H as ->. rewrite slice_here by apply le_length. apply le_val_small. exact Hx.
  - rewrite slice_skip by (rewrite le_length; lia). rewrite le_length. replace (4 * S i - 4)%nat with (4 * i)%nat by lia.
    apply (IH i); assumption.
Qed.

Lemma record_length : forall s extra i, good_sig s extra -> 0 <= i < prodZ (t_nav s) ->
  Z.of_nat (List.length (record extra s i)) = record_size extra s.
Proof.
  intros s extra i [_ [_ [He [_ [_ [_ [HL [_ HF]]]]]]]] Hi. unfold record, record_size. rewrite !app_length, frame_header_length, repeat_length.
  assert (K : Z.of_nat (List.length (nth (Z.to_nat i) (t_frames s) [])) = t_dimy s * t_dimx s * t_item s).
  { rewrite Forall_forall in HF. apply HF. apply nth_In. lia. }
  lia.
Qed.

(** A record function of the right length everywhere, equal on the frames. *)
Definition rec_total (extra : Z) (s : tsig) (i : Z) : list Z :=
  if (0 <=? i) && (i <? prodZ (t_nav s)) then record extra s i else repeat 0 (Z.to_nat (record_size extra s)).

Lemma flat_map_ext_in' : forall A B (f g : A -> list B) l, (forall x, In x l -> f x = g x) -> flat_map f l = flat_map g l.
Proof.
  induction l as [|x l IH]; intros H; [reflexivity|]. cbn [flat_map]. rewrite (H x) by (left; reflexivity).
  rewrite IH by (intros; apply H; right; assumption). reflexivity.
Qed.

Lemma write_loop_ext : forall rc rc' fuel fnb ext m rsz hdr todo cur idx d n,
  (forall i, 0 <= i < n -> rc i = rc' i) -> 0 <= cur -> 0 <= todo -> cur + todo <= n ->
  write_loop fuel fnb ext m rsz hdr rc todo cur idx d = write_loop fuel fnb ext m rsz hdr rc' todo cur idx d.
Proof.
  induction fuel as [|fuel IH]; intros fnb ext m rsz hdr todo cur idx d n H Hc Ht Hn; [reflexivity|]. cbn [write_loop].
  destruct (todo =? 0) eqn:E; [reflexivity|].
  set (start := if idx =? 0 then hdr else []). set (sv := (m - Z.of_nat (List.length start)) / rsz).
  set (c := if todo <? sv then todo else sv). destruct (c <=? 0) eqn:F; [reflexivity|].
  assert (c <= todo) by (unfold c; destruct (todo <? sv) eqn:G; lia).
  assert (K : flat_map rc (zseq cur (Z.to_nat c)) = flat_map rc' (zseq cur (Z.to_nat c))).
  { apply flat_map_ext_in'. intros x Hx. apply in_zseq in Hx. apply H. lia. }
  rewrite K. apply (IH _ _ _ _ _ _ _ _ _ n); auto; lia.
Qed.

Lemma prod_ge1 : forall l, Forall (fun n => 1 <= n) l -> 1 <= prodZ l.
Proof.
  induction 1 as [|n l Hn _ IH]; [cbn; lia|]. cbn [prodZ fold_right]. fold (prodZ l).
  apply Z.le_trans with (1 * 1); [lia|apply Z.mul_le_mono_nonneg; lia].
Qed.

Definition limit (s : tsig) (extra : Z) (maxsize : option Z) : Z :=
  Z.max (256 + record_size extra s) (match maxsize with Some m => m | None => 256 + prodZ (t_nav s) * record_size extra s end).

(** Number of files the writer makes: the first holds the main header too. *)
Definition file_count (s : tsig) (extra : Z) (maxsize : option Z) : Z :=
  let l := limit s extra maxsize in let r := record_size extra s in
  1 + ceil_div (Z.max 0 (prodZ (t_nav s) - (l - 256) / r)) (l / r).

Lemma write_spec : forall fnb ext s maxsize version extra d, good_sig s extra ->
  exists d' cs, tvips_write fnb ext s maxsize version extra d = Ok d'
    /\ Forall (fun c => 0 < c) cs /\ sumZ cs = prodZ (t_nav s) /\ cs <> []
    /\ Z.of_nat (List.length cs) = file_count s extra maxsize
    /\ (forall j b, nth_error (contents (main_header version extra s) (rec_total extra s) 0 0 cs) j = Some b ->
          lookup (part_name (strip_000 fnb) ext (Z.of_nat j)) d' = Some b)
    /\ Forall (fun b => Z.of_nat (List.length b) <= limit s extra maxsize) (contents (main_header version extra s) (rec_total extra s) 0 0 cs)
    /\ (forall nm, (forall j, (j < List.length cs)%nat -> nm <> part_name (strip_000 fnb) ext (Z.of_nat j)) -> lookup nm d' = lookup nm d).
Proof.
  intros fnb ext s maxsize version extra d G. assert (G' := G). destruct G' as [Hnav [Hn1 [He [Hy [Hx [Hit [HL [Hb HF]]]]]]]].
  assert (P := prod_ge1 _ Hn1). unfold tvips_write. cbv zeta.
  assert (N : match t_nav s with [] => 0 | nav => prodZ nav end = prodZ (t_nav s)) by (destruct (t_nav s); [congruence|reflexivity]).
  rewrite N. clear N.
  replace (prodZ (t_nav s) =? 0) with false by lia.
  assert (RS : 0 < record_size extra s).
  { unfold record_size. assert (0 <= t_dimy s * t_dimx s * t_item s) by (repeat apply Z.mul_nonneg_nonneg; lia). lia. }
  set (m0 := match maxsize with Some m => m | None => 256 + prodZ (t_nav s) * record_size extra s end).
  assert (M : (if m0 <? 256 + record_size extra s then 256 + record_size extra s else m0) = limit s extra maxsize).
  { unfold limit. fold m0. destruct (m0 <? 256 + record_size extra s) eqn:E; lia. }
  rewrite M.
  rewrite (write_loop_ext (record extra s) (rec_total extra s) _ _ _ _ _ _ _ _ _ _ (prodZ (t_nav s))); [|intros i Hi; unfold rec_total|lia|lia|lia].
  2:{ replace ((0 <=? i) && (i <? prodZ (t_nav s))) with true by lia. reflexivity. }
  destruct (write_loop_spec (strip_000 fnb) ext (limit s extra maxsize) (record_size extra s) (main_header version extra s) (rec_total extra s)) with
    (fuel := S (Z.to_nat (prodZ (t_nav s)))) (todo := prodZ (t_nav s)) (cur := 0) (idx := 0) (d := d) as [d' [cs [H1 [H2 [H3 [HN [H4 [H5 H6]]]]]]]]; try lia.
  - rewrite main_header_length. unfold limit. lia.
  - intros i Hi. unfold rec_total. destruct ((0 <=? i) && (i <? prodZ (t_nav s))) eqn:E; [apply record_length; [exact G|lia]|]. rewrite repeat_length. lia.
  - exists d', cs. split; [exact H1|]. split; [exact H2|]. split; [exact H3|]. split.
    + intro K. subst cs. cbn [sumZ] in H3. lia.
    + split; [|auto]. rewrite HN. unfold nparts, file_count, in_first, per_file. cbn [Z.eqb]. replace (prodZ (t_nav s) =? 0) with false by lia.
      rewrite main_header_length. reflexivity.
Qed.
