(** Properties C59 and C60: images and hdr files of Quantum Detectors. *)
From Verif Require Import Base Text Bytes Utf8 RowMajor HierModel HierProof Dict SfsModel SfsProps BcfUnpack PySlice DmPacked DmImage DmProps MibModel MibProps.

Lemma nth_concat : forall A (l : list (list A)) n i j x, Forall (fun r => List.length r = n) l -> nth_error l i = Some x -> (j < n)%nat ->
  nth_error (List.concat l) (i * n + j) = nth_error x j.
Proof.
  intros A l n i j x H Hi Hj. rewrite <- (map_id l) at 1. rewrite <- flat_map_concat_map.
  apply nth_error_flat_map with (x := x); [|exact Hi|exact Hj]. rewrite Forall_forall in H. exact H.
Qed.
Lemma nth_error_slice : forall A (l : list A) a n j, (j < n)%nat -> nth_error (slice a n l) j = nth_error l (a + j).
Proof. intros A l a n j H. unfold slice. rewrite nth_error_firstn_lt by exact H. revert l. induction a as [|a IH]; intros l; [reflexivity|]. destruct l; [destruct j; reflexivity|]. cbn [skipn Nat.add nth_error]. apply IH. Qed.
Lemma nth_error_rev : forall A (l : list A) i, (i < List.length l)%nat -> nth_error (rev l) i = nth_error l (List.length l - 1 - i).
Proof.
  intros A l i H. destruct l as [|d l']; [cbn in H; lia|]. set (l := d :: l') in *.
  rewrite (nth_error_nth' (rev l) d) by (rewrite rev_length; exact H). rewrite (nth_error_nth' l d) by lia.
  f_equal. rewrite rev_nth by exact H. f_equal. lia.
Qed.

(** * C59: the image *)
(** The number stored for a pixel of a frame of the file *)
Definition stored (p : props) (f : list Z) (k r c : Z) : Z :=
  be_val (slice (Z.to_nat (k * frame_size p + p_head p + (r * p_cols p + c) * p_item p)) (Z.to_nat (p_item p)) f).

Lemma flip_at : forall pre a b d q r c, 0 < a -> 0 < b -> zlen d = q * (a * b) -> 0 <= r < a -> 0 <= c < b ->
  exists d', flip_rows (pre ++ [a; b]) d = Ok d' /\ zlen d' = zlen d /\
    forall k, 0 <= k < q -> nth_error d' (Z.to_nat (k * (a * b) + r * b + c)) = nth_error d (Z.to_nat (k * (a * b) + (a - 1 - r) * b + c)).
Proof.
  intros pre a b d q r c Ha Hb Hd Hr Hc. unfold flip_rows. rewrite rev_app_distr. cbn [rev app].
  assert (P : 0 < a * b) by (apply Z.mul_pos_pos; assumption).
  destruct (a * b =? 0) eqn:E; [lia|]. rewrite Hd, Z.div_mul by lia.
  set (g := fun ch => List.concat (rev (records (Z.to_nat a) (Z.to_nat b) ch))).
  assert (Hq : 0 <= q). { pose proof (zlen_nonneg _ d) as Zn. rewrite Hd in Zn. clear - Zn P. nia. }
  assert (Lab : Z.to_nat (a * b) = (Z.to_nat a * Z.to_nat b)%nat) by (rewrite Z2Nat.inj_mul by lia; reflexivity).
  assert (Ld : List.length d = (Z.to_nat q * Z.to_nat (a * b))%nat) by (unfold zlen in Hd; rewrite <- Z2Nat.inj_mul by lia; lia).
  assert (Each : Forall (fun r => List.length r = Z.to_nat (a * b)) (records (Z.to_nat q) (Z.to_nat (a * b)) d)) by (apply records_each; lia).
  assert (Glen : forall ch, List.length ch = Z.to_nat (a * b) -> List.length (g ch) = Z.to_nat (a * b)).
  { intros ch Hch. unfold g. rewrite (concat_length_const _ (Z.to_nat b)).
    - rewrite rev_length, records_length. lia.
    - apply Forall_rev. apply records_each. lia. }
  assert (Gall : Forall (fun r => List.length r = Z.to_nat (a * b)) (map g (records (Z.to_nat q) (Z.to_nat (a * b)) d))).
  { apply Forall_forall. intros x Hx. apply in_map_iff in Hx. destruct Hx as [ch [<- Hch]]. apply Glen. rewrite Forall_forall in Each. apply Each. exact Hch. }
  eexists. split; [reflexivity|]. split.
  - unfold zlen. rewrite (concat_length_const _ (Z.to_nat (a * b))) by exact Gall. rewrite map_length, records_length. rewrite <- Ld. unfold zlen in Hd. lia.
  - intros k Hk.
    assert (B1 : 0 <= r * b + c < a * b) by (clear - Hr Hc Ha Hb; nia).
    assert (B2 : 0 <= (a - 1 - r) * b + c < a * b) by (clear - Hr Hc Ha Hb; nia).
    replace (Z.to_nat (k * (a * b) + r * b + c)) with (Z.to_nat k * Z.to_nat (a * b) + Z.to_nat (r * b + c))%nat
      by (rewrite <- Z2Nat.inj_mul, <- Z2Nat.inj_add by (clear - Hk B1 P; nia); f_equal; lia).
    replace (Z.to_nat (k * (a * b) + (a - 1 - r) * b + c)) with (Z.to_nat k * Z.to_nat (a * b) + Z.to_nat ((a - 1 - r) * b + c))%nat
      by (rewrite <- Z2Nat.inj_mul, <- Z2Nat.inj_add by (clear - Hk B2 P; nia); f_equal; lia).
    set (ch := slice (Z.to_nat k * Z.to_nat (a * b)) (Z.to_nat (a * b)) d).
    assert (Nch : nth_error (records (Z.to_nat q) (Z.to_nat (a * b)) d) (Z.to_nat k) = Some ch) by (apply nth_records; lia).
    assert (Lch : List.length ch = Z.to_nat (a * b)) by (rewrite Forall_forall in Each; apply Each; eapply nth_error_In; exact Nch).
    rewrite (nth_concat _ _ (Z.to_nat (a * b)) _ _ (g ch)); [|exact Gall|rewrite nth_error_map, Nch; reflexivity|lia].
    transitivity (nth_error ch (Z.to_nat ((a - 1 - r) * b + c))); [|unfold ch; apply nth_error_slice; lia].
    unfold g.
    replace (Z.to_nat (r * b + c)) with (Z.to_nat r * Z.to_nat b + Z.to_nat c)%nat by (rewrite <- Z2Nat.inj_mul, <- Z2Nat.inj_add by (clear - Hr Hc Hb; nia); reflexivity).
    rewrite (nth_concat _ _ (Z.to_nat b) _ _ (slice (Z.to_nat (a - 1 - r) * Z.to_nat b) (Z.to_nat b) ch)).
    + rewrite nth_error_slice by lia. f_equal. rewrite <- Z2Nat.inj_mul, <- Z2Nat.inj_add by (clear - Hr Hc Hb; nia). reflexivity.
    + apply Forall_rev. apply records_each. lia.
    + rewrite nth_error_rev by (rewrite records_length; lia). rewrite records_length.
      replace (Z.to_nat a - 1 - Z.to_nat r)%nat with (Z.to_nat (a - 1 - r)) by lia. apply nth_records. lia.
    + lia.
Qed.

Lemma squeeze_app : forall a b, squeeze (a ++ b) = squeeze a ++ squeeze b.
Proof. intros. apply filter_app. Qed.
Lemma pixels_length : forall p fr, List.length (frame_pixels p fr) = Z.to_nat (p_rows p * p_cols p).
Proof. intros. unfold frame_pixels. rewrite map_length, records_length. reflexivity. Qed.
Lemma slice_skipn_ : forall A a b n (l : list A), slice a n (skipn b l) = slice (b + a) n l.
Proof. intros. unfold slice. rewrite skipn_skipn. repeat (f_equal; try lia). Qed.
Lemma pixel_of_frame : forall p f k r c, props_ok p -> 0 <= k -> 0 <= r < p_rows p -> 0 <= c < p_cols p ->
  nth_error (frame_pixels p (frame_no (frame_size p) f k)) (Z.to_nat (r * p_cols p + c)) = Some (stored p f k r c).
Proof.
  intros p f k r c Hp Hk Hr Hc. pose proof (frame_size_pos p Hp) as Hs. destruct Hp as [H1 [H2 [H3 H4]]].
  assert (B : 0 <= r * p_cols p + c < p_rows p * p_cols p) by (clear - Hr Hc; nia).
  assert (M : (r * p_cols p + c) * p_item p + p_item p <= p_rows p * p_cols p * p_item p) by (clear - B H4; nia).
  assert (N : 0 <= (r * p_cols p + c) * p_item p) by (clear - B H4; nia).
  unfold frame_pixels. rewrite nth_error_map, nth_records by lia. cbn [option_map]. f_equal. unfold stored. f_equal.
  rewrite skipz_skipn, slice_skipn_. unfold frame_no. unfold frame_size in *. rewrite slice_slice.
  - f_equal. rewrite <- Z2Nat.inj_mul, <- !Z2Nat.inj_add by (clear - Hk Hs H1 H4 N B; nia). f_equal. lia.
  - rewrite <- Z2Nat.inj_mul, <- !Z2Nat.inj_add by (clear - Hk Hs H1 H4 N B; nia). lia.
Qed.

Theorem C59_pixels : forall p f first last nav, let n := zlen f / frame_size p in
  props_ok p -> 2 <= p_rows p -> 2 <= p_cols p -> nav_ok nav -> lo n first <= hi n last ->
  exists sh img, shape_is n (lo n first) (hi n last) nav sh
    /\ read_image p f first last nav = Ok img
    /\ i_shape img = filter (fun k => negb (k =? 1)) sh ++ [p_rows p; p_cols p]
    /\ zlen (i_data img) = prodZ sh * (p_rows p * p_cols p)
    /\ forall idx r c, in_shape sh idx -> 0 <= r < p_rows p -> 0 <= c < p_cols p ->
         nth_error (i_data img) (Z.to_nat (row_major (sh ++ [p_rows p; p_cols p]) (idx ++ [r; c])))
         = Some (stored p f (lo n first + row_major sh idx) (p_rows p - 1 - r) c).
Proof.
  intros p f first last nav n Hp Hr2 Hc2 Hn Hlh.
  destruct (C37_frames p f first last nav Hp Hn Hlh) as [sh [fr [Q1 [Q2 [Q3 [Q4 Q5]]]]]]. fold n in Q2, Q4, Q5.
  assert (Hn0 : 0 <= n) by (apply Z.div_pos; [apply zlen_nonneg|apply frame_size_pos; exact Hp]).
  pose proof (lo_range n first Hn0) as Hl.
  unfold read_image. rewrite Q1. cbn [bind].
  set (D := List.concat (map (frame_pixels p) fr)).
  assert (Hall : Forall (fun r => List.length r = Z.to_nat (p_rows p * p_cols p)) (map (frame_pixels p) fr)).
  { apply Forall_forall. intros x Hx. apply in_map_iff in Hx. destruct Hx as [y [<- _]]. apply pixels_length. }
  assert (P : 0 < p_rows p * p_cols p) by (apply Z.mul_pos_pos; lia).
  assert (Hq : 0 <= prodZ sh) by (rewrite <- Q3; apply zlen_nonneg).
  assert (LD : zlen D = prodZ sh * (p_rows p * p_cols p)).
  { unfold D, zlen. rewrite (concat_length_const _ (Z.to_nat (p_rows p * p_cols p))) by exact Hall. rewrite map_length. unfold zlen in Q3. lia. }
  assert (SQ : squeeze (sh ++ [p_rows p; p_cols p]) = squeeze sh ++ [p_rows p; p_cols p]).
  { rewrite squeeze_app. f_equal. unfold squeeze. cbn [filter]. destruct (p_rows p =? 1) eqn:E; [lia|]. destruct (p_cols p =? 1) eqn:E1; [lia|]. reflexivity. }
  rewrite SQ.
  destruct (flip_at (squeeze sh) (p_rows p) (p_cols p) D (prodZ sh) 0 0 ltac:(lia) ltac:(lia) LD ltac:(lia) ltac:(lia)) as [d' [F1 [F2 _]]].
  rewrite F1. cbn [bind].
  eexists. eexists. split; [exact Q2|]. split; [reflexivity|]. cbn [i_shape i_data]. split; [reflexivity|]. split; [lia|].
  intros idx r c Hi Hr Hc.
  destruct (flip_at (squeeze sh) (p_rows p) (p_cols p) D (prodZ sh) r c ltac:(lia) ltac:(lia) LD Hr Hc) as [d'' [F1' [_ F3]]].
  rewrite F1 in F1'. injection F1' as <-.
  pose proof (row_major_range _ _ Hi) as R. pose proof (in_shape_length _ _ Hi) as Il.
  rewrite row_major_app by lia.
  replace (row_major sh idx * prodZ [p_rows p; p_cols p] + row_major [p_rows p; p_cols p] [r; c]) with (row_major sh idx * (p_rows p * p_cols p) + r * p_cols p + c)
    by (unfold prodZ; cbn [row_major fold_right]; unfold prodZ; cbn [fold_right]; ring).
  rewrite F3 by exact R. unfold D.
  assert (B2 : 0 <= (p_rows p - 1 - r) * p_cols p + c < p_rows p * p_cols p) by (clear - Hr Hc; nia).
  replace (Z.to_nat (row_major sh idx * (p_rows p * p_cols p) + (p_rows p - 1 - r) * p_cols p + c))
    with (Z.to_nat (row_major sh idx) * Z.to_nat (p_rows p * p_cols p) + Z.to_nat ((p_rows p - 1 - r) * p_cols p + c))%nat
    by (rewrite <- Z2Nat.inj_mul, <- Z2Nat.inj_add by (clear - R B2 P; nia); f_equal; lia).
  rewrite (nth_concat _ _ (Z.to_nat (p_rows p * p_cols p)) _ _ (frame_pixels p (frame_no (frame_size p) f (lo n first + row_major sh idx)))).
  - apply pixel_of_frame; [exact Hp|lia|lia|lia].
  - exact Hall.
  - rewrite nth_error_map, Q5 by exact R. reflexivity.
  - lia.
Qed.
(** Axes: one for each axis of the data that is left, the last two of them the detector. *)
Theorem C59_axes : forall p f first last nav img, read_image p f first last nav = Ok img -> 2 <= p_rows p -> 2 <= p_cols p ->
  map fst (i_axes img) = i_shape img /\ exists k, map snd (i_axes img) = repeat true k ++ [false; false].
Proof.
  intros p f first last nav img H Hr Hc. unfold read_image in H. destruct (load false p f first last nav) as [[sh fr]|]; [|discriminate]. cbn [bind] in H.
  destruct (flip_rows _ _) as [d|]; [|discriminate]. cbn [bind] in H. injection H as <-. cbn [i_axes i_shape].
  rewrite squeeze_app. assert (E : squeeze [p_rows p; p_cols p] = [p_rows p; p_cols p]).
  { unfold squeeze. cbn [filter]. destruct (p_rows p =? 1) eqn:E; [lia|]. destruct (p_cols p =? 1) eqn:E1; [lia|]. reflexivity. }
  rewrite E. set (s := squeeze sh). unfold image_axes.
  assert (L : List.length (s ++ [p_rows p; p_cols p]) = List.length (repeat true (List.length (s ++ [p_rows p; p_cols p]) - 2) ++ [false; false])).
  { rewrite !app_length, repeat_length. cbn [List.length]. lia. }
  split; [|exists (List.length (s ++ [p_rows p; p_cols p]) - 2)%nat].
  - revert L. generalize (repeat true (List.length (s ++ [p_rows p; p_cols p]) - 2) ++ [false; false]). generalize (s ++ [p_rows p; p_cols p]). clear.
    induction l as [|x l IH]; intros [|y m] L; try discriminate; [reflexivity|]. cbn [combine map fst]. f_equal. apply IH. cbn in L. lia.
  - revert L. generalize (repeat true (List.length (s ++ [p_rows p; p_cols p]) - 2) ++ [false; false]). generalize (s ++ [p_rows p; p_cols p]). clear.
    induction l as [|x l IH]; intros [|y m] L; try discriminate; [reflexivity|]. cbn [combine map snd]. f_equal. apply IH. cbn in L. lia.
Qed.
Definition pi := {| p_rows := 2; p_cols := 3; p_raw := false; p_head := 1; p_item := 2; p_exposure := []; p_time := [] |}.
Definition fi := [77; 0; 1; 0; 2; 0; 3; 0; 4; 0; 5; 0; 6;  78; 1; 1; 1; 2; 1; 3; 1; 4; 1; 5; 1; 6].
Example ex_C59 : props_ok pi /\ read_image pi fi None None None =
  Ok {| i_shape := [2; 2; 3]; i_data := [4; 5; 6; 1; 2; 3; 260; 261; 262; 257; 258; 259]; i_axes := [(2, true); (2, false); (3, false)] |}
  /\ read_image pi fi (Some 1) None None = Ok {| i_shape := [2; 3]; i_data := [260; 261; 262; 257; 258; 259]; i_axes := [(2, false); (3, false)] |}.
Proof. split; [unfold props_ok; cbn; lia|]. split; vm_compute; reflexivity. Qed.

(** With one detector row, the frames come out in reverse order. *)
Theorem C59_row_refuted : exists p f, props_ok p /\ p_rows p = 1 /\ zlen f / frame_size p = 3
  /\ exists img, read_image p f None None None = Ok img /\ i_shape img = [3; 2] /\ i_axes img = [(3, false); (2, false)]
  /\ i_data img = [stored p f 2 0 0; stored p f 2 0 1; stored p f 1 0 0; stored p f 1 0 1; stored p f 0 0 0; stored p f 0 0 1].
Proof.
  exists px, [10; 1; 2; 11; 3; 4; 12; 5; 6]. split; [unfold props_ok; cbn; lia|]. split; [reflexivity|]. split; [vm_compute; reflexivity|].
  eexists. split; [vm_compute; reflexivity|]. repeat split; vm_compute; reflexivity.
Qed.

(** * C60: hdr files *)
Definition hdr_line (kv : pystr * pystr) : pystr := fst kv ++ [58; 9] ++ snd kv ++ [10].
Definition hdr_ok (kv : pystr * pystr) : Prop :=
  ~ In 9 (fst kv) /\ last (fst kv) 0 <> 58 /\ last (snd kv) 0 <> 10 /\ startswith (str "HDR") (hdr_line kv) = false.

Lemma rstrip_char_app : forall c s, last s (c + 1) <> c -> forall k, rstrip_char c (s ++ repeat c k) = s.
Proof.
  intros c s H k. unfold rstrip_char. rewrite rev_app_distr.
  assert (R : rev (repeat c k) = repeat c k). { clear. induction k; [reflexivity|]. cbn [repeat rev]. rewrite IHk. clear. induction k; cbn; congruence. }
  rewrite R. clear R. assert (S0 : lstrip_char c (repeat c k ++ rev s) = lstrip_char c (rev s)).
  { induction k; [reflexivity|]. cbn [repeat app lstrip_char]. rewrite Z.eqb_refl. exact IHk. }
  rewrite S0. destruct s as [|x s]; [reflexivity|]. destruct (rev_last_cons _ (x :: s) (c + 1)) as [r Hr]; [discriminate|].
  rewrite Hr. cbn [lstrip_char]. destruct (_ =? c) eqn:E; [lia|]. rewrite <- Hr. apply rev_involutive.
Qed.
Lemma last_default : forall (s : list Z) c, c <> 0 -> last s 0 <> c -> last s (c + 1) <> c.
Proof. intros s c H0 H. destruct s as [|x s]; [cbn; lia|]. destruct (exists_last (l := x :: s)) as [s' [y E]]; [discriminate|]. rewrite E in *. rewrite last_last in *. exact H. Qed.
Lemma cut_tab_at : forall a b, ~ In 9 a -> cut_tab (a ++ 9 :: b) = Some (a, b).
Proof. induction a as [|x a IH]; intros b H; [reflexivity|]. cbn [app cut_tab]. destruct (x =? 9) eqn:E; [exfalso; apply H; left; lia|]. rewrite IH; [reflexivity|]. intro K. apply H. right. exact K. Qed.

Lemma not_end : forall kv, hdr_ok kv -> startswith (str "End" ++ [9]) (hdr_line kv) = false.
Proof.
  intros [k v] [H _]. unfold hdr_line. cbn [fst snd] in *. change (str "End" ++ [9]) with [69; 110; 100; 9].
  destruct k as [|a [|b [|c [|d k]]]]; cbn [app startswith]; try reflexivity;
    repeat match goal with |- (?x && _) = false => destruct x eqn:?; cbn [andb]; try reflexivity end; try lia.
  exfalso. apply H. cbn. lia.
Qed.
Theorem C60_hdr : forall kvs d, Forall hdr_ok kvs -> NoDup (map fst kvs) -> (forall kv, In kv kvs -> lookup (fst kv) d = None) ->
  parse_hdr (map hdr_line kvs) d = Ok (d ++ kvs).
Proof.
  induction kvs as [|kv kvs IH]; intros d H Hn Hd; [cbn; rewrite app_nil_r; reflexivity|].
  inversion H; subst. inversion Hn; subst. cbn [map parse_hdr].
  pose proof H2 as [A [B [C D]]]. rewrite D, (not_end kv H2). cbn [orb].
  unfold hdr_line at 1. change ([58; 9] ++ snd kv ++ [10]) with (58 :: 9 :: (snd kv ++ [10])).
  replace (fst kv ++ 58 :: 9 :: snd kv ++ [10]) with ((fst kv ++ [58]) ++ 9 :: (snd kv ++ [10])) by (rewrite <- app_assoc; reflexivity).
  rewrite cut_tab_at.
  2:{ intro K. apply in_app_or in K. destruct K as [K|[K|[]]]; [exact (A K)|discriminate]. }
  change [58] with (repeat 58 1). change [10] with (repeat 10 1).
  rewrite (rstrip_char_app 58 (fst kv) (last_default _ 58 ltac:(lia) B) 1).
  rewrite (rstrip_char_app 10 (snd kv) (last_default _ 10 ltac:(lia) C) 1).
  rewrite put_fresh by (apply lookup_none_in; apply Hd; left; reflexivity).
  rewrite IH; [rewrite <- app_assoc; destruct kv; reflexivity|assumption|assumption|].
  intros kv' Hin. assert (N : fst kv' <> fst kv) by (intro E; apply H4; rewrite <- E; apply in_map; exact Hin).
  rewrite lookup_app, (Hd kv' (or_intror Hin)). cbn [lookup]. destruct (eqb_str (fst kv') (fst kv)) eqn:E; [apply eqb_str_spec in E; contradiction|reflexivity].
Qed.
Example ex_C60 : let kvs := [(str "Frames per Trigger (Number)", str "8"); (str "Time: and Date", [])] in
  Forall hdr_ok kvs /\ NoDup (map fst kvs)
  /\ parse_hdr ((str "HDR," ++ [9; 10]) :: map hdr_line kvs ++ [str "End" ++ [9; 10]]) [] = Ok kvs.
Proof.
  cbn zeta. split; [|split; [apply nodup_pystr; vm_compute; reflexivity|vm_compute; reflexivity]].
  repeat constructor; try (vm_compute; discriminate); try (vm_compute; reflexivity); cbn; intro K; repeat destruct K as [K|K]; try discriminate; try contradiction.
Qed.
(** First and last lines are left out. *)
Theorem C60_skipped : forall l lines d, startswith (str "HDR") l = true \/ startswith (str "End" ++ [9]) l = true ->
  parse_hdr (l :: lines) d = parse_hdr lines d.
Proof. intros l lines d [H|H]; cbn [parse_hdr]; rewrite H; [reflexivity|rewrite Bool.orb_true_r; reflexivity]. Qed.
(** A line without a tab stops the reader. *)
Theorem C60_no_tab_refuted : forall l lines d, ~ In 9 l -> startswith (str "HDR") l = false -> parse_hdr (l :: lines) d = Err ValueError.
Proof.
  intros l lines d H H1. cbn [parse_hdr]. rewrite H1.
  assert (C : cut_tab l = None). { clear H1. induction l as [|x l IH]; [reflexivity|]. cbn [cut_tab]. destruct (x =? 9) eqn:E; [exfalso; apply H; left; lia|]. rewrite IH; [reflexivity|]. intro K. apply H. right. exact K. }
  assert (S0 : startswith (str "End" ++ [9]) l = false).
  { change (str "End" ++ [9]) with [69; 110; 100; 9]. clear C H1. destruct l as [|a [|b [|c [|d' l]]]]; cbn [startswith]; try reflexivity;
    repeat match goal with |- (?x && _) = false => destruct x eqn:?; cbn [andb]; try reflexivity end; try lia.
    exfalso. apply H. cbn. lia. }
  rewrite S0. cbn [orb]. rewrite C. reflexivity.
Qed.
Example ex_C60_no_tab : parse_hdr [[10]] [] = Err ValueError.
Proof. reflexivity. Qed.

Print Assumptions C37_frames.
Print Assumptions C37_frame.
Print Assumptions C37_last_refuted.
Print Assumptions C37_reversed_refuted.
Print Assumptions C38_buffer.
Print Assumptions C38_first_refuted.
Print Assumptions C38_quad_refuted.
Print Assumptions C39_first.
Print Assumptions C39_all_refuted.
Print Assumptions C57_header.
Print Assumptions C58_scan.
Print Assumptions C58_complete.
Print Assumptions C58_zero_refuted.
Print Assumptions C58_dropped_refuted.
Print Assumptions C59_pixels.
Print Assumptions C59_axes.
Print Assumptions C59_row_refuted.
Print Assumptions C60_hdr.
Print Assumptions C60_skipped.
Print Assumptions C60_no_tab_refuted.
