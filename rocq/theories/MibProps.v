(** Properties C37, C38, C39, C57, C58 and C59: MIB files of Quantum Detectors. *)
From Verif Require Import Base Text Bytes Utf8 RowMajor HierModel HierProof SfsModel SfsProps BcfUnpack PySlice DmPacked DmImage DmProps MibModel.

(** * Specification *)
(** A frame of the file: all its bytes, header and numbers. *)
Definition frame_no (size : Z) (f : list Z) (k : Z) : list Z := slice (Z.to_nat (k * size)) (Z.to_nat size) f.
(** Limits of l[first:last] for a list of n elements *)
Definition from_end (n i : Z) : Z := if i <? 0 then Z.max 0 (n + i) else Z.min i n.
Definition lo (n : Z) (first : option Z) : Z := match first with None => 0 | Some i => from_end n i end.
Definition hi (n : Z) (last : option Z) : Z := match last with None => n | Some i => from_end n i end.
Definition nav_ok (nav : option (list Z)) : Prop := match nav with None => True | Some ns => ns <> [] /\ Forall (fun n => 0 < n) ns end.
Definition props_ok (p : props) : Prop := 0 < p_head p /\ 0 <= p_rows p /\ 0 <= p_cols p /\ 0 < p_item p.
(** The shape that is loaded *)
Definition shape_is (n a b : Z) (nav : option (list Z)) (sh : list Z) : Prop :=
  match nav with
  | None => sh = [b - a]
  | Some ns =>
      (prodZ ns <= b - a -> sh = rev ns)
      /\ (b - a < prodZ ns <= n \/ n < prodZ ns /\ (0 < a \/ List.length ns = 1%nat) -> sh = [b - a])
      /\ (n < prodZ ns -> a = 0 -> (2 <= List.length ns)%nat ->
          exists lines, sh = [lines; nth 0 ns 0] /\ lines * nth 0 ns 0 <= n < (lines + 1) * nth 0 ns 0)
  end.

(** * C37: the frames that are loaded *)
Lemma frame_size_pos : forall p, props_ok p -> 0 < frame_size p.
Proof. intros p [H1 [H2 [H3 H4]]]. unfold frame_size. pose proof (Z.mul_nonneg_nonneg _ _ (Z.mul_nonneg_nonneg _ _ H2 H3) (Z.lt_le_incl _ _ H4)). lia. Qed.

Lemma bounds_spec : forall n first last, bounds n first last = (lo n first, hi n last).
Proof. intros n [x|] [y|]; unfold bounds, lo, hi, from_end, clip; f_equal; repeat match goal with |- context[?a <? 0] => destruct (a <? 0) end; lia. Qed.

Lemma lo_range : forall n first, 0 <= n -> 0 <= lo n first <= n.
Proof. intros n [x|] H; unfold lo, from_end; [|lia]. destruct (x <? 0) eqn:E; lia. Qed.
Lemma hi_range : forall n last, 0 <= n -> 0 <= hi n last <= n.
Proof. intros n [x|] H; unfold hi, from_end; [|lia]. destruct (x <? 0) eqn:E; lia. Qed.

Lemma prodZ_pos : forall l, Forall (fun n => 0 < n) l -> 0 < prodZ l.
Proof. induction 1; cbn; [lia|]. unfold prodZ in IHForall. nia. Qed.

Lemma no_negative : forall l, Forall (fun n => 0 <= n) l -> existsb (fun n => n <? 0) l = false.
Proof. induction 1; cbn; [reflexivity|]. rewrite IHForall. destruct (x <? 0) eqn:E; [lia|reflexivity]. Qed.

Lemma nav_shape_ok : forall n a b nav, nav_ok nav -> 0 <= a <= b -> b <= n ->
  let sh := nav_shape n a b nav in
  shape_is n a b nav sh /\ Forall (fun n => 0 <= n) sh /\ a + prodZ sh <= n.
Proof.
  intros n a b [ns|] H Hab Hb sh; subst sh; unfold nav_shape.
  - destruct H as [Hne H]. pose proof (prodZ_pos _ H) as Hp. unfold shape_is.
    assert (One : forall x, 0 <= x -> a + x <= n -> Forall (fun n => 0 <= n) [x] /\ a + prodZ [x] <= n).
    { intros x Hx Hx'. split; [repeat constructor; exact Hx|]. unfold prodZ; cbn [fold_right]. lia. }
    destruct (n <? prodZ ns) eqn:E.
    + destruct ns as [|n0 [|n1 ns]]; [destruct (Hne eq_refl)| |].
      * split; [|apply One; lia]. split; [intros; lia|]. split; [reflexivity|]. cbn [List.length]. intros; lia.
      * destruct (a =? 0) eqn:E0.
        { assert (a = 0) by lia. subst a. inversion H; subst.
          split.
          - split; [intros; lia|]. split; [cbn [List.length]; intros; lia|]. intros _ _ _. exists (n / n0). split; [reflexivity|]. cbn [nth].
            pose proof (Z.div_mod n n0 ltac:(lia)) as D. pose proof (Z.mod_pos_bound n n0 ltac:(lia)) as B. clear - D B. nia.
          - split; [repeat constructor; [apply Z.div_pos; lia|lia]|]. unfold prodZ; cbn [fold_right].
            pose proof (Z.div_mod n n0 ltac:(lia)) as D. pose proof (Z.mod_pos_bound n n0 ltac:(lia)) as B. clear - D B. nia. }
        { split; [|apply One; lia]. split; [intros; lia|]. split; [reflexivity|]. intros; lia. }
    + destruct (b - a <? prodZ ns) eqn:E1.
      * split; [|apply One; lia]. split; [intros; lia|]. split; [reflexivity|]. intros; lia.
      * split; [split; [reflexivity|]; split; intros; [lia|lia]|].
        rewrite prodZ_rev. split; [|lia]. apply Forall_rev. eapply Forall_impl; [|exact H]. cbn. intros; lia.
  - split; [reflexivity|]. split; [repeat constructor; lia|]. unfold prodZ; cbn [fold_right]. lia.
Qed.

Theorem C37_frames : forall p f first last nav,
  let n := zlen f / frame_size p in
  props_ok p -> nav_ok nav -> lo n first <= hi n last ->
  exists sh fr, load false p f first last nav = Ok (sh, fr)
    /\ shape_is n (lo n first) (hi n last) nav sh
    /\ zlen fr = prodZ sh
    /\ lo n first + prodZ sh <= n
    /\ forall i, 0 <= i < prodZ sh -> nth_error fr (Z.to_nat i) = Some (frame_no (frame_size p) f (lo n first + i)).
Proof.
  intros p f first last nav n Hp Hn Hlh. pose proof (frame_size_pos p Hp) as Hs.
  assert (Hn0 : 0 <= n) by (apply Z.div_pos; [apply zlen_nonneg|lia]).
  pose proof (lo_range n first Hn0) as Hl. pose proof (hi_range n last Hn0) as Hh.
  unfold load, frames_in. fold n. rewrite bounds_spec.
  destruct (nav_shape_ok n (lo n first) (hi n last) nav Hn ltac:(lia) ltac:(lia)) as [Q1 [Q2 Q3]].
  set (sh := nav_shape n (lo n first) (hi n last) nav) in *.
  assert (Q4 := prodZ_nonneg _ Q2).
  unfold memmap. rewrite no_negative by exact Q2.
  assert (Hf : frame_size p * lo n first + prodZ sh * frame_size p <= zlen f).
  { pose proof (Z.mul_div_le (zlen f) (frame_size p) Hs) as M. fold n in M. clear - M Q3 Hs. nia. }
  destruct (zlen f <? _) eqn:E; [lia|]. cbn [bind].
  eexists. eexists. split; [reflexivity|]. split; [exact Q1|]. split; [unfold zlen; rewrite records_length; lia|]. split; [lia|].
  intros i Hi. rewrite nth_records by lia. f_equal. unfold frame_no, slice. rewrite skipz_skipn. rewrite skipn_skipn. f_equal. f_equal.
  clear - Hi Hs Hl. rewrite <- Z2Nat.inj_mul, <- Z2Nat.inj_add by nia. f_equal. lia.
Qed.

(** Frames are cut off a file of complete frames with some bytes at the end. *)
Theorem C37_frame : forall size fs tail k fr, 0 < size -> Forall (fun r => zlen r = size) fs -> zlen tail < size ->
  zlen (List.concat fs ++ tail) / size = zlen fs
  /\ (nth_error fs (Z.to_nat k) = Some fr -> 0 <= k -> frame_no size (List.concat fs ++ tail) k = fr).
Proof.
  intros size fs tail k fr Hs Hf Ht.
  assert (Hf' : Forall (fun r => List.length r = Z.to_nat size) fs) by (eapply Forall_impl; [|exact Hf]; unfold zlen; intros; lia).
  split.
  - rewrite zlen_app. replace (zlen (List.concat fs)) with (zlen fs * size).
    + rewrite Z.div_add_l by lia. rewrite Z.div_small; [lia|]. split; [apply zlen_nonneg|exact Ht].
    + clear Hf'. induction Hf as [|r fs Hr _ IH]; [reflexivity|]. cbn [List.concat]. rewrite zlen_app, zlen_cons, <- IH. lia.
  - intros Hk H0. unfold frame_no. rewrite Z2Nat.inj_mul by lia.
    assert (Hi : (Z.to_nat k < List.length fs)%nat) by (apply nth_error_Some; rewrite Hk; discriminate).
    pose proof (records_concat _ (Z.to_nat size) fs tail Hf') as R.
    pose proof (nth_records _ (List.length fs) (Z.to_nat size) (List.concat fs ++ tail) (Z.to_nat k) Hi) as N.
    rewrite R, Hk in N. congruence.
Qed.

Definition px := {| p_rows := 1; p_cols := 2; p_raw := false; p_head := 1; p_item := 1; p_exposure := []; p_time := [] |}.
Definition fx := [10; 1; 2; 11; 3; 4; 12; 5; 6; 13; 7; 8; 14; 9; 10; 99].
Example ex_C37 : zlen fx / frame_size px = 5 /\ props_ok px
  /\ load false px fx (Some 1) (Some (-1)) None = Ok ([3], [[11; 3; 4]; [12; 5; 6]; [13; 7; 8]])
  /\ load false px fx None None (Some [2; 2]) = Ok ([2; 2], [[10; 1; 2]; [11; 3; 4]; [12; 5; 6]; [13; 7; 8]])
  /\ load false px fx None None (Some [2; 3]) = Ok ([2; 2], [[10; 1; 2]; [11; 3; 4]; [12; 5; 6]; [13; 7; 8]])
  /\ load false px fx (Some 2) None (Some [2; 2]) = Ok ([3], [[12; 5; 6]; [13; 7; 8]; [14; 9; 10]])
  /\ frame_no 3 fx 4 = [14; 9; 10].
Proof. repeat split; try (vm_compute; reflexivity); cbn; lia. Qed.

(** last_frame is not respected when the navigation shape does not fit into the file. *)
Definition never_past_last := forall p f first last nav sh fr, props_ok p -> nav_ok nav -> load false p f first last nav = Ok (sh, fr) ->
  zlen fr <= hi (zlen f / frame_size p) last.
Theorem C37_last_refuted : ~ never_past_last.
Proof.
  intro H. specialize (H px fx None (Some 2) (Some [2; 3]) [2; 2] [[10; 1; 2]; [11; 3; 4]; [12; 5; 6]; [13; 7; 8]]).
  assert (A : props_ok px) by (unfold props_ok; cbn; lia). assert (B : nav_ok (Some [2; 3])) by (split; [discriminate|repeat constructor]).
  specialize (H A B). vm_compute in H. specialize (H eq_refl). apply H. reflexivity.
Qed.

(** An empty selection, as in l[3:1], fails instead of giving no frames. *)
Theorem C37_reversed_refuted : forall p f first last, props_ok p -> hi (zlen f / frame_size p) last < lo (zlen f / frame_size p) first ->
  load false p f first last None = Err ValueError.
Proof.
  intros p f first last Hp H. unfold load, frames_in. rewrite bounds_spec. cbn [nav_shape]. unfold memmap. cbn [existsb].
  destruct (_ - _ <? 0) eqn:E; [reflexivity|lia].
Qed.
Example ex_C37_reversed : hi (zlen fx / frame_size px) (Some 1) < lo (zlen fx / frame_size px) (Some 3).
Proof. vm_compute. reflexivity. Qed.

(** * C38: buffers *)
Theorem C38_buffer : forall p f first last nav, let n := zlen f / frame_size p in
  props_ok p -> nav_ok nav -> lo n first = 0 -> load true p f first last nav = load false p f first last nav.
Proof.
  intros p f first last nav n Hp Hn H0. pose proof (frame_size_pos p Hp) as Hs.
  assert (Hn0 : 0 <= n) by (apply Z.div_pos; [apply zlen_nonneg|lia]).
  pose proof (hi_range n last Hn0) as Hh.
  unfold load, frames_in. fold n. rewrite bounds_spec, H0.
  destruct (nav_shape_ok n 0 (hi n last) nav Hn ltac:(lia) ltac:(lia)) as [Q1 [Q2 Q3]].
  unfold memmap, frombuffer. rewrite no_negative by exact Q2. rewrite Z.mul_0_r. rewrite Z.add_0_l, skipz_skipn. reflexivity.
Qed.
Example ex_C38 : lo 5 None = 0 /\ load true px fx None (Some 2) None = Ok ([2], [[10; 1; 2]; [11; 3; 4]]).
Proof. split; vm_compute; reflexivity. Qed.

(** first_frame is ignored for buffers: the frames are taken from the start. *)
Theorem C38_first_refuted : exists p f first, props_ok p /\ load true p f first None None <> load false p f first None None
  /\ load true p f first None None = Ok ([2], [frame_no (frame_size p) f 0; frame_no (frame_size p) f 1]).
Proof.
  exists px, fx, (Some 3). split; [unfold props_ok; cbn; lia|]. split; [vm_compute; discriminate|vm_compute; reflexivity].
Qed.

(** * Headers *)
(** A header: fields without commas, filling the header. *)
Definition num_text (k : nat) (n : Z) : pystr := repeat 48 k ++ dec n.
Definition header_is (size : Z) (fields : list pystr) (h : list Z) : Prop :=
  h = join_char 44 fields /\ ascii h /\ zlen h = size /\ Forall (fun w => ~ In 44 w) fields.
Definition type_text (item : Z) : pystr := if item =? 1 then str "U08" else if item =? 2 then str "U16" else str "U32".

Lemma is_digit_dec : forall n, 0 <= n -> Forall (fun c => is_digit c = true) (dec n).
Proof. exact dec_digits. Qed.

Lemma num_text_int : forall k n, 0 <= n -> parse_int (num_text k n) = Ok n.
Proof.
  intros k n Hn.
  assert (D : Forall (fun c => is_digit c = true) (num_text k n)).
  { unfold num_text. apply Forall_app. split; [|apply dec_digits; exact Hn]. clear. induction k; cbn; constructor; auto. }
  assert (NE : num_text k n <> []). { unfold num_text. pose proof (dec_ne n Hn). destruct (repeat 48 k); [exact H|discriminate]. }
  assert (U : undec (num_text k n) = Some n).
  { unfold num_text. pose proof (undec_dec n Hn) as U. pose proof (dec_ne n Hn) as Nn. clear - U Nn. unfold undec in *.
    destruct (repeat 48 k ++ dec n) eqn:E; [destruct (repeat 48 k); [contradiction (Nn E)|discriminate]|].
    rewrite <- E. rewrite undec_aux_app.
    assert (Z0 : undec_aux 0 (repeat 48 k) = Some 0) by (clear; induction k; cbn; auto). rewrite Z0.
    destruct (dec n); [contradiction (Nn eq_refl)|exact U]. }
  clear - D NE U. pose proof (digits_trimmed _ D) as T.
  pose proof (parse_int_undec _ T NE) as P.
  rewrite P; [rewrite U; reflexivity|].
  intros c Hc. rewrite Forall_forall in D. apply D. eapply nth_error_In. exact Hc.
Qed.

Lemma join_app : forall c pre post, pre <> [] -> post <> [] -> join_char c (pre ++ post) = join_char c pre ++ c :: join_char c post.
Proof.
  induction pre as [|w pre IH]; intros post H1 H2; [congruence|]. destruct pre as [|w' pre].
  - cbn [app join_char]. destruct post; [congruence|reflexivity].
  - change ((w :: w' :: pre) ++ post) with (w :: w' :: (pre ++ post)).
    change (join_char c (w :: w' :: pre ++ post)) with (w ++ c :: join_char c ((w' :: pre) ++ post)). rewrite IH by (congruence || discriminate).
    change (join_char c (w :: w' :: pre)) with (w ++ c :: join_char c (w' :: pre)). rewrite <- app_assoc. reflexivity.
Qed.
Lemma split_join_app : forall c pre y, pre <> [] -> Forall (fun w => ~ In c w) pre -> split_char c (join_char c pre ++ c :: y) = pre ++ split_char c y.
Proof.
  induction pre as [|w pre IH]; intros y H1 H; [congruence|]. inversion H; subst. destruct pre as [|w' pre].
  - cbn [join_char app]. apply split_char_app. assumption.
  - change (join_char c (w :: w' :: pre)) with (w ++ c :: join_char c (w' :: pre)). rewrite <- app_assoc.
    change ((c :: join_char c (w' :: pre)) ++ c :: y) with (c :: (join_char c (w' :: pre) ++ c :: y)).
    rewrite split_char_app by assumption. rewrite IH by (assumption || discriminate). reflexivity.
Qed.
Lemma firstz_cut : forall A (a b : list A) n, zlen a <= n -> firstz n (a ++ b) = a ++ firstz (n - zlen a) b.
Proof.
  intros A a b n H. rewrite !firstz_firstn. rewrite firstn_app. rewrite firstn_all2 by (unfold zlen in H; lia).
  f_equal. f_equal. unfold zlen. lia.
Qed.
Lemma ascii_firstz : forall n s, ascii s -> ascii (firstz n s).
Proof.
  intros n s H. rewrite firstz_firstn. unfold ascii in *. rewrite Forall_forall in *. intros x Hx. apply H.
  rewrite <- (firstn_skipn (Z.to_nat n) s). apply in_or_app. left. exact Hx.
Qed.
Lemma head_at_nth : forall l i s, 0 <= i -> nth_error l (Z.to_nat i) = Some s -> head_at l i = Ok s.
Proof.
  intros l i s Hi H. unfold head_at. destruct (i <? 0) eqn:E; [lia|]. rewrite E. rewrite H. reflexivity.
Qed.
Lemma head_at_end : forall l k, 0 < k <= zlen l -> head_at l (- k) = Ok (nth (List.length l - Z.to_nat k) l []).
Proof.
  intros l k Hk. unfold head_at. destruct (- k <? 0) eqn:E; [|lia]. destruct (zlen l + - k <? 0) eqn:E1; [lia|].
  replace (Z.to_nat (zlen l + - k)) with (List.length l - Z.to_nat k)%nat by (unfold zlen in *; lia).
  rewrite (nth_error_nth' l []) by (unfold zlen in *; lia). reflexivity.
Qed.

(** * C57: the first header gives the geometry of the frames *)
Theorem C57_header : forall buffer size pre post h rest rows cols item k1 k2 x0 x1 x3 x7,
  size = 384 \/ (size = 768 /\ buffer = false) -> item = 1 \/ item = 2 \/ item = 4 -> 0 <= rows -> 0 <= cols ->
  pre = [x0; x1; if size =? 384 then str "00384" else str "00768"; x3; num_text k1 cols; num_text k2 rows; type_text item; x7] ->
  post <> [] -> zlen (join_char 44 pre) < 384 -> header_is size (pre ++ post) h ->
  parse_file buffer (h ++ rest) = Ok {| p_rows := rows; p_cols := cols; p_raw := false; p_head := size; p_item := item;
    p_exposure := nth (List.length (pre ++ post) - 3) (pre ++ post) []; p_time := nth (List.length (pre ++ post) - 4) (pre ++ post) [] |}.
Proof.
  intros buffer size pre post h rest rows cols item k1 k2 x0 x1 x3 x7 Hs Hi Hr Hc Hpre Hpost Hlen [Hh [Ha [Hz Hf]]].
  assert (Hpn : pre <> []) by (rewrite Hpre; discriminate).
  assert (HF : forall n, zlen h <= n \/ 384 <= n <= zlen h -> exists q, header_fields n (h ++ rest) = Ok (pre ++ q) \/ zlen h < n).
  { intros n Hn. destruct (Z_lt_dec (zlen h) n) as [L|L]; [exists []; right; exact L|].
    assert (E : firstz n (h ++ rest) = firstz n h). { rewrite !firstz_firstn. rewrite firstn_app. replace (Z.to_nat n - List.length h)%nat with 0%nat by (unfold zlen in *; lia). cbn. apply app_nil_r. }
    unfold header_fields. rewrite E. rewrite utf8_ascii_decode by (apply ascii_firstz; exact Ha). cbn [bind].
    rewrite Hh, join_app by assumption. rewrite firstz_cut by lia. 
    assert (P : 0 < n - zlen (join_char 44 pre)) by lia.
    cbn [firstz]. destruct (n - zlen (join_char 44 pre) <=? 0) eqn:E1; [lia|].
    rewrite split_join_app; [|exact Hpn|apply Forall_app in Hf; apply Hf]. eexists. left. reflexivity. }
  assert (HA : header_fields size (h ++ rest) = Ok (pre ++ post)).
  { unfold header_fields. rewrite firstz_app by exact Hz. rewrite utf8_ascii_decode by exact Ha. cbn [bind].
    rewrite Hh, split_join; [reflexivity| |exact Hf]. destruct pre; [congruence|discriminate]. }
  assert (HQ : exists q, header_fields 384 (h ++ rest) = Ok (pre ++ q) /\ (size = 384 -> q = post)).
  { destruct Hs as [-> |[-> _]].
    - exists post. split; [exact HA|reflexivity].
    - destruct (HF 384 ltac:(lia)) as [q [K|K]]; [|lia]. exists q. split; [exact K|lia]. }
  destruct HQ as [q [HQ Hq]].
  assert (HP : forall i s r, 0 <= i < 8 -> nth_error pre (Z.to_nat i) = Some s -> head_at (pre ++ r) i = Ok s).
  { intros i s r Hi' Hn. apply head_at_nth; [lia|]. rewrite nth_error_app1; [exact Hn|]. rewrite Hpre. cbn [List.length]. lia. }
  unfold parse_file. rewrite HQ. cbn [bind].
  rewrite (HP 5 (num_text k2 rows)) by (lia || (rewrite Hpre; reflexivity)). cbn [bind]. rewrite num_text_int by exact Hr. cbn [bind].
  rewrite (HP 4 (num_text k1 cols)) by (lia || (rewrite Hpre; reflexivity)). cbn [bind]. rewrite num_text_int by exact Hc. cbn [bind].
  rewrite (HP 6 (type_text item)) by (lia || (rewrite Hpre; reflexivity)). cbn [bind].
  rewrite (HP 7 x7) by (lia || (rewrite Hpre; reflexivity)). cbn [bind].
  rewrite (HP 2 (if size =? 384 then str "00384" else str "00768")) by (lia || (rewrite Hpre; reflexivity)). cbn [bind].
  assert (HR : eqb_str (type_text item) (str "R64") = false) by (destruct Hi as [-> |[-> | ->]]; reflexivity).
  rewrite HR.
  assert (Hl : 8 <= zlen (pre ++ post)) by (rewrite zlen_app, Hpre; unfold zlen at 1; cbn [List.length]; pose proof (zlen_nonneg _ post); lia).
  assert (Fin : forall hd, hd = pre ++ post ->
    (let! s6 := head_at hd 6 in
     let item0 := if eqb_str s6 (str "U08") then Some 1 else if eqb_str s6 (str "U16") then Some 2 else if eqb_str s6 (str "U32") then Some 4 else None in
     let! ex := head_at hd (-3) in
     let! time := head_at hd (-4) in
     match item0 with
     | Some item0 => Ok {| p_rows := rows; p_cols := cols; p_raw := false; p_head := size; p_item := item0; p_exposure := ex; p_time := time |}
     | None => Err TypeError end) = Ok {| p_rows := rows; p_cols := cols; p_raw := false; p_head := size; p_item := item;
    p_exposure := nth (List.length (pre ++ post) - 3) (pre ++ post) []; p_time := nth (List.length (pre ++ post) - 4) (pre ++ post) [] |}).
  { intros hd ->. rewrite (HP 6 (type_text item)) by (lia || (rewrite Hpre; reflexivity)). cbn [bind].
    rewrite (head_at_end _ 3) by lia. cbn [bind]. rewrite (head_at_end _ 4) by lia. cbn [bind].
    destruct Hi as [-> |[-> | ->]]; reflexivity. }
  destruct Hs as [-> |[-> ->]].
  - rewrite Hq in * by reflexivity. change (eqb_str (if 384 =? 384 then str "00384" else str "00768") (str "00768")) with false.
    change (eqb_str (if 384 =? 384 then str "00384" else str "00768") (str "00384")) with true. cbn [bind]. apply Fin. reflexivity.
  - change (eqb_str (if 768 =? 384 then str "00384" else str "00768") (str "00768")) with true. rewrite HA. cbn [bind]. apply Fin. reflexivity.
Qed.

Definition hx : pystr := Eval vm_compute in str "MQ1,000001,00384,01,0256,0128,U16,   1x1,01,2019-06-20 16:01:24,0.000000,MQ1A,2019-06-20T16:01:24.123Z,1000000ns,6,".
Definition hx_fields : list pystr := split_char 44 hx.
Definition hx_pad : pystr := Eval vm_compute in repeat 32 (384 - List.length hx)%nat.
Example ex_C57 :
  let fields := removelast hx_fields ++ [hx_pad] in
  firstn 8 fields = [str "MQ1"; str "000001"; str "00384"; str "01"; num_text 1 256; num_text 1 128; type_text 2; str "   1x1"]
  /\ header_is 384 fields (hx ++ hx_pad)
  /\ parse_file true (hx ++ hx_pad) = Ok {| p_rows := 128; p_cols := 256; p_raw := false; p_head := 384; p_item := 2; p_exposure := str "1000000ns"; p_time := str "2019-06-20T16:01:24.123Z" |}.
Proof.
  cbn zeta. split; [vm_compute; reflexivity|]. split; [|vm_compute; reflexivity].
  split; [vm_compute; reflexivity|]. split.
  - unfold ascii. apply Forall_forall. intros x Hx.
    assert (B : forallb (fun c => (0 <=? c) && (c <? 128)) (hx ++ hx_pad) = true) by (vm_compute; reflexivity).
    rewrite forallb_forall in B. specialize (B x Hx). lia.
  - split; [vm_compute; reflexivity|]. apply Forall_forall. intros w Hw Hc.
    assert (B : forallb (fun w => negb (existsb (fun c => c =? 44) w)) (removelast hx_fields ++ [hx_pad]) = true) by (vm_compute; reflexivity).
    rewrite forallb_forall in B. specialize (B w Hw). apply Bool.negb_true_iff in B.
    rewrite <- Bool.not_true_iff_false in B. apply B. apply existsb_exists. exists 44. split; [exact Hc|reflexivity].
Qed.

(** A quad header in a buffer fails: it is read again from a path that does not exist. *)
Theorem C38_quad_refuted : exists f, (exists p, parse_file false f = Ok p) /\ parse_file true f = Err TypeError.
Proof.
  exists (str "MQ1,000001,00768,01,0256,0128,U16,   2x2,01,2019-06-20T16:01:24.123Z,1000000ns,6,").
  split; [eexists|]; vm_compute; reflexivity.
Qed.

(** * C39: texts of many headers *)
Definition text_of (fields : list pystr) : list Z := join_char 44 fields.
Definition fields_ok (fields : list pystr) : Prop := (4 <= List.length fields)%nat /\ Forall (fun w => ~ In 44 w) fields /\ ascii (text_of fields).
(** The field that is the [k]-th from the end *)
Definition from_last (k : nat) (fields : list pystr) : pystr := nth (List.length fields - k) fields [].

Lemma parse_one : forall k fields, 0 < k <= 4 -> fields_ok fields ->
  (let! s := utf8_decode (text_of fields) in head_at (split_char 44 s) (- k)) = Ok (from_last (Z.to_nat k) fields).
Proof.
  intros k fields Hk [Hl [Hf Ha]]. rewrite utf8_ascii_decode by exact Ha. cbn [bind]. unfold text_of. rewrite split_join; [|destruct fields; [cbn in Hl; lia|discriminate]|exact Hf].
  apply head_at_end. unfold zlen. lia.
Qed.
Lemma mapM_ok : forall A B (g : A -> res B) (h : A -> B) l, Forall (fun x => g x = Ok (h x)) l -> mapM g l = Ok (map h l).
Proof. induction 1 as [|x l Hx _ IH]; [reflexivity|]. cbn [mapM map]. rewrite Hx. cbn [bind]. rewrite IH. reflexivity. Qed.
Lemma upto_map : forall A B (g : A -> B) m l, upto m (map g l) = map g (upto m l).
Proof.
  intros. unfold upto. replace (zlen (map g l)) with (zlen l) by (unfold zlen; rewrite map_length; reflexivity).
  destruct (1 <? m); rewrite !firstz_firstn, !firstn_map; destruct (_ <? 0); reflexivity.
Qed.
Lemma parse_field_ok : forall k m fss, 0 < k <= 4 -> Forall fields_ok fss ->
  parse_field (- k) m (map text_of fss) = Ok (map (from_last (Z.to_nat k)) (upto m fss)).
Proof.
  intros k m fss Hk H. unfold parse_field. rewrite upto_map.
  assert (Hu : Forall fields_ok (upto m fss)).
  { rewrite Forall_forall in *. intros x Hx. apply H. unfold upto in Hx.
    destruct (_ <? 0) in Hx; rewrite firstz_firstn in Hx;
      match type of Hx with In _ (firstn ?q _) => rewrite <- (firstn_skipn q fss) end; apply in_or_app; left; exact Hx. }
  revert Hu. generalize (upto m fss). intros l Hu. induction Hu as [|x l Hx _ IH]; [reflexivity|].
  cbn [map mapM]. pose proof (parse_one k x Hk Hx) as P. cbn beta. rewrite P. cbn [bind]. rewrite IH. reflexivity.
Qed.

Theorem C39_first : forall m fss, 0 <= m -> Forall fields_ok fss ->
  parse_exposures m (map text_of fss) = Ok (map (from_last 3) (firstn (Z.to_nat m) fss))
  /\ parse_timestamps m (map text_of fss) = Ok (map (from_last 4) (firstn (Z.to_nat m) fss)).
Proof.
  intros m fss Hm H.
  assert (U : upto m fss = firstn (Z.to_nat m) fss).
  { unfold upto. destruct (1 <? m) eqn:E.
    - pose proof (zlen_nonneg _ fss). destruct (Z.min m (zlen fss) <? 0) eqn:E1; [lia|]. rewrite firstz_firstn.
      destruct (Z_le_dec m (zlen fss)); [f_equal; lia|]. rewrite !firstn_all2; unfold zlen in *; [reflexivity|lia|lia].
    - destruct (m <? 0) eqn:E1; [lia|]. apply firstz_firstn. }
  split; [pose proof (parse_field_ok 3 m fss ltac:(lia) H) as P|pose proof (parse_field_ok 4 m fss ltac:(lia) H) as P];
    rewrite U in P; exact P.
Qed.
(** max_index=-1 is documented to give all frames, but always leaves out the last one. *)
Theorem C39_all_refuted : forall fss x, Forall fields_ok (fss ++ [x]) ->
  parse_exposures (-1) (map text_of (fss ++ [x])) = Ok (map (from_last 3) fss)
  /\ parse_timestamps (-1) (map text_of (fss ++ [x])) = Ok (map (from_last 4) fss).
Proof.
  intros fss x H.
  assert (U : upto (-1) (fss ++ [x]) = fss).
  { unfold upto. cbn [Z.ltb Z.compare]. apply firstz_app. rewrite zlen_app. unfold zlen at 3. cbn. lia. }
  split; [pose proof (parse_field_ok 3 (-1) _ ltac:(lia) H) as P|pose proof (parse_field_ok 4 (-1) _ ltac:(lia) H) as P];
    rewrite U in P; exact P.
Qed.
Example ex_C39 : let fss := [[str "a"; str "t1"; str "1ns"; str "6"; []]; [str "a"; str "t2"; str "2ns"; str "6"; []]] in
  Forall fields_ok fss /\ parse_timestamps 10000 (map text_of fss) = Ok [str "t1"; str "t2"] /\ parse_timestamps (-1) (map text_of fss) = Ok [str "t1"].
Proof.
  cbn zeta. split; [|split; vm_compute; reflexivity].
  repeat constructor; try (cbn; lia); cbn; intro K; repeat destruct K as [K|K]; try discriminate; try contradiction.
Qed.

(** * C58: the guess of the scan shape from the times of the frames *)
(** A scan of lines of [per] frames: [a] between frames of a line, [b] at the end of a line. *)
Definition time_of (t0 a b per : Z) (k : Z) : Z := t0 + k * a + (k / per) * (b - a).
Definition scan_times (t0 a b per n : Z) : list Z := map (time_of t0 a b per) (zseq 0 (Z.to_nat n)).

Lemma diffs_map : forall (g : Z -> Z) n s, diffs (map g (zseq s (S n))) = map (fun k => g (k + 1) - g k) (zseq s n).
Proof.
  intros g. induction n as [|n IH]; intros s; [reflexivity|].
  change (zseq s (S (S n))) with (s :: zseq (s + 1) (S n)). change (zseq s (S n)) with (s :: zseq (s + 1) n).
  cbn [map]. specialize (IH (s + 1)). change (zseq (s + 1) (S n)) with (s + 1 :: zseq (s + 1 + 1) n) in *. cbn [map diffs] in *. f_equal. exact IH.
Qed.
Lemma first_above_at : forall s n l k i d, nth_error l k = Some d -> s < d * n -> (forall j e, (j < k)%nat -> nth_error l j = Some e -> e * n <= s) ->
  first_above s n i l = Some (i + Z.of_nat k).
Proof.
  induction l as [|x l IH]; intros k i d Hk Hd Hj; [destruct k; discriminate|]. cbn [first_above]. destruct k as [|k].
  - injection Hk as ->. destruct (s <? d * n) eqn:E; [f_equal; lia|lia].
  - pose proof (Hj 0%nat x ltac:(lia) eq_refl). destruct (s <? x * n) eqn:E; [lia|].
    rewrite (IH k (i + 1) d); [f_equal; lia|exact Hk|exact Hd|]. intros j e Hjk He. apply (Hj (S j) e); [lia|exact He].
Qed.
Lemma first_above_none : forall s n l i, Forall (fun e => e * n <= s) l -> first_above s n i l = None.
Proof. intros s n l i H. revert i. induction H as [|x l Hx _ IH]; intros i; [reflexivity|]. cbn [first_above]. destruct (s <? x * n) eqn:E; [lia|apply IH]. Qed.
Lemma sum_bounds : forall l a b, Forall (fun e => a <= e <= b) l -> a * zlen l <= sumZ l <= b * zlen l.
Proof. intros l a b H. induction H as [|x l Hx _ IH]; [cbn; lia|]. rewrite zlen_cons. cbn [sumZ]. lia. Qed.
Lemma sum_below : forall l a b x, Forall (fun e => a <= e <= b) l -> In x l -> x < b -> sumZ l < b * zlen l.
Proof.
  intros l a b x H. induction H as [|y l Hy H IH]; intros Hin Hx; [destruct Hin|]. rewrite zlen_cons. cbn [sumZ].
  destruct Hin as [->|Hin]; [pose proof (sum_bounds _ _ _ H); lia|specialize (IH Hin Hx); lia].
Qed.
Lemma gap_value : forall t0 a b per k, 1 <= per -> 0 <= k -> time_of t0 a b per (k + 1) - time_of t0 a b per k = if (k + 1) mod per =? 0 then b else a.
Proof.
  intros t0 a b per k Hp Hk. unfold time_of.
  pose proof (Z.div_mod (k + 1) per ltac:(lia)) as D. pose proof (Z.mod_pos_bound (k + 1) per ltac:(lia)) as B.
  destruct ((k + 1) mod per =? 0) eqn:E.
  - assert (Q : k / per = (k + 1) / per - 1). { symmetry. apply (Z.div_unique k per _ (per - 1)); [lia|]. lia. }
    rewrite Q. lia.
  - assert (Q : k / per = (k + 1) / per). { symmetry. apply (Z.div_unique k per _ ((k + 1) mod per - 1)); lia. }
    rewrite Q. lia.
Qed.
Lemma firstn_zseq : forall m n s, (m <= n)%nat -> firstn m (zseq s n) = zseq s m.
Proof. induction m as [|m IH]; intros n s H; [reflexivity|]. destruct n as [|n]; [lia|]. cbn [zseq firstn]. f_equal. apply IH. lia. Qed.
Lemma upto_scan : forall t0 a b per n, 0 <= n -> upto 10000 (scan_times t0 a b per n) = scan_times t0 a b per (Z.min n 10000).
Proof.
  intros t0 a b per n Hn. unfold scan_times. rewrite upto_map. f_equal. unfold upto.
  replace (zlen (zseq 0 (Z.to_nat n))) with n by (unfold zlen; rewrite zseq_length; lia).
  change (1 <? 10000) with true. cbn iota. destruct (Z.min 10000 n <? 0) eqn:E; [lia|]. rewrite firstz_firstn. rewrite firstn_zseq by lia. f_equal. lia.
Qed.

Lemma guess_per : forall t0 a b per n, a < b -> 1 <= per < n -> frames_per_line (scan_times t0 a b per n) = per.
Proof.
  intros t0 a b per n Hab Hp. unfold frames_per_line, scan_times.
  replace (Z.to_nat n) with (S (Z.to_nat (n - 1))) by lia. rewrite diffs_map.
  set (d := map _ _).
  assert (Hd : forall j, (j < Z.to_nat (n - 1))%nat -> nth_error d j = Some (if (Z.of_nat j + 1) mod per =? 0 then b else a)).
  { intros j Hj. unfold d. rewrite nth_error_map, nth_error_zseq by exact Hj. cbn [option_map]. rewrite Z.add_0_l. f_equal. apply gap_value; lia. }
  assert (Hl : zlen d = n - 1) by (unfold d, zlen; rewrite map_length, zseq_length; lia).
  assert (Hv : forall x, In x d -> x = a \/ x = b).
  { intros x Hx. unfold d in Hx. apply in_map_iff in Hx. destruct Hx as [k [<- Hk]]. apply in_zseq in Hk. rewrite gap_value by lia. destruct (_ =? 0); auto. }
  assert (HF : Forall (fun e => a <= e <= b) d) by (apply Forall_forall; intros x Hx; destruct (Hv x Hx); lia).
  destruct (Z.eq_dec per 1) as [-> |N1].
  - rewrite first_above_none; [reflexivity|].
    assert (HB : Forall (fun e => e = b) d).
    { unfold d. apply Forall_forall. intros x Hx. apply in_map_iff in Hx. destruct Hx as [k [<- Hk]]. apply in_zseq in Hk. rewrite gap_value by lia. rewrite Z.mod_1_r. reflexivity. }
    assert (sumZ d = b * zlen d). { clear - HB. induction HB as [|x l Hx _ IH]; [cbn; lia|]. rewrite zlen_cons. cbn [sumZ]. rewrite IH. lia. }
    eapply Forall_impl; [|exact HB]. cbn. intros x ->. lia.
  - assert (Ha : forall j, (j < Z.to_nat (per - 1))%nat -> nth_error d j = Some a).
    { intros j Hj. rewrite Hd by lia. rewrite Z.mod_small by lia. destruct (_ =? 0) eqn:E; [lia|reflexivity]. }
    assert (Hb : nth_error d (Z.to_nat (per - 1)) = Some b).
    { rewrite Hd by lia. replace (Z.of_nat (Z.to_nat (per - 1)) + 1) with per by lia. rewrite Z_mod_same_full. reflexivity. }
    rewrite (first_above_at _ _ _ (Z.to_nat (per - 1)) 0 b); [lia|exact Hb| |].
    + apply (sum_below d a b a HF); [|exact Hab]. eapply nth_error_In. apply (Ha 0%nat). lia.
    + intros j e Hj He. rewrite Ha in He by exact Hj. injection He as <-. apply (sum_bounds _ _ _ HF).
Qed.

Theorem C58_scan : forall t0 a b per n, a < b -> 1 <= per < Z.min n 10000 ->
  guess_shape None (scan_times t0 a b per n) = Ok (Some [per; n / per])
  /\ guess_shape (Some (1, n)) (scan_times t0 a b per n) = Ok (Some [per; n / per]).
Proof.
  intros t0 a b per n Hab Hp. unfold guess_shape.
  assert (L : zlen (scan_times t0 a b per n) = n) by (unfold scan_times, zlen; rewrite map_length, zseq_length; lia).
  rewrite L. change (1 =? 1) with true. cbn iota. rewrite upto_scan by lia. rewrite guess_per by lia.
  destruct (n =? 0) eqn:E; [lia|]. destruct (per =? 0) eqn:E1; [lia|]. auto.
Qed.
(** Together with loading: a complete scan of [lines] lines comes back as lines of [per] frames. *)
Theorem C58_complete : forall p f t0 a b per lines, props_ok p -> a < b -> 1 <= per -> 2 <= lines -> per < 10000 ->
  zlen f / frame_size p = lines * per ->
  exists nav fr, guess_shape None (scan_times t0 a b per (lines * per)) = Ok (Some nav)
    /\ load false p f None None (Some nav) = Ok ([lines; per], fr)
    /\ zlen fr = lines * per
    /\ forall i, 0 <= i < lines * per -> nth_error fr (Z.to_nat i) = Some (frame_no (frame_size p) f i).
Proof.
  intros p f t0 a b per lines Hp Hab H1 H2 H3 Hf.
  destruct (C58_scan t0 a b per (lines * per) Hab ltac:(nia)) as [G _].
  exists [per; lines]. rewrite Z.div_mul in G by lia.
  destruct (C37_frames p f None None (Some [per; lines]) Hp) as [sh [fr [Q1 [Q2 [Q3 [Q4 Q5]]]]]].
  - split; [discriminate|repeat constructor; lia].
  - unfold lo, hi. rewrite Hf. nia.
  - rewrite Hf in Q2, Q4. unfold lo, hi in *. destruct Q2 as [S1 _]. rewrite S1 in * by (unfold prodZ; cbn [fold_right]; lia). cbn [rev app] in *.
    exists fr. split; [exact G|]. split; [exact Q1|]. unfold prodZ in *. cbn [fold_right] in *. split; [lia|]. intros i Hi. rewrite Q5 by lia. f_equal.
Qed.
Example ex_C58 : scan_times 5 10 30 3 7 = [5; 15; 25; 55; 65; 75; 105] /\ guess_shape None (scan_times 5 10 30 3 7) = Ok (Some [3; 2]).
Proof. split; vm_compute; reflexivity. Qed.
(** A hdr file with no frames per trigger stops the reader, although the code means not to
    reshape in this case. *)
Theorem C58_zero_refuted : forall n times, n <> 0 -> guess_shape (Some (0, n)) times = Err ZeroDivisionError.
Proof. intros n times H. unfold guess_shape. cbn. destruct (n =? 0) eqn:E; [lia|reflexivity]. Qed.
(** Frames after the last complete line are dropped although the file has them. *)
Theorem C58_dropped_refuted : exists p f nav sh fr, props_ok p
  /\ guess_shape (Some (2, 5)) [] = Ok (Some nav) /\ zlen f / frame_size p = 5 /\ load false p f None None (Some nav) = Ok (sh, fr) /\ zlen fr = 4.
Proof.
  exists px, fx, [2; 2], [2; 2], [[10; 1; 2]; [11; 3; 4]; [12; 5; 6]; [13; 7; 8]].
  split; [unfold props_ok; cbn; lia|]. repeat split; vm_compute; reflexivity.
Qed.
