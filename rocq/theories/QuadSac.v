(** Property C85: traces of Quadstar SAC files. *)
From Coq Require Import QArith.
From Verif Require Import Base Text Bytes SfsModel SfsProps BcfUnpack SurFloat RenModel RenBlocks RenData QuadModel.
Local Open Scope Z_scope.

(** * Specification: what stands where in a file *)
Definition at_ (b : list Z) (p w : Z) : Z := le_val (firstn (Z.to_nat w) (skipn (Z.to_nat p) b)).
Definition signed_at (b : list Z) (p w : Z) : Z := signed (Z.to_nat w) (at_ b p w).
Definition chars (b : list Z) (p w : Z) : list Z := firstn (Z.to_nat w) (skipn (Z.to_nat p) b).
Definition steps (b : list Z) : Z := signed_at b 100 4.
Definition traces (b : list Z) : Z := signed_at b 104 2.
Definition step_length (b : list Z) : Z := signed_at b 106 4.
(** The trace header number k *)
Definition is_scan (b : list Z) (k : Z) : bool := at_ b (200 + 9 * k) 1 =? 17.
Definition info_pos (b : list Z) (k : Z) : Z := signed_at b (201 + 9 * k) 4.
Definition data_pos (b : list Z) (k : Z) : Z := signed_at b (205 + 9 * k) 4.
Definition scans (b : list Z) : list Z := filter (is_scan b) (zseq 0 (Z.to_nat (traces b))).
Definition mass_count (b : list Z) (k : Z) : Z := at_ b (info_pos b k + 126) 2.
Definition per_mass (b : list Z) (k : Z) : Z := at_ b (info_pos b k + 128) 1.
Definition points (b : list Z) (k : Z) : Z := mass_count b k * per_mass b k.
(** Position of the record of step n *)
Definition block_pos (b : list Z) (k n : Z) : Z := data_pos b k + n * step_length b.
Definition exponent (b : list Z) (k n : Z) : Z := signed_at b (block_pos b k n + 4) 2.
Definition sample (b : list Z) (k n j : Z) : Z := at_ b (block_pos b k n + 6 + 4 * j) 4.
Definition ten (e : Z) : Q := if 0 <=? e then inject_Z (10 ^ e) else 1 # Z.to_pos (10 ^ (- e)).
(** A value above the full scale is not a number; the full scale is a power of ten in single precision *)
Definition full_scale (e : Z) : Q := if e <? -60 then 0 else nearest (ten e).
Definition in_scale (e w : Z) : Z :=
  if 38 <? e then w else
  match val32 w with
  | Ok q => if Qle_bool q (full_scale e) then w else 2143289344
  | Err _ => if w =? 255 * 2 ^ 23 then 2143289344 else w
  end.
Definition time_of (b : list Z) (k n : Z) : Q :=
  inject_Z (at_ b 194 4 + at_ b (block_pos b k n - 6) 4) + (at_ b 198 2 # 10000) + (at_ b (block_pos b k n - 2) 2 # 10000).
(** Zeros after the text, and white space around it *)
Definition no_end (x : Z -> bool) (s : list Z) : Prop := s = [] \/ x (last s 0) = false.
Definition trimmed (raw t : list Z) : Prop :=
  exists a z c, raw = (a ++ t ++ z) ++ repeat 0 c /\ no_end (Z.eqb 0) (a ++ t ++ z) /\ Forall (fun x => blank x = true) a /\ Forall (fun x => blank x = true) z /\ no_end blank t /\ no_end blank (rev t).
Definition first_scan (b : list Z) : Z := hd 0 (scans b).
Definition gap (b : list Z) : Q := (time_of b (first_scan b) (steps b - 1) - time_of b (first_scan b) 0) / inject_Z (steps b - 1).
Definition time_ok (uniform : bool) (b : list Z) (a : option time_axis) : Prop :=
  if steps b =? 1 then a = None
  else exists x, a = Some x /\ x_size x = steps b /\
    if uniform then exists q, x_scaling x = Step 0 q /\ ((0 < gap b)%Q -> (q == gap b)%Q) /\ ((gap b <= 0)%Q -> (q == 1)%Q)
    else exists l, x_scaling x = Points l /\ Forall2 Qeq l (map (fun n => time_of b (first_scan b) n - time_of b (first_scan b) 0)%Q (zseq 0 (Z.to_nat (steps b)))).
Definition text_or (raw : list Z) (d : string) (t : pystr) : Prop := exists x, trimmed raw x /\ t = match x with [] => str d | _ => x end.
Definition mass_ok (b : list Z) (k : Z) (m : mass_axis) : Prop :=
  text_or (chars b (info_pos b k + 29) 13) "Mass-to-charge ratio" (m_name m) /\ text_or (chars b (info_pos b k + 42) 13) "m/z" (m_units m) /\
  m_offset m = at_ b (info_pos b k + 122) 4 /\ m_size m = points b k /\ m_index m = (if steps b =? 1 then 0 else 1) /\
  exists q, m_scale m = Ok q /\ (0 < points b k -> (q * inject_Z (per_mass b k) == 1)%Q) /\ (points b k = 0 -> (q == 1)%Q).
Definition quantity_ok (b : list Z) (k : Z) (q : pystr) : Prop :=
  exists t u, trimmed (chars b (info_pos b k + 2) 13) t /\ trimmed (chars b (info_pos b k + 15) 13) u /\ q = match t with [] => str "Intensity" | _ => t ++ str " (" ++ u ++ str ")" end.
Definition notes_ok (b : list Z) (k : Z) (n : option pystr) : Prop := exists t, trimmed (chars b (info_pos b k + 55) 59) t /\ n = match t with [] => None | _ => Some t end.
Definition trace_signal (uniform : bool) (b : list Z) (k : Z) (s : signal) : Prop :=
  s_shape s = (if steps b =? 1 then [points b k] else [steps b; points b k]) /\
  s_data s = flat_map (fun n => map (fun j => in_scale (exponent b k n) (sample b k n j)) (zseq 0 (Z.to_nat (points b k)))) (zseq 0 (Z.to_nat (steps b))) /\
  time_ok uniform b (s_time s) /\ mass_ok b k (s_mass s) /\ quantity_ok b k (s_quantity s) /\ notes_ok b k (s_notes s).
Definition sac_ok (b : list Z) : Prop :=
  0 <= traces b /\ 200 + 9 * traces b <= zlen b /\ 0 < steps b /\ scans b <> [] /\ Forall (fun x => 0 <= x < 256) b /\
  (forall k, In k (scans b) -> 0 <= info_pos b k /\ info_pos b k + 137 <= zlen b) /\
  (forall n, 0 <= n < steps b -> 6 <= block_pos b (hd 0 (scans b)) n) /\
  (forall k n, In k (scans b) -> 0 <= n < steps b -> -6 <= block_pos b k n - 6 /\ block_pos b k n + 6 + 4 * points b k <= zlen b /\ exponent b k n <= 308).

(** * Reading *)
Lemma unpack_at : forall w b p, 0 <= p -> p + w <= zlen b -> unpack w b p = Ok (at_ b p w).
Proof. intros w b p P H. unfold unpack. replace (p <? 0) with false by lia. replace (zlen b - p <? w) with false by lia. reflexivity. Qed.
Lemma from_at : forall w n b p, 0 <= p -> 0 < w -> 0 <= n -> p + n * w <= zlen b -> frombuffer w n b p = Ok (map (fun i => chars b (p + w * i) w) (zseq 0 (Z.to_nat n))).
Proof.
  intros w n b p P W N H. assert (H' : 0 <= n * w) by nia. unfold frombuffer. replace (p <? 0) with false by lia. replace (zlen b <? p) with false by lia. cbn [orb]. replace (n <? 0) with false by lia. replace (zlen b - p <? n * w) with false by lia. f_equal.
  apply list_same. intro i. destruct (Nat.ltb i (Z.to_nat n)) eqn:L.
  - apply Nat.ltb_lt in L. rewrite nth_records by exact L. rewrite nth_error_map. rewrite (nth_error_nth' (zseq 0 (Z.to_nat n)) 0) by (rewrite zseq_length; exact L). cbn [option_map]. rewrite nth_zseq by exact L. f_equal. unfold chars, slice. rewrite skipz_skipn, skipn_skipn. f_equal. f_equal. clear H H'. nia.
  - apply Nat.ltb_ge in L. rewrite (proj2 (nth_error_None _ _)) by (rewrite records_length; exact L). symmetry. apply nth_error_None. rewrite map_length, zseq_length. exact L.
Qed.
Lemma chars_in : forall b p w q v, 0 <= p -> 0 <= q -> q + v <= w -> slice_at (chars b p w) q v = chars b (p + q) v.
Proof.
  intros b p w q v P Q H. unfold slice_at, slice, chars. rewrite skipn_firstn_comm, firstn_firstn, skipn_skipn. f_equal; [lia|]. f_equal. lia.
Qed.
Lemma field_in : forall b p w q v, 0 <= p -> 0 <= q -> q + v <= w -> field (chars b p w) q v = at_ b (p + q) v.
Proof. intros b p w q v P Q H. unfold field. rewrite chars_in by assumption. reflexivity. Qed.
Lemma read_general_at : forall b, 110 <= zlen b -> read_general b = Ok {| g_second := at_ b 8 1; g_minute := at_ b 9 1; g_hour := at_ b 10 1; g_day := at_ b 11 1; g_month := at_ b 12 1; g_year := at_ b 13 1; g_steps := steps b; g_traces := traces b; g_length := step_length b |}.
Proof.
  intros b H. unfold read_general. rewrite from_at by lia. change (Z.to_nat 1) with 1%nat. cbn [zseq map bind]. unfold field_signed. rewrite !field_in by lia. reflexivity.
Qed.
Lemma read_traces_at : forall b n, 0 <= n -> 200 + 9 * n <= zlen b -> read_traces b n = Ok (map (fun k => {| t_type := at_ b (200 + 9 * k) 1; t_info := info_pos b k; t_data := data_pos b k |}) (zseq 0 (Z.to_nat n))).
Proof.
  intros b n N H. unfold read_traces. rewrite from_at by lia. cbn [bind]. f_equal. rewrite map_map. apply map_ext_in. intros k K. apply in_zseq in K. unfold field_signed. rewrite !field_in by lia. unfold info_pos, data_pos, signed_at.
  replace (200 + 9 * k + 0) with (200 + 9 * k) by lia. replace (200 + 9 * k + 1) with (201 + 9 * k) by lia. replace (200 + 9 * k + 5) with (205 + 9 * k) by lia. reflexivity.
Qed.
Definition the_info (b : list Z) (p : Z) : info :=
  {| i_ytitle := text_field b (p + 2) 13; i_yunit := text_field b (p + 15) 13; i_xtitle := text_field b (p + 29) 13; i_xunit := text_field b (p + 42) 13; i_comment := text_field b (p + 55) 59;
     i_mass := at_ b (p + 122) 4; i_width := at_ b (p + 126) 2; i_values := at_ b (p + 128) 1 |}.
Lemma text_in : forall b p w q v, 0 <= p -> 0 <= q -> q + v <= w -> text_field (chars b p w) q v = text_field b (p + q) v.
Proof. intros b p w q v P Q H. unfold text_field. rewrite chars_in by assumption. reflexivity. Qed.
Lemma read_info_at : forall b p, 0 <= p -> p + 137 <= zlen b -> read_info b p = Ok (the_info b p).
Proof.
  intros b p P H. unfold read_info. rewrite from_at by lia. change (Z.to_nat 1) with 1%nat. cbn [zseq map bind]. replace (p + 137 * 0) with p by lia. rewrite !field_in, !text_in by lia. reflexivity.
Qed.
(** * The limit *)
Lemma limit_ten : forall e, -60 <= e <= 38 -> exists w, limit_word e = Ok w /\ val32 w = Ok (nearest (ten e)) /\ 0 <= w < 2 ^ 31.
Proof.
  assert (C : forallb (fun e => match pack32 (ten e) with Ok w => (0 <=? w) && (w <? 2 ^ 31) | Err _ => false end) (zseq (-60) 99) = true) by (vm_compute; reflexivity).
  intros e E. rewrite forallb_forall in C. specialize (C e ltac:(apply in_zseq; lia)). unfold limit_word. replace (308 <? e) with false by lia. replace (e <? -60) with false by lia. fold (ten e). destruct (pack32 (ten e)) as [w|] eqn:P; [|discriminate C].
  exists w. split; [reflexivity|]. split; [apply (round32_nearest _ _ P)|lia].
Qed.
Lemma limit_high : forall e, 38 < e <= 308 -> limit_word e = Ok (255 * 2 ^ 23).
Proof.
  assert (C : forallb (fun e => match pack32 (ten e) with Ok w => false | Err _ => true end) (zseq 39 270) = true) by (vm_compute; reflexivity).
  intros e E. rewrite forallb_forall in C. specialize (C e ltac:(apply in_zseq; lia)). unfold limit_word. replace (308 <? e) with false by lia. replace (e <? -60) with false by lia. fold (ten e). destruct (pack32 (ten e)); [discriminate C|reflexivity].
Qed.
Lemma overflow_scale : forall e L w, e <= 308 -> 0 <= w < 2 ^ 32 -> limit_word e = Ok L -> overflow L w = in_scale e w.
Proof.
  intros e L w E W HL. unfold in_scale. destruct (38 <? e) eqn:E38.
  - assert (EL : L = 255 * 2 ^ 23) by (rewrite limit_high in HL by lia; congruence). rewrite EL. unfold overflow, gt32. unfold nan32 at 1. destruct (255 * 2 ^ 23 <? w mod 2 ^ 31) eqn:N; [reflexivity|]. cbn [negb andb]. change (order32 (255 * 2 ^ 23)) with (255 * 2 ^ 23). change (nan32 (255 * 2 ^ 23)) with false. cbn [negb andb].
    unfold order32. destruct (2 ^ 31 <=? w) eqn:S.
    + pose proof (Z.mod_pos_bound w (2 ^ 31) ltac:(lia)). replace (255 * 2 ^ 23 <? - (w mod 2 ^ 31)) with false by lia. reflexivity.
    + rewrite Z.mod_small in N by lia. rewrite N. reflexivity.
  - assert (K : 0 <= L < 2 ^ 31 /\ val32 L = Ok (full_scale e)).
    { unfold full_scale. destruct (e <? -60) eqn:E60.
      - unfold limit_word in HL. replace (308 <? e) with false in HL by lia. rewrite E60 in HL. injection HL as <-. split; [lia|reflexivity].
      - destruct (limit_ten e ltac:(lia)) as [w' [H1 [H2 H3]]]. rewrite H1 in HL. injection HL as <-. split; assumption. }
    destruct K as [KL KV]. unfold overflow. destruct (val32 w) as [q|] eqn:V.
    + pose proof (C83_order w L q (full_scale e) W ltac:(lia) V KV) as O. unfold above in O. destruct (Qle_bool q (full_scale e)) eqn:B.
      * destruct (gt32 w L) eqn:G; [|reflexivity]. apply Qle_bool_iff in B. assert (X := proj1 O eq_refl). exfalso. apply (Qlt_not_le _ _ X B).
      * rewrite (proj2 O); [reflexivity|]. apply Qnot_le_lt. intro X. apply Qle_bool_iff in X. congruence.
    + assert (X : w mod 2 ^ 31 / 2 ^ 23 = 255). { unfold val32 in V. destruct (w mod 2 ^ 31 / 2 ^ 23 =? 255) eqn:Q; [lia|]. destruct (w mod 2 ^ 31 / 2 ^ 23 =? 0) in V; discriminate V. }
      unfold gt32. destruct (w =? 255 * 2 ^ 23) eqn:I.
      * apply Z.eqb_eq in I. subst w. change (nan32 (255 * 2 ^ 23)) with false. change (order32 (255 * 2 ^ 23)) with (255 * 2 ^ 23). unfold nan32, order32. rewrite Z.mod_small by lia. replace (2 ^ 31 <=? L) with false by lia.
        assert (Y : L < 255 * 2 ^ 23). { unfold val32 in KV. rewrite Z.mod_small in KV by lia. destruct (L / 2 ^ 23 =? 255) eqn:Q in KV; [discriminate KV|]. lia. }
        replace (255 * 2 ^ 23 <? L) with false by lia. cbn [negb andb]. replace (L <? 255 * 2 ^ 23) with true by lia. reflexivity.
      * destruct (nan32 w) eqn:N; [reflexivity|]. unfold nan32 in N. assert (Y : w mod 2 ^ 31 = 255 * 2 ^ 23) by lia. destruct (2 ^ 31 <=? w) eqn:S.
        -- unfold order32 at 2. rewrite S, Y. unfold order32. replace (2 ^ 31 <=? L) with false by lia. replace (L <? - (255 * 2 ^ 23)) with false by lia. rewrite andb_false_r. reflexivity.
        -- exfalso. rewrite Z.mod_small in Y by lia. lia.
Qed.

(** * Text *)
Lemma drop_zeros_app : forall l, exists c, l = repeat 0 c ++ drop_zeros l /\ (drop_zeros l = [] \/ hd 0 (drop_zeros l) <> 0).
Proof.
  induction l as [|x l [c [E H]]]; [exists O; split; [reflexivity|left; reflexivity]|]. destruct x as [|x|x]; [exists (S c); cbn [drop_zeros repeat app]; split; [f_equal; exact E|exact H]| |]; exists O; (split; [reflexivity|right; discriminate]).
Qed.
Lemma drop_blank_app : forall l, exists a, l = a ++ drop_blank l /\ Forall (fun x => blank x = true) a /\ (drop_blank l = [] \/ blank (hd 0 (drop_blank l)) = false).
Proof.
  induction l as [|x l [a [E [F H]]]]; [exists []; repeat split; [constructor|left; reflexivity]|]. cbn [drop_blank]. destruct (blank x) eqn:B; [|exists []; repeat split; [constructor|right; exact B]].
  exists (x :: a). repeat split; [cbn [app]; f_equal; exact E|constructor; assumption|exact H].
Qed.
Lemma rev_repeat : forall A (x : A) n, rev (repeat x n) = repeat x n.
Proof. intros A x n. induction n as [|n IH]; [reflexivity|]. cbn [repeat rev]. rewrite IH. clear. induction n as [|n IH]; [reflexivity|]. cbn [repeat app]. rewrite IH. reflexivity. Qed.
Lemma last_rev : forall A (l : list A) d, last (rev l) d = hd d l.
Proof. intros A [|x l] d; [reflexivity|]. cbn [rev hd]. apply last_last. Qed.
Lemma hd_rev : forall A (l : list A) d, hd d (rev l) = last l d.
Proof. intros A l d. rewrite <- (rev_involutive l) at 2. rewrite last_rev. reflexivity. Qed.
Theorem C85_text : forall b p w, trimmed (chars b p w) (text_field b p w).
Proof.
  intros b p w. unfold text_field, slice_at, slice, chars. set (raw := firstn _ _). clearbody raw. clear. unfold cut_zeros. destruct (drop_zeros_app (rev raw)) as [c [E H]]. set (s := drop_zeros (rev raw)) in *. clearbody s.
  assert (ER : raw = rev s ++ repeat 0 c) by (rewrite <- (rev_involutive raw), E, rev_app_distr, rev_repeat; reflexivity).
  unfold strip_blank. destruct (drop_blank_app (rev s)) as [a [E1 [F1 H1]]]. set (t := drop_blank (rev s)) in *. clearbody t.
  destruct (drop_blank_app (rev t)) as [z [E2 [F2 H2]]]. set (u := drop_blank (rev t)) in *. clearbody u.
  assert (ET : t = rev u ++ rev z) by (rewrite <- (rev_involutive t), E2, rev_app_distr; reflexivity).
  exists a, (rev z), c. assert (ES : a ++ rev u ++ rev z = rev s) by (rewrite <- ET, <- E1; reflexivity). rewrite ES. split; [exact ER|]. split.
  { unfold no_end. destruct H as [H | H]; [left; rewrite H; reflexivity|right]. rewrite last_rev. lia. }
  split; [exact F1|]. split; [apply Forall_rev; exact F2|]. split.
  - unfold no_end. destruct H2 as [H2 | H2]; [left; rewrite H2; reflexivity|right; rewrite last_rev; exact H2].
  - rewrite rev_involutive. unfold no_end. destruct u as [|x u]; [left; reflexivity|right].
    destruct H1 as [H1 | H1]; [rewrite H1 in ET; destruct (rev (x :: u)) eqn:K; [apply (f_equal (@rev Z)) in K; rewrite rev_involutive in K; discriminate K|discriminate ET]|].
    rewrite ET in H1. rewrite <- hd_rev. destruct (rev (x :: u)) eqn:K; [apply (f_equal (@rev Z)) in K; rewrite rev_involutive in K; discriminate K|exact H1].
Qed.

(** * Rows and traces *)
Lemma mapM_map : forall A B (g : A -> res B) (h : A -> B) l, (forall x, In x l -> g x = Ok (h x)) -> mapM g l = Ok (map h l).
Proof. intros A B g h l. induction l as [|x l IH]; intro H; [reflexivity|]. cbn [mapM map]. rewrite (H x (or_introl eq_refl)). cbn [bind]. rewrite IH by (intros y Y; apply H; right; exact Y). reflexivity. Qed.
Lemma in_firstn_in : forall A n (l : list A) x, In x (firstn n l) -> In x l.
Proof. intros A n l x H. rewrite <- (firstn_skipn n l). apply in_or_app. left. exact H. Qed.
Lemma in_skipn_in : forall A n (l : list A) x, In x (skipn n l) -> In x l.
Proof. intros A n l x H. rewrite <- (firstn_skipn n l). apply in_or_app. right. exact H. Qed.
Lemma at_range : forall b p w, Forall (fun x => 0 <= x < 256) b -> 0 <= at_ b p w < 256 ^ Z.max 0 w.
Proof.
  intros b p w F. unfold at_. assert (G : Forall (fun x => 0 <= x < 256) (firstn (Z.to_nat w) (skipn (Z.to_nat p) b))) by (apply Forall_forall; intros x X; rewrite Forall_forall in F; apply F; eapply in_skipn_in, in_firstn_in; exact X). split.
  - clear F. induction G as [|x l X G IH]; [cbn; lia|]. cbn [le_val]. lia.
  - eapply Z.lt_le_trans with (m := 256 ^ Z.of_nat (List.length (firstn (Z.to_nat w) (skipn (Z.to_nat p) b)))).
    + clear F. induction G as [|x l X G IH]; [cbn; lia|]. cbn [le_val List.length]. rewrite Nat2Z.inj_succ, Z.pow_succ_r by lia. lia.
    + apply Z.pow_le_mono_r; [lia|]. rewrite firstn_length. lia.
Qed.
Definition row (b : list Z) (k n : Z) : list Z := map (fun j => in_scale (exponent b k n) (sample b k n j)) (zseq 0 (Z.to_nat (points b k))).
Lemma read_row_at : forall b k n, Forall (fun x => 0 <= x < 256) b -> 0 <= info_pos b k -> info_pos b k + 137 <= zlen b -> 0 <= block_pos b k n -> block_pos b k n + 6 + 4 * points b k <= zlen b -> exponent b k n <= 308 ->
  read_row b (n * step_length b) {| t_type := at_ b (200 + 9 * k) 1; t_info := info_pos b k; t_data := data_pos b k |} = Ok (the_info b (info_pos b k), row b k n).
Proof.
  intros b k n F I1 I2 P1 P2 E. unfold read_row. cbn [t_info t_data]. rewrite read_info_at by assumption. cbn [bind i_width i_values the_info]. fold (mass_count b k). fold (per_mass b k). fold (points b k). fold (block_pos b k n).
  assert (PP : 0 <= points b k). { unfold points, mass_count, per_mass. pose proof (at_range b (info_pos b k + 126) 2 F). pose proof (at_range b (info_pos b k + 128) 1 F). nia. }
  rewrite unpack_at by lia. cbn [bind]. change (signed 2 (at_ b (block_pos b k n + 4) 2)) with (exponent b k n).
  assert (HL : exists L, limit_word (exponent b k n) = Ok L). { destruct (exponent b k n <? -60) eqn:E60; [exists 0; unfold limit_word; replace (308 <? exponent b k n) with false by lia; rewrite E60; reflexivity|]. destruct (38 <? exponent b k n) eqn:E38; [eexists; apply limit_high; lia|]. destruct (limit_ten (exponent b k n) ltac:(lia)) as [w [H _]]. exists w. exact H. }
  destruct HL as [L HL]. rewrite HL. cbn [bind]. rewrite from_at by lia. cbn [bind]. f_equal. f_equal. unfold row. rewrite map_map. apply map_ext. intro j. rewrite (overflow_scale (exponent b k n)); [|exact E| |exact HL].
  - reflexivity.
  - pose proof (at_range b (block_pos b k n + 6 + 4 * j) 4 F) as R. change (256 ^ Z.max 0 4) with (2 ^ 32) in R. exact R.
Qed.
Lemma scans_map : forall b, filter (fun t => t_type t =? 17) (map (fun k => {| t_type := at_ b (200 + 9 * k) 1; t_info := info_pos b k; t_data := data_pos b k |}) (zseq 0 (Z.to_nat (traces b)))) =
  map (fun k => {| t_type := at_ b (200 + 9 * k) 1; t_info := info_pos b k; t_data := data_pos b k |}) (scans b).
Proof. intro b. unfold scans. generalize (zseq 0 (Z.to_nat (traces b))). intro l. induction l as [|k l IH]; [reflexivity|]. cbn [map filter t_type]. unfold is_scan at 1. destruct (at_ b (200 + 9 * k) 1 =? 17); cbn [map]; rewrite IH; reflexivity. Qed.
Definition tick (b : list Z) (n : Z) : Z := (at_ b 194 4 + at_ b (block_pos b (first_scan b) n - 6) 4) * 10000 + (at_ b 198 2 + at_ b (block_pos b (first_scan b) n - 2) 2).
Lemma numbered_map : forall A B C D (l : list A) (h : A -> B * D) (F : nat * B -> C) (g : A -> C) k, (forall i x, nth_error l i = Some x -> F ((k + i)%nat, fst (h x)) = g x) -> map F (combine (seq k (List.length (map h l))) (map fst (map h l))) = map g l.
Proof.
  intros A B C D l h F g. induction l as [|x l IH]; intros k H; [reflexivity|]. cbn [List.length seq map combine]. f_equal.
  - rewrite <- (H O x eq_refl). rewrite Nat.add_0_r. reflexivity.
  - apply IH. intros i y Y. rewrite <- (H (S i) y Y). f_equal. f_equal. lia.
Qed.
Lemma sac_read : forall uniform b g, sac_ok b -> g_traces g = traces b -> g_steps g = steps b -> g_length g = step_length b ->
  read_sac uniform b g = Ok (map (fun k => sac_signal uniform (date_of_header g) (map (tick b) (zseq 0 (Z.to_nat (steps b)))) (the_info b (info_pos b k)) (map (row b k) (zseq 0 (Z.to_nat (steps b))))) (scans b)).
Proof.
  intros uniform b g (T & TL & S0 & NE & F & HI & HF & HR) G1 G2 G3. unfold read_sac. rewrite G1, G2, G3. rewrite read_traces_at by assumption. cbn [bind]. rewrite scans_map. set (mk := fun k => {| t_type := at_ b (200 + 9 * k) 1; t_info := info_pos b k; t_data := data_pos b k |}).
  assert (F0 : t_data (hd (mk 0) (map mk (scans b))) = data_pos b (first_scan b)) by (unfold first_scan; destruct (scans b); reflexivity).
  destruct (map mk (scans b)) as [|first rest] eqn:M; [destruct (scans b); [congruence|discriminate M]|]. cbn [hd] in F0. rewrite <- M. rewrite !unpack_at by lia. cbn [bind].
  rewrite (mapM_map _ _ _ (fun n => (tick b n, map (fun k => (the_info b (info_pos b k), row b k n)) (scans b)))).
  - cbn [bind]. destruct (zseq 0 (Z.to_nat (steps b))) as [|n0 ns] eqn:Z0; [apply (f_equal (@List.length Z)) in Z0; rewrite zseq_length in Z0; cbn in Z0; lia|]. set (all := n0 :: ns) in *. change (map (fun n => (tick b n, map (fun k => (the_info b (info_pos b k), row b k n)) (scans b))) all) with ((tick b n0, map (fun k => (the_info b (info_pos b k), row b k n0)) (scans b)) :: map (fun n => (tick b n, map (fun k => (the_info b (info_pos b k), row b k n)) (scans b))) ns) at 1.
    cbn iota. f_equal. apply (numbered_map _ _ _ _ (scans b) (fun k => (the_info b (info_pos b k), row b k n0))).
    intros i k K. rewrite !map_map. cbn [fst snd plus]. f_equal. apply map_ext. intro n. rewrite (nth_indep _ _ ((fun k => (the_info b (info_pos b k), row b k n)) 0)) by (rewrite map_length; apply nth_error_Some; congruence). rewrite (map_nth (fun k => (the_info b (info_pos b k), row b k n))). cbn [snd]. rewrite (nth_error_nth _ _ _ K). reflexivity.
  - intros n N. apply in_zseq in N. rewrite Z2Nat.id in N by lia. rewrite F0. assert (IF : In (first_scan b) (scans b)) by (unfold first_scan; destruct (scans b); [congruence|left; reflexivity]).
    destruct (HR _ n IF ltac:(lia)) as (_ & B & _). specialize (HF n ltac:(lia)). fold (first_scan b) in HF. assert (PP : 0 <= points b (first_scan b)). { unfold points, mass_count, per_mass. pose proof (at_range b (info_pos b (first_scan b) + 126) 2 F). pose proof (at_range b (info_pos b (first_scan b) + 128) 1 F). nia. }
    replace (data_pos b (first_scan b) - 6 + n * step_length b) with (block_pos b (first_scan b) n - 6) by (unfold block_pos; lia). replace (data_pos b (first_scan b) - 2 + n * step_length b) with (block_pos b (first_scan b) n - 2) by (unfold block_pos; lia). rewrite !unpack_at by lia. cbn [bind].
    rewrite (mapM_all _ _ (read_row b (n * step_length b)) (map mk (scans b)) (map (fun k => (the_info b (info_pos b k), row b k n)) (scans b))); [reflexivity|].
    assert (H : forall k, In k (scans b) -> read_row b (n * step_length b) (mk k) = Ok (the_info b (info_pos b k), row b k n)).
    { intros k K. destruct (HI k K) as [I1 I2]. destruct (HR k n K ltac:(lia)) as (R1 & R2 & R3). apply read_row_at; try assumption; lia. }
    clear - H. induction (scans b) as [|k l IH]; [constructor|]. constructor; [apply H; left; reflexivity|apply IH; intros x X; apply H; right; exact X].
Qed.

(** * Times *)
Lemma sum_diffs : forall l a, sumZ (diffs (a :: l)) = last l a - a /\ List.length (diffs (a :: l)) = List.length l.
Proof.
  induction l as [|x l IH]; intro a; [split; [cbn; lia|reflexivity]|]. destruct (IH x) as [I1 I2]. change (diffs (a :: x :: l)) with ((x - a) :: diffs (x :: l)). cbn [sumZ List.length]. rewrite I1, I2. split; [|reflexivity].
  replace (last (x :: l) a) with (last l x); [lia|]. clear. destruct l as [|y l]; [reflexivity|]. change (last (x :: y :: l) a) with (last (y :: l) a). revert y. induction l as [|z l IH]; intro y; [reflexivity|]. apply (IH z).
Qed.
Lemma tick_time : forall b n, (time_of b (first_scan b) n == tick b n # 10000)%Q.
Proof. intros b n. unfold time_of, tick, Qplus, Qeq, inject_Z. cbn [Qnum Qden]. lia. Qed.
Lemma last_zseq : forall n a d, (n <> 0)%nat -> last (zseq a n) d = a + Z.of_nat n - 1.
Proof. induction n as [|n IH]; intros a d H; [congruence|]. cbn [zseq]. destruct n as [|n]; [cbn; lia|]. change (last (a :: zseq (a + 1) (S n)) d) with (last (zseq (a + 1) (S n)) d). rewrite IH by congruence. lia. Qed.
Lemma last_map : forall A B (f : A -> B) l d, last (map f l) (f d) = f (last l d).
Proof. intros A B f l d. induction l as [|x l IH]; [reflexivity|]. cbn [map]. destruct l as [|y l]; [reflexivity|]. cbn [map] in *. exact IH. Qed.
Lemma tail_default : forall A (l : list A) x d, last (x :: l) d = last l x.
Proof. intros A l. induction l as [|y l IH]; intros x d; [reflexivity|]. change (last (x :: y :: l) d) with (last (y :: l) d). rewrite (IH y d). symmetry. apply IH. Qed.
Lemma time_axis_ok : forall uniform b, 0 < steps b -> time_ok uniform b (time_axis_of uniform (map (tick b) (zseq 0 (Z.to_nat (steps b))))).
Proof.
  intros uniform b S0. unfold time_ok. destruct (steps b =? 1) eqn:S1; [apply Z.eqb_eq in S1; rewrite S1; reflexivity|]. apply Z.eqb_neq in S1.
  destruct (Z.to_nat (steps b)) as [|[|m]] eqn:N; [lia|lia|]. set (ts := map (tick b) (zseq 0 (S (S m)))).
  assert (TS : exists t1 r, ts = tick b 0 :: t1 :: r) by (eexists _, _; reflexivity). destruct TS as [t1 [r TS]].
  assert (LT : last ts (tick b 0) = tick b (steps b - 1)). { unfold ts. rewrite last_map, last_zseq by congruence. f_equal. lia. }
  assert (LEN : zlen ts = steps b) by (unfold zlen, ts; rewrite map_length, zseq_length; lia).
  unfold time_axis_of. rewrite TS. rewrite <- TS. eexists. split; [reflexivity|]. cbn [x_size x_scaling]. split; [exact LEN|]. destruct uniform.
  - eexists. split; [reflexivity|]. set (rel := map (fun t => t - tick b 0) ts). assert (SD : sumZ (diffs rel) = tick b (steps b - 1) - tick b 0 /\ zlen (diffs rel) = steps b - 1).
    { unfold rel. rewrite TS. cbn [map]. destruct (sum_diffs (t1 - tick b 0 :: map (fun t => t - tick b 0) r) (tick b 0 - tick b 0)) as [D1 D2]. unfold zlen. rewrite D1, D2. split.
      - rewrite <- (map_cons (fun t => t - tick b 0) t1 r). rewrite (last_map _ _ (fun t => t - tick b 0)). rewrite TS, tail_default in LT. rewrite LT. lia.
      - rewrite <- LEN, TS. unfold zlen. cbn [List.length]. rewrite map_length. lia. }
    destruct SD as [SD1 SD2]. unfold mean. rewrite SD1, SD2.
    assert (G : (gap b == ((tick b (steps b - 1) - tick b 0) # Z.to_pos (steps b - 1)) * (1 # 10000))%Q).
    { unfold gap. rewrite !tick_time. assert (P : inject_Z (steps b - 1) = inject_Z (Z.pos (Z.to_pos (steps b - 1)))) by (rewrite Z2Pos.id by lia; reflexivity). rewrite P. generalize (Z.to_pos (steps b - 1)). intro p. unfold Qdiv, Qinv, Qminus, Qplus, Qopp, Qmult, Qeq, inject_Z. cbn [Qnum Qden]. lia. }
    split; intro H.
    + rewrite G in H. destruct (Qle_bool _ 0) eqn:B; [|symmetry; exact G]. apply Qle_bool_iff in B. exfalso. apply (Qlt_not_le _ _ H B).
    + rewrite G in H. apply Qle_bool_iff in H. rewrite H. reflexivity.
  - eexists. split; [reflexivity|]. unfold ts. rewrite !map_map. generalize (zseq 0 (S (S m))). intro l. induction l as [|n l IH]; [constructor|]. cbn [map]. constructor; [|exact IH]. rewrite !tick_time. unfold seconds, Qminus, Qplus, Qopp, Qeq. cbn [Qnum Qden]. lia.
Qed.
Theorem C85_sac : forall uniform name b, sac_ok b -> 110 <= zlen b -> endswith (str ".sbc") (map lower name) = false ->
  exists l, file_reader uniform false name b = Ok l /\ Forall2 (trace_signal uniform b) (scans b) l.
Proof.
  intros uniform name b OK LB NM. unfold file_reader. rewrite read_general_at by exact LB. cbn [bind]. rewrite NM. eexists. split; [apply sac_read; [exact OK|reflexivity|reflexivity|reflexivity]|].
  pose proof OK as (T & TL & S0 & NE & F & HI & HF & HR). clear HF HR HI NE.
  assert (R1 : forall k : Z, (zlen (map (row b k) (zseq 0 (Z.to_nat (steps b)))) =? 1) = (steps b =? 1)) by (intro k; unfold zlen; rewrite map_length, zseq_length, Z2Nat.id by lia; reflexivity).
  assert (R2 : forall k : Z, zlen (map (row b k) (zseq 0 (Z.to_nat (steps b)))) = steps b) by (intro k; unfold zlen; rewrite map_length, zseq_length, Z2Nat.id by lia; reflexivity).
  assert (H : forall k, trace_signal uniform b k (sac_signal uniform (date_of_header {| g_second := at_ b 8 1; g_minute := at_ b 9 1; g_hour := at_ b 10 1; g_day := at_ b 11 1; g_month := at_ b 12 1; g_year := at_ b 13 1; g_steps := steps b; g_traces := traces b; g_length := step_length b |}) (map (tick b) (zseq 0 (Z.to_nat (steps b)))) (the_info b (info_pos b k)) (map (row b k) (zseq 0 (Z.to_nat (steps b)))))).
  { intro k. unfold trace_signal, sac_signal. rewrite R1, R2. cbn [s_shape s_data s_time s_mass s_quantity s_notes the_info i_width i_values i_xtitle i_xunit i_ytitle i_yunit i_comment i_mass]. split; [reflexivity|]. split; [symmetry; apply flat_map_concat_map|]. split; [apply time_axis_ok; exact S0|]. split; [|split].
    - repeat split; [eexists; split; [apply C85_text|]; unfold or_else; destruct (text_field b (info_pos b k + 29) 13); reflexivity|eexists; split; [apply C85_text|]; unfold or_else; destruct (text_field b (info_pos b k + 42) 13); reflexivity|].
      cbn [m_scale]. eexists. split; [reflexivity|]. fold (mass_count b k). fold (per_mass b k). fold (points b k). split; intro P.
      + replace (0 <? points b k) with true by lia. unfold Qmult, Qeq, inject_Z. cbn [Qnum Qden]. rewrite Pos.mul_1_r. rewrite Z2Pos.id by lia. unfold points in *. ring.
      + rewrite P. reflexivity.
    - eexists _, _. split; [apply C85_text|]. split; [apply C85_text|]. destruct (text_field b (info_pos b k + 2) 13); reflexivity.
    - eexists. split; [apply C85_text|]. destruct (text_field b (info_pos b k + 55) 59); reflexivity. }
  induction (scans b) as [|k l IH]; [constructor|]. constructor; [apply H|exact IH].
Qed.
(** A value above the full scale is replaced, one below is kept *)
Theorem C85_scale : forall e w q, -60 <= e <= 38 -> val32 w = Ok q -> in_scale e w = (if Qle_bool q (nearest (ten e)) then w else 2143289344).
Proof. intros e w q E V. unfold in_scale, full_scale. rewrite V. replace (38 <? e) with false by lia. replace (e <? -60) with false by lia. reflexivity. Qed.
(** Files without steps or traces, and files that end too early, are errors *)
Definition fails {A} (r : res A) : Prop := exists e, r = Err e.
Lemma mapM_fails : forall A B (g : A -> res B) l x, In x l -> fails (g x) -> fails (mapM g l).
Proof.
  intros A B g l x I [e E]. induction l as [|y l IH]; [destruct I|]. cbn [mapM]. destruct (g y) as [v|e'] eqn:Y; [|exists e'; reflexivity]. cbn [bind]. destruct I as [-> | I]; [congruence|]. destruct (IH I) as [e2 E2]. rewrite E2. exists e2. reflexivity.
Qed.
Theorem C85_no_steps : forall uniform name b, endswith (str ".sbc") (map lower name) = false -> steps b <= 0 -> fails (file_reader uniform false name b).
Proof.
  intros uniform name b NM H. unfold file_reader. destruct (110 <=? zlen b) eqn:L.
  2:{ exists ValueError. unfold read_general, frombuffer. replace (zlen b <? 0) with false by (unfold zlen; lia). change (1 <? 0) with false. cbn [orb]. replace (0 <? 0) with false by lia. cbn [orb]. replace (zlen b - 0 <? 1 * 110) with true by lia. reflexivity. }
  rewrite read_general_at by lia. cbn [bind]. rewrite NM. unfold read_sac. cbn [g_traces g_steps g_length]. destruct (read_traces b (traces b)) as [ts|e]; [|exists e; reflexivity]. cbn [bind]. destruct (filter _ ts) as [|first rest]; [exists ValueError; reflexivity|]. destruct (unpack 4 b 194) as [|e]; [|exists e; reflexivity]. destruct (unpack 2 b 198) as [|e]; [|exists e; reflexivity]. cbn [bind]. replace (Z.to_nat (steps b)) with 0%nat by lia. exists ValueError. reflexivity.
Qed.
Theorem C85_no_scan : forall uniform name b, endswith (str ".sbc") (map lower name) = false -> 0 <= traces b -> scans b = [] -> fails (file_reader uniform false name b).
Proof.
  intros uniform name b NM T H. unfold file_reader. destruct (110 <=? zlen b) eqn:L.
  2:{ exists ValueError. unfold read_general, frombuffer. replace (zlen b <? 0) with false by (unfold zlen; lia). change (1 <? 0) with false. cbn [orb]. replace (0 <? 0) with false by lia. cbn [orb]. replace (zlen b - 0 <? 1 * 110) with true by lia. reflexivity. }
  rewrite read_general_at by lia. cbn [bind]. rewrite NM. unfold read_sac. cbn [g_traces g_steps g_length]. destruct (200 + 9 * traces b <=? zlen b) eqn:TL.
  + rewrite read_traces_at by lia. cbn [bind]. rewrite scans_map, H. exists ValueError. reflexivity.
  + exists ValueError. unfold read_traces, frombuffer. replace (200 <? 0) with false by lia. cbn [orb]. destruct (zlen b <? 200); [reflexivity|]. replace (traces b <? 0) with false by lia. replace (zlen b - 200 <? traces b * 9) with true by lia. reflexivity.
Qed.
Theorem C85_cut : forall uniform name b k n, Forall (fun x => 0 <= x < 256) b -> endswith (str ".sbc") (map lower name) = false -> 0 <= traces b -> In k (scans b) -> 0 <= n < steps b -> 0 <= info_pos b k -> info_pos b k + 137 <= zlen b ->
  zlen b < block_pos b k n + 6 + 4 * points b k -> fails (file_reader uniform false name b).
Proof.
  intros uniform name b k n F NM T K N I1 I2 C. unfold file_reader. rewrite read_general_at by lia. cbn [bind]. rewrite NM. unfold read_sac. cbn [g_traces g_steps g_length]. destruct (200 + 9 * traces b <=? zlen b) eqn:TL.
  2:{ exists ValueError. unfold read_traces, frombuffer. replace (200 <? 0) with false by lia. cbn [orb]. destruct (zlen b <? 200); [reflexivity|]. replace (traces b <? 0) with false by lia. replace (zlen b - 200 <? traces b * 9) with true by lia. reflexivity. }
  rewrite read_traces_at by lia. cbn [bind]. rewrite scans_map. set (mk := fun k => {| t_type := at_ b (200 + 9 * k) 1; t_info := info_pos b k; t_data := data_pos b k |}). destruct (map mk (scans b)) as [|first rest] eqn:M; [exists ValueError; reflexivity|]. rewrite <- M. destruct (unpack 4 b 194) as [|e]; [|exists e; reflexivity]. destruct (unpack 2 b 198) as [|e]; [|exists e; reflexivity]. cbn [bind].
  match goal with |- fails (bind (mapM ?G ?L) _) => assert (FM : fails (mapM G L)) end.
  { apply (mapM_fails _ _ _ _ n); [apply in_zseq; lia|]. destruct (unpack 4 b _) as [|e]; [|exists e; reflexivity]. destruct (unpack 2 b _) as [|e]; [|exists e; reflexivity]. cbn [bind].
    assert (FR : fails (mapM (read_row b (n * step_length b)) (map mk (scans b)))); [|destruct FR as [e E]; rewrite E; exists e; reflexivity].
    apply (mapM_fails _ _ _ _ (mk k)); [apply in_map; exact K|]. unfold read_row. cbn [t_info t_data mk]. rewrite read_info_at by assumption. cbn [bind i_width i_values the_info]. fold (mass_count b k). fold (per_mass b k). fold (points b k). fold (block_pos b k n).
    destruct (unpack 2 b (block_pos b k n + 4)) as [ex|e]; [|exists e; reflexivity]. cbn [bind]. destruct (limit_word (signed 2 ex)) as [li|e]; [|exists e; reflexivity]. cbn [bind]. exists ValueError.
    assert (PP : 0 <= points b k). { unfold points, mass_count, per_mass. pose proof (at_range b (info_pos b k + 126) 2 F). pose proof (at_range b (info_pos b k + 128) 1 F). nia. }
    unfold frombuffer. destruct ((block_pos b k n + 6 <? 0) || (zlen b <? block_pos b k n + 6)); [reflexivity|]. replace (points b k <? 0) with false by lia. replace (zlen b - (block_pos b k n + 6) <? points b k * 4) with true by lia. reflexivity. }
  destruct FM as [e E]. rewrite E. exists e. reflexivity.
Qed.
(** A text with something behind its first zero is not cut there *)
Theorem C85_zero_refuted : text_field (str "ab" ++ [0] ++ str "cd" ++ repeat 0 8) 0 13 = str "ab" ++ [0] ++ str "cd".
Proof. reflexivity. Qed.
(** Example: two traces of which one is a scan, two steps, two masses with one value each *)
Definition word32 (n : Z) : list Z := le 4 n.
Definition demo_info : list Z := le 2 1 ++ (str "Ion Current" ++ repeat 0 2) ++ (str " A " ++ repeat 0 10) ++ [0] ++ repeat 0 13 ++ (str "amu" ++ repeat 0 10) ++ repeat 0 59 ++ le 4 0 ++ le 4 0 ++ le 4 (130 * 2 ^ 23) ++ le 2 2 ++ [1] ++ le 4 0 ++ le 4 0.
Definition demo_step (s ms e a c : Z) : list Z := le 4 s ++ le 2 ms ++ le 4 0 ++ le 2 e ++ le 4 a ++ le 4 c.
Definition demo_sac : list Z :=
  le 2 0 ++ le 4 0 ++ [1; 2; 30; 15; 8; 29; 2; 124] ++ repeat 0 86 ++ le 4 2 ++ le 2 2 ++ le 4 20 ++ repeat 0 84 ++ le 4 1000 ++ le 2 5000 ++ [16] ++ le 4 0 ++ le 4 0 ++ [17] ++ le 4 218 ++ le 4 361 ++ demo_info ++
  demo_step 0 0 2 (127 * 2 ^ 23) (134 * 2 ^ 23) ++ demo_step 3 2500 65535 (127 * 2 ^ 23) (120 * 2 ^ 23).
Example C85_demo_ok : sac_ok demo_sac.
Proof.
  assert (S : scans demo_sac = [1]) by (vm_compute; reflexivity). unfold sac_ok. rewrite S. split; [vm_compute; congruence|]. split; [vm_compute; congruence|]. split; [vm_compute; reflexivity|]. split; [discriminate|]. split.
  { apply Forall_forall. assert (C : forallb (fun x => (0 <=? x) && (x <? 256)) demo_sac = true) by (vm_compute; reflexivity). rewrite forallb_forall in C. intros x X. apply C in X. lia. }
  split; [intros k [<-|[]]; vm_compute; split; congruence|]. change (steps demo_sac) with 2. split.
  - intros n N. cbn [hd]. assert (n = 0 \/ n = 1) as [-> | ->] by lia; vm_compute; congruence.
  - intros k n [<-|[]] N. assert (n = 0 \/ n = 1) as [-> | ->] by lia; vm_compute; repeat split; congruence.
Qed.
(** 128 is above 100, 1 is above 0.1 *)
Example C85_demo : exists s, file_reader true false (str "a.SAC") demo_sac = Ok [s] /\ s_shape s = [2; 2] /\ s_data s = [127 * 2 ^ 23; nan_word; nan_word; 120 * 2 ^ 23] /\ s_quantity s = str "Ion Current (A)" /\ s_date s = Some (str "2024-02-29", str "08:15:30") /\
  m_name (s_mass s) = str "Mass-to-charge ratio" /\ m_units (s_mass s) = str "amu" /\ match s_time s with Some {| x_size := 2; x_scaling := Step o g |} => Qeq_bool o 0 && Qeq_bool g (325 # 100) | _ => false end = true.
Proof. eexists. vm_compute. repeat split; reflexivity. Qed.

Print Assumptions C85_text.
Print Assumptions C85_sac.
Print Assumptions C85_scale.
Print Assumptions C85_no_steps.
Print Assumptions C85_no_scan.
Print Assumptions C85_cut.
Print Assumptions C85_zero_refuted.
