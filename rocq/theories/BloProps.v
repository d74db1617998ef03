(** Blockfiles: C16, C17, C18. *)
From Verif Require Import Base Text Bytes BloModel.

(** * Specification: a header and a signal that fit the format *)
Definition header_ok (h : hdr) : Prop :=
  240 <= h_off1 h < 2 ^ 32 /\ 0 <= h_off2 h < 2 ^ 32 /\ 0 <= h_unknown h < 2 ^ 32 /\ 0 <= h_dp h < 2 ^ 16 /\ 0 <= h_dprot h < 2 ^ 16 /\
  0 <= h_nx h < 2 ^ 16 /\ 0 <= h_ny h < 2 ^ 16 /\
  0 <= h_rot h < 2 ^ 16 /\ List.length (h_sx h) = 8%nat /\ List.length (h_sy h) = 8%nat /\
  0 <= h_beam h < 2 ^ 32 /\ 0 <= h_sdp h < 2 ^ 16 /\ 0 <= h_cam h < 2 ^ 32 /\
  List.length (h_acq h) = 8%nat /\ List.length (h_rest h) = 176%nat.

(** A note without a NUL at either end (NUL is the padding). *)
Definition note_ok (note : list Z) : Prop := hd 1 note <> 0 /\ last note 1 <> 0.

(** [ny * nx] frames of [dp * dp] pixels. *)
Definition stack_ok (ny nx dp : Z) (frames : list (list Z)) : Prop :=
  List.length frames = Z.to_nat (ny * nx) /\ Forall (fun fr => List.length fr = Z.to_nat (dp * dp)) frames.

(** * Header *)
Ltac field :=
  repeat (rewrite slice_skip by (rewrite ?app_length, ?enc_length; cbn [List.length str]; lia);
          rewrite ?enc_length; cbn [Nat.sub List.length str]).

Lemma hdr_bytes_length : forall big h, header_ok h -> List.length (hdr_bytes big h) = 240%nat.
Proof.
  intros big h (H1 & H2 & H3 & H4 & H5 & H6 & H6' & H7 & H8 & H9 & H10 & H11 & H12 & H13 & H14).
  unfold hdr_bytes. rewrite !app_length, !enc_length, H8, H9, H13, H14. reflexivity.
Qed.

Lemma hdr_eq : forall a1 b1 a2 b2 a3 b3 a4 b4 a5 b5 a6 b6 a7 b7 a8 b8 a9 b9 a10 b10 a11 b11 a12 b12 a13 b13 a14 b14 a15 b15,
  a1 = b1 -> a2 = b2 -> a3 = b3 -> a4 = b4 -> a5 = b5 -> a6 = b6 -> a7 = b7 -> a8 = b8 -> a9 = b9 -> a10 = b10 ->
  a11 = b11 -> a12 = b12 -> a13 = b13 -> a14 = b14 -> a15 = b15 ->
  Build_hdr a1 a2 a3 a4 a5 a6 a7 a8 a9 a10 a11 a12 a13 a14 a15 = Build_hdr b1 b2 b3 b4 b5 b6 b7 b8 b9 b10 b11 b12 b13 b14 b15.
Proof. intros; subst; reflexivity. Qed.

Lemma parse_hdr_bytes : forall big h rest, header_ok h -> parse_hdr big (hdr_bytes big h ++ rest) = Ok h.
Proof.
  intros big h rest Hok. pose proof (hdr_bytes_length big h Hok) as HL.
  unfold parse_hdr, hdr_size. rewrite app_length, HL.
  destruct (240 + List.length rest <? 240)%nat eqn:E; [lia|].
  destruct Hok as (H1 & H2 & H3 & H4 & H5 & H6 & H6' & H7 & H8 & H9 & H10 & H11 & H12 & H13 & H14).
  unfold hdr_bytes. rewrite <- !app_assoc. cbv zeta.
  change (str "IMGBLO") with [73; 77; 71; 66; 76; 79].
  destruct h as [o1 o2 un dp dpr nx ny rot sx sy bm sdp cam acq rst]; cbn [h_off1 h_off2 h_unknown h_dp h_dprot h_nx h_ny h_rot h_sx h_sy h_beam h_sdp h_cam h_acq h_rest] in *.
  apply (f_equal Ok). apply hdr_eq.
  all: repeat (rewrite slice_skip by (rewrite ?enc_length, ?H8, ?H9, ?H13, ?H14; cbn [List.length]; lia);
          rewrite ?enc_length, ?H8, ?H9, ?H13, ?H14; cbn [Nat.sub List.length]).
  all: rewrite slice_here by (rewrite ?enc_length; auto); try reflexivity.
  all: apply dec_enc; try change (256 ^ Z.of_nat 4) with (2 ^ 32); try change (256 ^ Z.of_nat 2) with (2 ^ 16); lia.
Qed.

(** * Frames *)
Fixpoint rec_list (big : bool) (i : Z) (frames : list (list Z)) : list (list Z) :=
  match frames with [] => [] | fr :: fs => frame_record big i fr :: rec_list big (i + 1) fs end.
Lemma frame_records_concat : forall big frames i, frame_records big i frames = List.concat (rec_list big i frames).
Proof. induction frames as [|fr fs IH]; intros i; cbn; [reflexivity|]. rewrite IH. reflexivity. Qed.
Lemma rec_list_length : forall big frames i, List.length (rec_list big i frames) = List.length frames.
Proof. induction frames as [|fr fs IH]; intros i; cbn; [reflexivity|]. rewrite IH. reflexivity. Qed.
Lemma rec_list_each : forall big px frames i, Forall (fun fr => List.length fr = px) frames ->
  Forall (fun r => List.length r = (6 + px)%nat) (rec_list big i frames).
Proof.
  induction frames as [|fr fs IH]; intros i H; cbn; constructor; inversion H; subst; auto.
  unfold frame_record. rewrite !app_length, !enc_length. reflexivity.
Qed.
Lemma rec_list_skip : forall big frames i, map (skipn 6) (rec_list big i frames) = frames.
Proof.
  induction frames as [|fr fs IH]; intros i; cbn [rec_list map]; [reflexivity|]. rewrite IH. f_equal.
  unfold frame_record. rewrite app_assoc. apply skipn_app_exact. rewrite app_length, !enc_length. reflexivity.
Qed.

(** Whole records of a truncated concatenation. *)
Lemma records_prefix : forall (rl : list (list Z)) fs j, Forall (fun r => List.length r = fs) rl -> (fs > 0)%nat ->
  let body := firstn j (List.concat rl) in let k := (List.length body / fs)%nat in
  records k fs body = firstn k rl /\ (k <= List.length rl)%nat /\
  k = Nat.min (j / fs) (List.length rl).
Proof.
  intros rl fs j H Hfs body k.
  assert (HL : List.length (List.concat rl) = (List.length rl * fs)%nat) by (apply concat_length_const; exact H).
  assert (Hk : k = Nat.min (j / fs) (List.length rl)).
  { unfold k, body. rewrite firstn_length, HL.
    destruct (Nat.min_spec j (List.length rl * fs)) as [[A ->]|[A ->]].
    - assert (j / fs < List.length rl)%nat by (apply Nat.div_lt_upper_bound; lia). lia.
    - rewrite Nat.div_mul by lia. assert (List.length rl <= j / fs)%nat by (apply Nat.div_le_lower_bound; lia). lia. }
  assert (Hle : (k <= List.length rl)%nat) by lia.
  split; [|split; assumption].
  assert (Hkj : (k * fs <= j)%nat).
  { assert (k <= j / fs)%nat by lia. pose proof (Nat.mul_div_le j fs ltac:(lia)). nia. }
  assert (Hc : List.length (List.concat (firstn k rl)) = (k * fs)%nat).
  { rewrite (concat_length_const _ fs); [rewrite firstn_length_le by exact Hle; reflexivity|].
    rewrite Forall_forall in *. intros r Hr. apply H. rewrite <- (firstn_skipn k rl). apply in_or_app. auto. }
  assert (Hb : body = List.concat (firstn k rl) ++ firstn (j - k * fs) (List.concat (skipn k rl))).
  { unfold body. rewrite <- (firstn_skipn k rl) at 1. rewrite concat_app, firstn_app, Hc.
    f_equal. apply firstn_all2. lia. }
  rewrite Hb.
  assert (Hkl : k = List.length (firstn k rl)) by (rewrite firstn_length_le; auto).
  rewrite Hkl at 1. apply records_concat.
  rewrite Forall_forall in *. intros r Hr. apply H. rewrite <- (firstn_skipn k rl). apply in_or_app. auto.
Qed.

(** * The written file *)
Definition final_hdr (h0 : hdr) (nx ny dp : Z) (sx sy : list Z) (sdp : Z) : hdr :=
  {| h_off1 := h_off1 h0; h_off2 := data_offset nx ny (h_off1 h0); h_unknown := h_unknown h0; h_dp := dp; h_dprot := h_dprot h0;
     h_nx := nx; h_ny := ny; h_rot := h_rot h0; h_sx := sx; h_sy := sy; h_beam := h_beam h0; h_sdp := sdp;
     h_cam := h_cam h0; h_acq := h_acq h0; h_rest := h_rest h0 |}.

(** What is asked of the inputs of the writer. *)
Definition inputs_ok (h0 : hdr) (ny nx dp : Z) (sx sy : list Z) (sdp : Z) (note vbf : list Z) (frames : list (list Z)) : Prop :=
  header_ok h0 /\ 0 <= ny < 65536 /\ 0 <= nx < 65536 /\ 0 <= dp < 65536 /\ 0 <= sdp < 65536 /\
  List.length sx = 8%nat /\ List.length sy = 8%nat /\
  nx * ny + h_off1 h0 + 15 < 2 ^ 32 /\
  Z.of_nat (List.length note) <= h_off1 h0 - 240 /\ note_ok note /\
  List.length vbf = Z.to_nat (ny * nx) /\ stack_ok ny nx dp frames.

Lemma offset_bounds : forall nx ny off1, nx * ny + off1 <= data_offset nx ny off1 <= nx * ny + off1 + 15.
Proof. intros. unfold data_offset. lia. Qed.

Lemma write_layout : forall big h0 ny nx dp sx sy sdp note vbf frames,
  inputs_ok h0 ny nx dp sx sy sdp note vbf frames ->
  exists pad1 pad2, let h := final_hdr h0 nx ny dp sx sy sdp in
    blo_write big h0 [ny; nx] [dp; dp] sx sy sdp note vbf frames =
      Ok (hdr_bytes false h ++ note ++ repeat 0 pad1 ++ vbf ++ repeat 0 pad2 ++ frame_records big 0 frames) /\
    header_ok h /\ (240 + List.length note + pad1 = Z.to_nat (h_off1 h))%nat /\
    (Z.to_nat (h_off1 h) + List.length vbf + pad2 = Z.to_nat (h_off2 h))%nat.
Proof.
  intros big h0 ny nx dp sx sy sdp note vbf frames (Hh & Hny & Hnx & Hdp & Hsdp & Hsx & Hsy & Hoff & Hnote & Hn & Hv & Hs).
  pose proof (offset_bounds nx ny (h_off1 h0)) as Ho.
  assert (Hprod : 0 <= nx * ny) by nia.
  assert (Hvl : Z.of_nat (List.length vbf) = nx * ny) by (rewrite Hv; lia).
  destruct Hh as (H1 & H2 & H3 & H4 & H5 & H6 & H6' & H7 & H8 & H9 & H10 & H11 & H12 & H13 & H14).
  exists (Z.to_nat (h_off1 h0 - 240 - Z.of_nat (List.length note))),
         (Z.to_nat (data_offset nx ny (h_off1 h0) - (h_off1 h0 + Z.of_nat (List.length vbf)))).
  cbv zeta. split; [|split; [|split]].
  - unfold blo_write, header_from_signal. cbn [bind]. rewrite Z.eqb_refl. cbn [bind].
    destruct ((nx <? 65536) && (ny <? 65536) && (dp <? 65536) && (data_offset nx ny (h_off1 h0) <? 2 ^ 32) && (0 <=? sdp) && (sdp <? 65536)) eqn:E;
      [|exfalso; lia].
    cbn [bind h_off1 h_off2]. unfold hdr_size.
    destruct (h_off1 h0 - Z.of_nat 240 <? Z.of_nat (List.length note)) eqn:E1; [lia|].
    unfold zeros. destruct (h_off1 h0 - Z.of_nat 240 - Z.of_nat (List.length note) <? 0) eqn:E2; [lia|]. cbn [bind].
    destruct (data_offset nx ny (h_off1 h0) <? h_off1 h0 + Z.of_nat (List.length vbf)) eqn:E3; [lia|].
    destruct (data_offset nx ny (h_off1 h0) - (h_off1 h0 + Z.of_nat (List.length vbf)) <? 0) eqn:E4; [lia|]. cbn [bind].
    reflexivity.
  - unfold header_ok, final_hdr; cbn [h_off1 h_off2 h_unknown h_dp h_dprot h_nx h_ny h_rot h_sx h_sy h_beam h_sdp h_cam h_acq h_rest].
    repeat match goal with |- _ /\ _ => split end; auto; lia.
  - cbn [final_hdr h_off1]. lia.
  - cbn [final_hdr h_off1 h_off2]. lia.
Qed.

Lemma lstrip0_zeros : forall n (s : list Z), lstrip0 (repeat 0 n ++ s) = lstrip0 s.
Proof. induction n as [|n IH]; intros s; cbn; [reflexivity|]. apply IH. Qed.
Lemma lstrip0_id : forall s : list Z, hd 1 s <> 0 -> lstrip0 s = s.
Proof. intros [|c s] H; cbn in *; [reflexivity|]. destruct c; [lia|reflexivity|reflexivity]. Qed.
Lemma rev_repeat : forall A (x : A) n, rev (repeat x n) = repeat x n.
Proof.
  induction n as [|n IH]; cbn; [reflexivity|]. rewrite IH. clear. induction n as [|n IH]; cbn; [reflexivity|]. rewrite IH. reflexivity.
Qed.
Lemma hd_rev : forall (s : list Z) d, hd d (rev s) = last s d.
Proof.
  induction s as [|c s IH]; intros d; [reflexivity|]. cbn [rev]. destruct s as [|c' s].
  - reflexivity.
  - change (last (c :: c' :: s) d) with (last (c' :: s) d). rewrite <- IH. destruct (rev (c' :: s)) eqn:E; [|reflexivity].
    apply (f_equal (@List.length Z)) in E. rewrite rev_length in E. discriminate.
Qed.
Lemma strip0_note : forall note n, note_ok note -> strip0 (note ++ repeat 0 n) = note.
Proof.
  intros note n [H1 H2]. unfold strip0. destruct note as [|c note].
  - cbn [app]. rewrite <- (app_nil_r (repeat 0 n)), lstrip0_zeros. reflexivity.
  - rewrite (lstrip0_id ((c :: note) ++ _)) by exact H1. rewrite rev_app_distr, rev_repeat, lstrip0_zeros.
    rewrite lstrip0_id; [apply rev_involutive|]. rewrite hd_rev. exact H2.
Qed.

(** Reading the first [m] bytes of a written file. *)
Lemma read_written : forall h0 ny nx dp sx sy sdp note vbf frames m,
  inputs_ok h0 ny nx dp sx sy sdp note vbf frames -> (240 <= m)%nat ->
  exists f n, blo_write false h0 [ny; nx] [dp; dp] sx sy sdp note vbf frames = Ok f /\
    let px := Z.to_nat (dp * dp) in
    let o2 := Z.to_nat (data_offset nx ny (h_off1 h0)) in
    let k := Nat.min ((m - o2) / (6 + px)) (List.length frames) in
    List.length f = (o2 + List.length frames * (6 + px))%nat /\
    blo_read false (firstn m f) =
      Ok {| s_shape := squeeze [ny; nx; dp; dp];
            s_data := List.concat (firstn k frames) ++ repeat 0 ((List.length frames - k) * px);
            s_axes := axes_of (squeeze [ny; nx; dp; dp]); s_note := n |} /\
    ((Z.to_nat (h_off1 h0) <= m)%nat -> n = note) /\
    ((o2 + List.length frames * (6 + px) <= m)%nat ->
     blo_read_lazy false (firstn m f) =
      Ok {| s_shape := [ny; nx; dp; dp]; s_data := List.concat frames; s_axes := axes_of [ny; nx; dp; dp]; s_note := note |}).
Proof.
  intros h0 ny nx dp sx sy sdp note vbf frames m Hin Hm.
  destruct (write_layout false _ _ _ _ _ _ _ _ _ _ Hin) as [pad1 [pad2 [Ew [Hh [Hp1 Hp2]]]]].
  destruct Hin as (Hh0 & Hny & Hnx & Hdp & Hsdp & Hsx & Hsy & Hoff & Hnote & Hn & Hv & [Hs1 Hs2]).
  set (h := final_hdr h0 nx ny dp sx sy sdp) in *.
  set (f := hdr_bytes false h ++ note ++ repeat 0 pad1 ++ vbf ++ repeat 0 pad2 ++ frame_records false 0 frames) in *.
  assert (HL := hdr_bytes_length false h Hh).
  change (h_off1 h) with (h_off1 h0) in Hp1, Hp2. change (h_off2 h) with (data_offset nx ny (h_off1 h0)) in Hp2.
  set (o2 := Z.to_nat (data_offset nx ny (h_off1 h0))) in *.
  set (px := Z.to_nat (dp * dp)) in *.
  set (rl := rec_list false 0 frames).
  assert (Hrl : Forall (fun r => List.length r = (6 + px)%nat) rl) by (apply rec_list_each; exact Hs2).
  assert (Hrn : List.length rl = List.length frames) by apply rec_list_length.
  (* parts of the file *)
  assert (Hf1 : f = (hdr_bytes false h ++ note ++ repeat 0 pad1 ++ vbf ++ repeat 0 pad2) ++ List.concat rl).
  { unfold f, rl. rewrite frame_records_concat, <- !app_assoc. reflexivity. }
  assert (Hpre : List.length (hdr_bytes false h ++ note ++ repeat 0 pad1 ++ vbf ++ repeat 0 pad2) = o2).
  { rewrite !app_length, !repeat_length, HL. lia. }
  set (pre := hdr_bytes false h ++ note ++ repeat 0 pad1 ++ vbf ++ repeat 0 pad2) in *.
  assert (Hflen : List.length f = (o2 + List.length frames * (6 + px))%nat).
  { rewrite Hf1, app_length, Hpre, (concat_length_const _ (6 + px)%nat) by exact Hrl. lia. }
  exists f, (strip0 (read_note h (firstn m f))). split; [exact Ew|]. cbv zeta. split; [exact Hflen|].
  assert (Hparse : parse_hdr false (firstn m f) = Ok h).
  { unfold f. rewrite firstn_app, HL. rewrite firstn_all2 by lia. apply parse_hdr_bytes. exact Hh. }
  assert (Hbody : skipn o2 (firstn m f) = firstn (m - o2) (List.concat rl)).
  { rewrite Hf1, firstn_app, Hpre. destruct (le_lt_dec m o2) as [K|K].
    - replace (m - o2)%nat with 0%nat by lia. cbn [firstn]. rewrite app_nil_r.
      apply skipn_all2. rewrite firstn_length. lia.
    - rewrite (firstn_all2 pre) by lia. apply skipn_app_exact. exact Hpre. }
  destruct (records_prefix rl (6 + px) (m - o2) Hrl ltac:(lia)) as [Hrec [Hk1 Hk2]].
  rewrite Hrn in Hk1, Hk2.
  set (k := (List.length (firstn (m - o2) (List.concat rl)) / (6 + px))%nat) in *.
  rewrite <- Hk2.
  assert (Hnote' : (Z.to_nat (h_off1 h0) <= m)%nat -> strip0 (read_note h (firstn m f)) = note).
  { intro K. unfold read_note, hdr_size. change (h_off1 h) with (h_off1 h0).
    destruct (h_off1 h0 - Z.of_nat 240 <? 0) eqn:E; [destruct Hh0; lia|].
    assert (En : slice 240 (Z.to_nat (h_off1 h0 - Z.of_nat 240)) (firstn m f) = note ++ repeat 0 pad1).
    { unfold f. rewrite firstn_app, HL. rewrite (firstn_all2 (hdr_bytes false h)) by (clear - HL Hm; lia).
      unfold slice. rewrite skipn_app_exact by exact HL. rewrite firstn_firstn. rewrite Nat.min_l by (clear - K; lia).
      rewrite app_assoc. apply firstn_app_exact. rewrite app_length, repeat_length. clear - Hp1. lia. }
    rewrite En. apply strip0_note. exact Hn. }
  split; [|split].
  - unfold blo_read. rewrite Hparse. cbn [bind].
    change (h_dp h) with dp. change (h_off2 h) with (data_offset nx ny (h_off1 h0)).
    change (h_ny h) with ny. change (h_nx h) with nx. rewrite skipz_skipn. fold px. fold o2. cbv zeta. rewrite Hbody. fold k.
    rewrite Hrec. rewrite <- Hs1.
    assert (Hdata : map (skipn 6) (firstn k rl) = firstn k frames).
    { rewrite <- firstn_map. unfold rl. rewrite rec_list_skip. reflexivity. }
    rewrite Hdata.
    destruct (k * px =? List.length frames * px)%nat eqn:E.
    + assert (Z0 : repeat 0 ((List.length frames - k) * px) = []).
      { rewrite Nat.mul_sub_distr_r. apply Nat.eqb_eq in E. rewrite E, Nat.sub_diag. reflexivity. }
      rewrite Z0, app_nil_r. reflexivity.
    + destruct (List.length frames <? k)%nat eqn:E2; [lia|].
      rewrite concat_app.
      assert (R : List.concat (repeat (repeat 0 px) (List.length frames - k)) = repeat 0 ((List.length frames - k) * px)).
      { induction (List.length frames - k)%nat as [|q IH]; cbn [repeat List.concat Nat.mul]; [reflexivity|].
        rewrite IH. symmetry. apply repeat_app. }
      rewrite R. reflexivity.
  - exact Hnote'.
  - intros K. unfold blo_read_lazy. rewrite Hparse. cbn [bind].
    change (h_dp h) with dp. change (h_off2 h) with (data_offset nx ny (h_off1 h0)).
    change (h_ny h) with ny. change (h_nx h) with nx. rewrite skipz_skipn. fold px. fold o2. cbv zeta. rewrite Hbody. rewrite <- Hs1.
    assert (Hfull : firstn (m - o2) (List.concat rl) = List.concat rl).
    { apply firstn_all2. rewrite (concat_length_const _ (6 + px)%nat) by exact Hrl. lia. }
    rewrite Hfull. rewrite (concat_length_const _ (6 + px)%nat) by exact Hrl. rewrite Hrn.
    assert (E : (Z.of_nat (List.length frames * (6 + px)) <? ny * nx * (6 + dp * dp)) = false).
    { assert (0 <= ny * nx) by (apply Z.mul_nonneg_nonneg; apply Hny || apply Hnx). assert (0 <= dp * dp) by (apply Z.mul_nonneg_nonneg; apply Hdp). rewrite Hs1. apply Z.ltb_ge. unfold px. rewrite Nat2Z.inj_mul, Nat2Z.inj_add, !Z2Nat.id by assumption. reflexivity. }
    rewrite E.
    rewrite <- Hrn. rewrite <- (app_nil_r (List.concat rl)). rewrite records_concat by exact Hrl.
    unfold rl. rewrite rec_list_skip. rewrite Hnote' by (clear - K Hp2; lia). reflexivity.
Qed.

(** * C16: data round trip *)
Theorem C16_blockfile_round_trip : forall h0 ny nx dp sx sy sdp note vbf frames,
  inputs_ok h0 ny nx dp sx sy sdp note vbf frames ->
  exists f, blo_write false h0 [ny; nx] [dp; dp] sx sy sdp note vbf frames = Ok f /\
    (exists s, blo_read false f = Ok s /\ s_shape s = filter (fun n => negb (n =? 1)) [ny; nx; dp; dp] /\
       s_data s = List.concat frames /\ s_note s = note /\
       (ny <> 1 -> nx <> 1 -> dp <> 1 -> map (fun a => (a_size a, a_navigate a)) (s_axes s) =
          [(ny, true); (nx, true); (dp, false); (dp, false)])) /\
    (exists s, blo_read_lazy false f = Ok s /\ s_shape s = [ny; nx; dp; dp] /\ s_data s = List.concat frames /\
       s_note s = note /\ map (fun a => (a_size a, a_navigate a)) (s_axes s) =
          [(ny, true); (nx, true); (dp, false); (dp, false)]).
Proof.
  intros h0 ny nx dp sx sy sdp note vbf frames Hin.
  assert (Ho1 : 240 <= h_off1 h0) by apply Hin.
  assert (Hn : 0 <= ny /\ 0 <= nx) by (destruct Hin as (_ & A & B & _); lia).
  pose proof (offset_bounds nx ny (h_off1 h0)) as Hob.
  set (o2 := Z.to_nat (data_offset nx ny (h_off1 h0))).
  set (L := (o2 + List.length frames * (6 + Z.to_nat (dp * dp)))%nat).
  assert (Ho2 : (Z.to_nat (h_off1 h0) <= o2)%nat) by (unfold o2; nia).
  destruct (read_written h0 ny nx dp sx sy sdp note vbf frames L Hin ltac:(unfold L; lia)) as [f [n [Ew H]]].
  cbv zeta in H. fold o2 in H. fold L in H. destruct H as [Hl [Hr [Hnote Hlazy]]].
  exists f. split; [exact Ew|]. rewrite <- Hl in Hr, Hlazy. rewrite firstn_all in Hr, Hlazy.
  assert (K : ((List.length f - o2) / (6 + Z.to_nat (dp * dp)) = List.length frames)%nat).
  { rewrite Hl. unfold L. replace (o2 + List.length frames * (6 + Z.to_nat (dp * dp)) - o2)%nat with (List.length frames * (6 + Z.to_nat (dp * dp)))%nat by lia.
    apply Nat.div_mul. lia. }
  rewrite K, Nat.min_id, firstn_all, Nat.sub_diag in Hr. cbn [Nat.mul repeat] in Hr. rewrite app_nil_r in Hr.
  split.
  - eexists. split; [exact Hr|]. cbn [s_shape s_data s_note s_axes]. split; [reflexivity|]. split; [reflexivity|].
    split; [apply Hnote; unfold L; lia|]. intros A B C. unfold squeeze, axes_of.
    cbn [filter]. assert (E1 : negb (ny =? 1) = true) by lia. assert (E2 : negb (nx =? 1) = true) by lia. assert (E3 : negb (dp =? 1) = true) by lia.
    rewrite E1, E2, E3. reflexivity.
  - eexists. split; [apply Hlazy; lia|]. cbn [s_shape s_data s_note s_axes]. repeat split; reflexivity.
Qed.
Print Assumptions C16_blockfile_round_trip.

(** A note that is too long is cut to the space before the first offset; nothing else
    changes, so the theorem above covers these files too. *)
Theorem C16_long_note : forall big h0 nav sig sx sy sdp note vbf frames,
  240 <= h_off1 h0 -> h_off1 h0 - 240 < Z.of_nat (List.length note) ->
  blo_write big h0 nav sig sx sy sdp note vbf frames =
  blo_write big h0 nav sig sx sy sdp (firstn (Z.to_nat (h_off1 h0 - 240)) note) vbf frames.
Proof.
  intros big h0 nav sig sx sy sdp note vbf frames H0 Hn. unfold blo_write.
  destruct (header_from_signal h0 nav sig sx sy sdp) as [h|e] eqn:E; cbn [bind]; [|reflexivity].
  assert (Eo : h_off1 h = h_off1 h0).
  { unfold header_from_signal in E. repeat match type of E with
      | context [match ?x with _ => _ end] => destruct x; cbn [bind] in E; try discriminate E end;
    injection E as <-; reflexivity. }
  rewrite Eo. unfold hdr_size. change (Z.of_nat 240) with 240.
  rewrite (proj2 (Z.ltb_lt (h_off1 h0 - 240) (Z.of_nat (List.length note))) Hn).
  assert (L : Z.of_nat (List.length (firstn (Z.to_nat (h_off1 h0 - 240)) note)) = h_off1 h0 - 240) by (rewrite firstn_length; lia).
  rewrite L, Z.ltb_irrefl.
  replace (Z.of_nat (List.length note) + (h_off1 h0 - 240 - Z.of_nat (List.length note))) with (h_off1 h0 - 240) by lia.
  reflexivity.
Qed.
Print Assumptions C16_long_note.

(** A small file: 2 x 3 scan of 2 x 2 patterns. *)
Definition ex_hdr : hdr :=
  {| h_off1 := 256; h_off2 := 0; h_unknown := 131141; h_dp := 0; h_dprot := 0; h_nx := 0; h_ny := 0; h_rot := 90;
     h_sx := repeat 0 8; h_sy := repeat 0 8; h_beam := 200000; h_sdp := 0; h_cam := 0; h_acq := repeat 0 8; h_rest := repeat 0 176 |}.
Definition ex_frames : list (list Z) := map (fun i => [4 * i; 4 * i + 1; 4 * i + 2; 4 * i + 3]) [0; 1; 2; 3; 4; 5].
Example C16_example_ok : inputs_ok ex_hdr 2 3 2 (repeat 1 8) (repeat 2 8) 7 (str "hi") [0; 0; 0; 0; 0; 0] ex_frames.
Proof.
  unfold inputs_ok, header_ok, note_ok, stack_ok.
  repeat match goal with |- _ /\ _ => split end;
    first [apply Z.leb_le; vm_compute; reflexivity | apply Z.ltb_lt; vm_compute; reflexivity
          | vm_compute; reflexivity | vm_compute; discriminate | repeat constructor].
Qed.
Example C16_example :
  (let! f := blo_write false ex_hdr [2; 3] [2; 2] (repeat 1 8) (repeat 2 8) 7 (str "hi") [0; 0; 0; 0; 0; 0] ex_frames in
   let! s := blo_read false f in Ok (s_shape s, s_data s, s_note s)) =
  Ok ([2; 3; 2; 2], map Z.of_nat (seq 0 24), str "hi").
Proof. vm_compute. reflexivity. Qed.

Example C16_long_note_example :
  (let! f := blo_write false ex_hdr [2; 3] [2; 2] (repeat 1 8) (repeat 2 8) 7 (repeat 65 20) [0; 0; 0; 0; 0; 0] ex_frames in
   let! s := blo_read false f in Ok (s_shape s, s_data s, s_note s)) =
  Ok ([2; 3; 2; 2], map Z.of_nat (seq 0 24), repeat 65 16).
Proof. vm_compute. reflexivity. Qed.

(** A scan of one line is read back with its first signal axis marked as a navigation
    axis, when read eagerly. *)
Theorem C16_line_scan_axes_refuted :
  (let! f := blo_write false ex_hdr [1; 6] [2; 2] (repeat 1 8) (repeat 2 8) 7 (str "hi") [0; 0; 0; 0; 0; 0] ex_frames in
   let! s := blo_read false f in Ok (map (fun a => (a_size a, a_navigate a)) (s_axes s))) =
  Ok [(6, true); (2, true); (2, false)].
Proof. vm_compute. reflexivity. Qed.
(** Files written with big endian order cannot be read in that order, since the header is
    always little endian. *)
Theorem C16_big_endian_refuted :
  (let! f := blo_write true ex_hdr [2; 3] [2; 2] (repeat 1 8) (repeat 2 8) 7 (str "hi") [0; 0; 0; 0; 0; 0] ex_frames in
   let! s := blo_read_lazy true f in Ok (s_shape s)) = Err ValueError.
Proof. vm_compute. reflexivity. Qed.
Print Assumptions C16_line_scan_axes_refuted.
Print Assumptions C16_big_endian_refuted.

(** * C17: alignment of the data *)
Theorem C17_data_offset : forall nx ny off1,
  (data_offset nx ny off1) mod 2 = 0 /\
  nx * ny + off1 <= data_offset nx ny off1 < nx * ny + off1 + 16.
Proof. intros. unfold data_offset. lia. Qed.
Print Assumptions C17_data_offset.
(** It is not a multiple of 16 bytes. *)
Theorem C17_sixteen_bytes_refuted : data_offset 1 3 4096 mod 16 = 6.
Proof. reflexivity. Qed.
(** ... except when the offset before rounding is a multiple of eight. *)
Theorem C17_sixteen_bytes_iff : forall nx ny off1,
  data_offset nx ny off1 mod 16 = 0 <-> (nx * ny + off1) mod 8 = 0.
Proof. intros. unfold data_offset. lia. Qed.
Print Assumptions C17_sixteen_bytes_iff.
Print Assumptions C17_sixteen_bytes_refuted.
Example C17_example : data_offset 100 73 4096 = 11400.
Proof. reflexivity. Qed.

(** * C18: truncated files *)
Theorem C18_missing_frames_are_zero : forall h0 ny nx dp sx sy sdp note vbf frames f m k,
  inputs_ok h0 ny nx dp sx sy sdp note vbf frames ->
  blo_write false h0 [ny; nx] [dp; dp] sx sy sdp note vbf frames = Ok f ->
  240 <= Z.of_nat m -> (k <= List.length frames)%nat ->
  (* the first [k] frames and no more are complete in the first [m] bytes *)
  (forall i, 1 <= Z.of_nat i <= ny * nx ->
     ((i <= k)%nat <-> data_offset nx ny (h_off1 h0) + Z.of_nat i * (6 + dp * dp) <= Z.of_nat m)) ->
  exists s, blo_read false (firstn m f) = Ok s /\
    s_shape s = filter (fun n => negb (n =? 1)) [ny; nx; dp; dp] /\
    s_data s = List.concat (firstn k frames) ++ repeat 0 ((List.length frames - k) * Z.to_nat (dp * dp)).
Proof.
  intros h0 ny nx dp sx sy sdp note vbf frames f m k Hin Ew Hm Hk Hki.
  destruct (read_written h0 ny nx dp sx sy sdp note vbf frames m Hin ltac:(lia)) as [f' [n [Ew' H]]].
  rewrite Ew in Ew'. injection Ew' as <-. cbv zeta in H. destruct H as [Hl [Hr _]].
  eexists. split; [exact Hr|]. cbn [s_shape s_data]. split; [reflexivity|].
  assert (Hlen : Z.of_nat (List.length frames) = ny * nx).
  { destruct Hin as (_ & A & B & _ & _ & _ & _ & _ & _ & _ & _ & [C _]). rewrite C. nia. }
  assert (Ho : 0 <= data_offset nx ny (h_off1 h0)).
  { pose proof (offset_bounds nx ny (h_off1 h0)). destruct Hin as ((C & _) & A & B & _). nia. }
  assert (Hdp : 0 <= dp * dp) by nia.
  set (fs := (6 + Z.to_nat (dp * dp))%nat) in *.
  assert (Hfs : Z.of_nat fs = 6 + dp * dp) by (unfold fs; lia).
  set (o2 := Z.to_nat (data_offset nx ny (h_off1 h0))) in *.
  assert (Ho2 : Z.of_nat o2 = data_offset nx ny (h_off1 h0)) by (unfold o2; lia).
  assert (E : Nat.min ((m - o2) / fs) (List.length frames) = k).
  { assert (Hi : forall i, (1 <= i <= List.length frames)%nat -> ((i <= k)%nat <-> (i <= (m - o2) / fs)%nat)).
    { intros i Hi. rewrite Hki by lia. rewrite <- Hfs, <- Ho2. split; intro K.
      - apply Nat.div_le_lower_bound; [lia|]. nia.
      - assert (i * fs <= m - o2)%nat.
        { pose proof (Nat.mul_div_le (m - o2) fs ltac:(lia)). nia. }
        assert (1 * fs <= i * fs)%nat by (apply Nat.mul_le_mono_r; lia). nia. }
    clear - Hi Hk. generalize dependent ((m - o2) / fs)%nat. intros q Hi.
    destruct (Nat.min_spec q (List.length frames)) as [[A ->]|[A ->]].
    - destruct (Nat.lt_trichotomy k q) as [C|[C|C]]; [|auto|].
      + specialize (Hi q ltac:(lia)). lia.
      + specialize (Hi k ltac:(lia)). lia.
    - destruct (Nat.eq_dec k (List.length frames)) as [C|C]; [auto|].
      specialize (Hi (List.length frames) ltac:(lia)). lia. }
  rewrite E. reflexivity.
Qed.
Print Assumptions C18_missing_frames_are_zero.

Example C18_example :
  (let! f := blo_write false ex_hdr [2; 3] [2; 2] (repeat 1 8) (repeat 2 8) 7 (str "hi") [0; 0; 0; 0; 0; 0] ex_frames in
   let! s := blo_read false (firstn 295 f) in Ok (s_data s)) =
  Ok ([0; 1; 2; 3; 4; 5; 6; 7] ++ repeat 0 16).
Proof. vm_compute. reflexivity. Qed.
(** The header may also promise fewer frames than there are; then reading fails. *)
Theorem C18_extra_frames_refuted :
  (let! f := blo_write false ex_hdr [2; 3] [2; 2] (repeat 1 8) (repeat 2 8) 7 (str "hi") [0; 0; 0; 0; 0; 0] ex_frames in
   blo_read false (f ++ repeat 0 10)) = Err ValueError.
Proof. vm_compute. reflexivity. Qed.
Print Assumptions C18_extra_frames_refuted.
