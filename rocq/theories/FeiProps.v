(** Properties C01-C05: FEI/Velox event streams. *)
From Verif Require Import Base FeiModel FeiSpec FeiProof.

(** C01.  Eager decoding counts events (modulo the width of the dtype), and a channel
    outside the cube is an error rather than a wrong count. *)
Theorem C01_dense_counts_events : forall w ys xs channels first last r s,
  0 < w -> 0 < ys -> 0 < xs -> 0 < r -> 0 <= first < last ->
  channels_fit ys xs r first last (channels / r) s ->
  exists a, stream_to_array_frames w ys xs channels last first r s = Ok a /\
    forall f y x c, 0 <= f < last - first -> 0 <= x < xs ->
      a f y x c = event_count ys xs r s (first + f) y x c mod 2 ^ w.
Proof. exact dense_frames_count. Qed.
Print Assumptions C01_dense_counts_events.

Theorem C01_dense_sum_counts_events : forall w ys xs channels first last r s,
  0 < w -> 0 < ys -> 0 < xs -> 0 < r -> 0 <= first < last ->
  channels_fit ys xs r first last (channels / r) s ->
  exists a, stream_to_array_sum w ys xs channels last first r s = Ok a /\
    forall y x c, 0 <= x < xs ->
      a y x c = event_count_frames ys xs r first last s y x c mod 2 ^ w.
Proof. exact dense_sum_count. Qed.
Print Assumptions C01_dense_sum_counts_events.

Theorem C01_channel_outside_is_error : forall w ys xs channels first last r s,
  0 < w -> 0 < ys -> 0 < xs -> 0 < r -> 0 <= first < last ->
  ~ channels_fit ys xs r first last (channels / r) s ->
  stream_to_array_frames w ys xs channels last first r s = Err IndexError /\
  stream_to_array_sum w ys xs channels last first r s = Err IndexError.
Proof.
  exact (fun w ys xs ch f l r s Hw Hy Hx Hr Hf Hn =>
    conj (dense_frames_error w ys xs ch f l r s Hw Hy Hx Hr Hf Hn)
         (dense_sum_error w ys xs ch f l r s Hw Hy Hx Hr Hf Hn)).
Qed.
Print Assumptions C01_channel_outside_is_error.

(** A two-frame stream of 1x2 pixels with 4 channels, binned by 2. *)
Definition ex_stream : list Z := [0; 1; 65535; 3; 3; 65535; 2; 65535; 1; 0; 1].
Example C01_example :
  channels_fit 1 2 2 0 2 (4 / 2) ex_stream /\
  match stream_to_array_frames 16 1 2 4 2 0 2 ex_stream with
  | Ok a => (a 0 0 0 0, a 0 0 1 1, a 1 0 0 1, a 1 0 1 0, a 0 0 1 0) = (2, 2, 1, 3, 0)
  | Err _ => False
  end.
Proof.
  split; [|reflexivity].
  intros m v Hin _. cbn in Hin.
  repeat (destruct Hin as [Hin|Hin]; [injection Hin; intros; subst; reflexivity|]). contradiction.
Qed.

(** The dtype matters: without the overflow guard the count is not kept. *)
Lemma repeat_zero_fits : forall n, channels_fit 1 1 1 0 1 1 (repeat 0 n).
Proof.
  intros n m v Hin _.
  assert (H : forall n m0, In (m, v) (events_from m0 (repeat 0 n)) -> v = 0).
  { clear. induction n as [|n IH]; intros m0 H; [contradiction|].
    destruct H as [H|H]; [injection H; auto|]. exact (IH _ H). }
  rewrite (H n 0 Hin). reflexivity.
Qed.

Lemma repeat_zero_count : forall n, event_count 1 1 1 (repeat 0 n) 0 0 0 0 = Z.of_nat n.
Proof.
  intros n. unfold event_count, events.
  assert (E : forall n, events_from 0 (repeat 0 n) = repeat (0, 0) n).
  { clear. induction n as [|n IH]; [reflexivity|]. cbn. rewrite IH. reflexivity. }
  rewrite E, countZ_repeat. reflexivity.
Qed.

Theorem C01_overflow_refuted : exists s a,
  channels_fit 1 1 1 0 1 1 s /\ stream_to_array_frames 8 1 1 1 1 0 1 s = Ok a /\
  a 0 0 0 0 <> event_count 1 1 1 s 0 0 0 0.
Proof.
  pose (n := Z.to_nat 256).
  exists (repeat 0 n).
  destruct (dense_frames_count 8 1 1 1 0 1 1 (repeat 0 n)) as [a [Ha Hc]];
    [lia|lia|lia|lia|lia|exact (repeat_zero_fits n)|].
  exists a. split; [exact (repeat_zero_fits n)|]. split; [exact Ha|].
  rewrite Hc by lia. rewrite Z.add_0_l, repeat_zero_count. unfold n.
  rewrite Z2Nat.id by lia. discriminate.
Qed.
Print Assumptions C01_overflow_refuted.

(** C02.  Lazy and eager decoding agree on every stream whose counts fit the dtype. *)
Theorem C02_lazy_eager_agree : forall w ys xs channels first last r s a,
  0 < w -> 0 < ys -> 0 < xs -> 0 < r -> 0 <= first < last ->
  stream_to_array_frames w ys xs channels last first r s = Ok a ->
  forall f y x c, 0 <= f < last - first -> 0 <= x < xs ->
    a f y x c = stream_to_sparse_frames ys xs last first r s f y x c mod 2 ^ w.
Proof.
  intros w ys xs channels first last r s a Hw Hys Hxs Hr Hf Ha f y x c Hff Hx.
  rewrite sparse_frames_count by assumption.
  destruct (forallb (fitb ys xs (channels / r) first last r) (events s)) eqn:E.
  - apply fitb_channels in E; try assumption.
    destruct (dense_frames_count w ys xs channels first last r s Hw Hys Hxs Hr Hf E) as [a' [Ha' H]].
    rewrite Ha in Ha'. injection Ha' as <-. apply H; assumption.
  - exfalso. rewrite dense_frames_error in Ha; try assumption; [discriminate|].
    intro K. apply fitb_channels in K; try assumption. congruence.
Qed.
Print Assumptions C02_lazy_eager_agree.

Theorem C02_lazy_eager_agree_sum : forall w ys xs channels first last r s a,
  0 < w -> 0 < ys -> 0 < xs -> 0 < r -> 0 <= first < last ->
  stream_to_array_sum w ys xs channels last first r s = Ok a ->
  forall y x c, 0 <= x < xs ->
    a y x c = stream_to_sparse_sum ys xs last first r s y x c mod 2 ^ w.
Proof.
  intros w ys xs channels first last r s a Hw Hys Hxs Hr Hf Ha y x c Hx.
  rewrite sparse_sum_count by assumption.
  destruct (forallb (fitb ys xs (channels / r) first last r) (events s)) eqn:E.
  - apply fitb_channels in E; try assumption.
    destruct (dense_sum_count w ys xs channels first last r s Hw Hys Hxs Hr Hf E) as [a' [Ha' H]].
    rewrite Ha in Ha'. injection Ha' as <-. apply H; assumption.
  - exfalso. rewrite dense_sum_error in Ha; try assumption; [discriminate|].
    intro K. apply fitb_channels in K; try assumption. congruence.
Qed.
Print Assumptions C02_lazy_eager_agree_sum.

(** The sparse decoder itself counts events exactly. *)
Theorem C02_sparse_counts_events : forall ys xs first last r s f y x c,
  0 < ys -> 0 < xs -> 0 < r -> 0 <= first < last -> 0 <= f < last - first -> 0 <= x < xs ->
  stream_to_sparse_frames ys xs last first r s f y x c = event_count ys xs r s (first + f) y x c.
Proof. exact sparse_frames_count. Qed.
Print Assumptions C02_sparse_counts_events.

Theorem C02_sparse_sum_counts_events : forall ys xs first last r s y x c,
  0 < ys -> 0 < xs -> 0 < r -> 0 <= first < last -> 0 <= x < xs ->
  stream_to_sparse_sum ys xs last first r s y x c = event_count_frames ys xs r first last s y x c.
Proof. exact sparse_sum_count. Qed.
Print Assumptions C02_sparse_sum_counts_events.

Example C02_example : (* frames 1 only: the skipping phase is used *)
  stream_to_sparse_frames 1 2 2 1 2 ex_stream 0 0 1 0 = 3 /\
  match stream_to_array_frames 16 1 2 4 2 1 2 ex_stream with
  | Ok a => a 0 0 1 0 = 3 | Err _ => False end.
Proof. split; reflexivity. Qed.

(** Without [first_frame < last_frame] they differ: the sparse decoder only looks for
    [last_frame] after having incremented its frame counter. *)
Theorem C02_first_equals_last_refuted : exists s a,
  stream_to_array_sum 16 1 1 1 1 1 1 s = Ok a /\
  a 0 0 0 <> stream_to_sparse_sum 1 1 1 1 1 s 0 0 0.
Proof.
  exists [65535; 0; 65535]. eexists. split; [reflexivity|]. vm_compute. discriminate.
Qed.
Print Assumptions C02_first_equals_last_refuted.

(** C03.  Cube to stream to cube. *)
Theorem C03_array_stream_round_trip : forall w ys xs channels frames flat,
  0 < w -> 0 < ys -> 0 < xs -> 0 < channels <= 65535 -> 0 < frames ->
  Z.of_nat (List.length flat) = frames * ys * xs * channels ->
  Forall (fun v => 0 <= v < 2 ^ w) flat ->
  exists a, stream_to_array_frames w ys xs channels frames 0 1 (array_to_stream channels flat) = Ok a /\
    forall f y x c, 0 <= f < frames -> 0 <= y < ys -> 0 <= x < xs -> 0 <= c < channels ->
      a f y x c = nth (Z.to_nat (((f * ys + y) * xs + x) * channels + c)) flat 0.
Proof. exact array_stream_round_trip. Qed.
Print Assumptions C03_array_stream_round_trip.

Example C03_example :
  array_to_stream 3 [1; 0; 2;  0; 0; 0;  0; 3; 0;  0; 0; 1] =
    [0; 2; 2; 65535; 65535; 1; 1; 1; 65535; 2].
Proof. reflexivity. Qed.

(** C04.  Summing while decoding is summing afterwards. *)
Theorem C04_sum_frames : forall w ys xs channels first last r s,
  0 < w -> 0 < ys -> 0 < xs -> 0 < r -> 0 <= first < last ->
  channels_fit ys xs r first last (channels / r) s ->
  exists a3 a4, stream_to_array_sum w ys xs channels last first r s = Ok a3 /\
    stream_to_array_frames w ys xs channels last first r s = Ok a4 /\
    forall y x c, 0 <= x < xs ->
      a3 y x c = sumZ (map (fun f => a4 f y x c) (zseq 0 (Z.to_nat (last - first)))) mod 2 ^ w.
Proof.
  intros w ys xs channels first last r s Hw Hys Hxs Hr Hf Hfit.
  destruct (dense_sum_count w ys xs channels first last r s Hw Hys Hxs Hr Hf Hfit) as [a3 [E3 H3]].
  destruct (dense_frames_count w ys xs channels first last r s Hw Hys Hxs Hr Hf Hfit) as [a4 [E4 H4]].
  exists a3, a4. split; [exact E3|]. split; [exact E4|]. intros y x c Hx.
  rewrite H3 by assumption. rewrite event_count_frames_sum by lia.
  assert (HP : 0 < 2 ^ w) by (apply Z.pow_pos_nonneg; lia).
  assert (G : forall n a b, (forall f, b <= f < b + Z.of_nat n -> 0 <= f < last - first) ->
    a = first + b ->
    sumZ (map (fun f => event_count ys xs r s f y x c) (zseq a n)) mod 2 ^ w =
    sumZ (map (fun f => a4 f y x c) (zseq b n)) mod 2 ^ w).
  { induction n as [|n IH]; intros a b Hr' Eab; [reflexivity|].
    cbn [zseq map sumZ]. rewrite Z.add_mod, (IH (a + 1) (b + 1)) by (lia || (intros; apply Hr'; lia)).
    rewrite <- Z.add_mod by lia.
    subst a. rewrite (H4 b y x c) by (auto; apply Hr'; lia).
    rewrite Zplus_mod_idemp_l. reflexivity. }
  apply G; lia.
Qed.
Print Assumptions C04_sum_frames.

Example C04_example :
  match stream_to_array_sum 16 1 2 4 2 0 2 ex_stream with
  | Ok a => a 0 1 1 = 2 /\ a 0 0 1 = 1 /\ a 0 1 0 = 3 | Err _ => False end.
Proof. repeat split; reflexivity. Qed.

(** C05.  Rebinning while decoding is binning afterwards. *)
Theorem C05_rebin : forall w ys xs channels first last r s,
  0 < w -> 0 < ys -> 0 < xs -> 0 < r -> 0 <= first < last -> channels mod r = 0 ->
  channels_fit ys xs 1 first last channels s ->
  exists ar a1, stream_to_array_frames w ys xs channels last first r s = Ok ar /\
    stream_to_array_frames w ys xs channels last first 1 s = Ok a1 /\
    forall f y x c, 0 <= f < last - first -> 0 <= x < xs ->
      ar f y x c = sumZ (map (fun k => a1 f y x k) (zseq (c * r) (Z.to_nat r))) mod 2 ^ w.
Proof.
  intros w ys xs channels first last r s Hw Hys Hxs Hr Hf Hmod Hfit.
  assert (Hfr : channels_fit ys xs r first last (channels / r) s).
  { intros m v Hin Hm. specialize (Hfit m v Hin Hm). rewrite Z.div_1_r in Hfit.
    apply Z.div_lt_upper_bound; [lia|].
    pose proof (Z.div_mod channels r ltac:(lia)). lia. }
  assert (Hf1 : channels_fit ys xs 1 first last (channels / 1) s) by (rewrite Z.div_1_r; exact Hfit).
  destruct (dense_frames_count w ys xs channels first last r s Hw Hys Hxs Hr Hf Hfr) as [ar [Er Hr']].
  destruct (dense_frames_count w ys xs channels first last 1 s Hw Hys Hxs ltac:(lia) Hf Hf1) as [a1 [E1 H1]].
  exists ar, a1. split; [exact Er|]. split; [exact E1|]. intros f y x c Hff Hx.
  rewrite Hr' by assumption. rewrite event_count_rebin by assumption.
  assert (HP : 0 < 2 ^ w) by (apply Z.pow_pos_nonneg; lia).
  assert (G : forall l, sumZ (map (fun k => event_count ys xs 1 s (first + f) y x k) l) mod 2 ^ w =
    sumZ (map (fun k => a1 f y x k) l) mod 2 ^ w).
  { induction l as [|k l IH]; [reflexivity|]. cbn [map sumZ].
    rewrite Z.add_mod, IH, <- Z.add_mod by lia.
    rewrite <- Zplus_mod_idemp_l, <- H1 by assumption. reflexivity. }
  apply G.
Qed.
Print Assumptions C05_rebin.

Example C05_example :
  match stream_to_array_frames 16 1 2 4 2 0 1 ex_stream with
  | Ok a => a 1 0 1 0 = 1 /\ a 1 0 1 1 = 2 | Err _ => False end.
Proof. repeat split; reflexivity. Qed.

(** If the factor does not divide the number of channels, a valid channel can fall
    outside the binned cube. *)
Theorem C05_rebin_not_dividing_refuted : exists s,
  channels_fit 1 1 1 0 1 3 s /\
  stream_to_array_frames 16 1 1 3 1 0 2 s = Err IndexError.
Proof.
  exists [2]. split; [|reflexivity].
  intros m v [H|[]] _. injection H; intros; subst; reflexivity.
Qed.
Print Assumptions C05_rebin_not_dividing_refuted.
