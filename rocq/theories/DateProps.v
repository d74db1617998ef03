(** Property C10: serial dates. *)
From Verif Require Import Base DateModel.

Lemma rhe_err : forall a b, 0 < b -> 2 * Z.abs (round_half_even a b * b - a) <= b.
Proof.
  intros a b Hb. unfold round_half_even.
  pose proof (Z.div_mod a b ltac:(lia)) as D. pose proof (Z.mod_pos_bound a b Hb) as M.
  set (q := a / b) in *. set (r := a mod b) in *. clearbody q r.
  assert (E : q * b - a = - r) by lia.
  assert (E2 : (q + 1) * b - a = b - r) by lia.
  destruct (2 * r <? b) eqn:H1; [rewrite E; lia|].
  destruct (b <? 2 * r) eqn:H2; [rewrite E2; lia|].
  destruct (Z.even q); [rewrite E|rewrite E2]; lia.
Qed.

Lemma rn_pos_nonneg : forall num den, 0 <= num -> 0 < den -> 0 <= rn_pos num den.
Proof.
  intros num den Hn Hd. unfold rn_pos.
  assert (Hone : 0 < one) by reflexivity. generalize dependent one; intros one Hone.
  set (quantum := 2 ^ _). assert (0 < quantum) by (apply Z.pow_pos_nonneg; lia). clearbody quantum.
  assert (0 <= (num * one) / (den * quantum)) by (apply Z.div_pos; nia).
  unfold round_half_even. destruct (2 * _ <? _); [nia|]. destruct (_ <? 2 * _); [nia|].
  destruct (Z.even _); nia.
Qed.

Lemma rn_err : forall num den b, 0 <= num -> 0 < den -> 53 <= b ->
  num * one < den * 2 ^ b -> 2 * Z.abs (rn num den * den - num * one) <= den * 2 ^ (b - 53).
Proof.
  intros num den b Hn Hd Hb Hlt. unfold rn. destruct (num <? 0) eqn:E; [lia|]. clear E.
  unfold rn_pos.
  assert (Hone : 0 < one) by reflexivity. generalize dependent one; intros one Hlt Hone.
  set (l := Z.log2 _).
  assert (L : l <= b - 1).
  { unfold l. set (t := num * one / den).
    assert (T : 0 <= t < 2 ^ b).
    { split; [apply Z.div_pos; nia|]. apply Z.div_lt_upper_bound; [lia|exact Hlt]. }
    destruct (Z.eq_dec t 0) as [->|K]; [change (Z.log2 0) with 0; lia|].
    assert (Z.log2 t < b) by (apply Z.log2_lt_pow2; lia). lia. }
  set (quantum := 2 ^ Z.max 0 (l - 52)).
  assert (Q : 0 < quantum <= 2 ^ (b - 53)).
  { split; [apply Z.pow_pos_nonneg; lia|]. apply Z.pow_le_mono_r; lia. }
  pose proof (rhe_err (num * one) (den * quantum) ltac:(nia)) as R.
  replace (quantum * round_half_even (num * one) (den * quantum) * den)
    with (round_half_even (num * one) (den * quantum) * (den * quantum)) by ring.
  eapply Z.le_trans; [exact R|]. nia.
Qed.

Lemma rn_one_err : forall num b, 0 <= num < 2 ^ b -> 53 <= b ->
  2 * Z.abs (rn num one - num) <= 2 ^ (b - 53).
Proof.
  intros num b H Hb.
  assert (Hone : 0 < one) by reflexivity.
  pose proof (rn_err num one b ltac:(lia) Hone Hb) as R.
  assert (num * one < one * 2 ^ b) by nia.
  specialize (R H0).
  set (v := rn num one) in *. clearbody v.
  generalize dependent one; intros one Hone R H0.
  assert (E : v * one - num * one = (v - num) * one) by ring.
  rewrite E, Z.abs_mul, (Z.abs_eq one) in R by lia. nia.
Qed.

Lemma rhe_nearest : forall a b n, 0 < b -> 2 * Z.abs (a - n * b) < b -> round_half_even a b = n.
Proof.
  intros a b n Hb H. pose proof (rhe_err a b Hb) as R.
  set (m := round_half_even a b) in *. clearbody m.
  assert (2 * Z.abs ((m - n) * b) < 2 * b).
  { replace ((m - n) * b) with ((m * b - a) + (a - n * b)) by ring. lia. }
  rewrite Z.abs_mul, (Z.abs_eq b) in H0 by lia. nia.
Qed.


Ltac evpow := unfold one, scale in *; repeat
  match goal with
  | |- context [2 ^ ?k] => let v := eval vm_compute in (2 ^ k) in change (2 ^ k) with v
  | H : context [2 ^ ?k] |- _ => let v := eval vm_compute in (2 ^ k) in change (2 ^ k) with v in H
  end.

(** From the origin to 2079-06-05, whole seconds survive the round trip exactly. *)
Lemma round_trip_aux : forall d s, 0 <= d < 65536 -> 0 <= s < 86400 ->
  serial_date_to_datetime (fadd (d * one) (rn s 86400)) = d * us_per_day + s * 1000000.
Proof.
  intros d s Hd Hs.
  assert (Hone : 0 < one) by reflexivity.
  set (x := rn s 86400).
  assert (X : 2 * Z.abs (x * 86400 - s * one) <= 86400 * 2 ^ 147).
  { apply (rn_err s 86400 200); try lia. unfold one, scale. lia. }
  assert (X0 : 0 <= x) by (unfold x, rn; destruct (s <? 0) eqn:E; [lia|apply rn_pos_nonneg; lia]).
  clearbody x.
  assert (S1 : 2 * Z.abs (fadd (d * one) x - (d * one + x)) <= 2 ^ (216 - 53)).
  { apply rn_one_err; [|lia]. evpow. lia. }
  assert (S0 : 0 <= fadd (d * one) x).
  { unfold fadd, rn. destruct (_ <? 0) eqn:E; [evpow; lia|]. apply rn_pos_nonneg; [evpow; lia|reflexivity]. }
  set (serial := fadd (d * one) x) in *. clearbody serial.
  unfold serial_date_to_datetime, mod_one.
  rewrite Z.quot_div_nonneg, Z.rem_mod_nonneg by lia.
  pose proof (Z.mod_pos_bound serial one Hone) as M.
  pose proof (Z.div_mod serial one ltac:(lia)) as DM.
  destruct (serial mod one <? 0) eqn:E; [lia|]. clear E.
  set (i := serial / one) in *. set (fr := serial mod one) in *. clearbody i fr.
  assert (F : 2 * Z.abs (fmul_int fr 86400 - fr * 86400) <= 2 ^ (217 - 53)).
  { apply rn_one_err; [|lia]. evpow. lia. }
  assert (F0 : 0 <= fmul_int fr 86400).
  { unfold fmul_int, rn. destruct (_ <? 0) eqn:E; [evpow; lia|]. apply rn_pos_nonneg; [evpow; lia|reflexivity]. }
  set (secs := fmul_int fr 86400) in *. clearbody secs.
  unfold timedelta. rewrite Z.quot_div_nonneg, Z.rem_mod_nonneg by lia.
  pose proof (Z.mod_pos_bound secs one Hone) as M2.
  pose proof (Z.div_mod secs one ltac:(lia)) as DM2.
  set (ip := secs / one) in *. set (f2 := secs mod one) in *. clearbody ip f2.
  assert (U : 2 * Z.abs (fmul_int f2 1000000 - f2 * 1000000) <= 2 ^ (220 - 53)).
  { apply rn_one_err; [|lia]. evpow. lia. }
  set (us := fmul_int f2 1000000) in *. clearbody us.
  rewrite (rhe_nearest us one (d * us_per_day + s * 1000000 - i * us_per_day - ip * 1000000)); [lia|exact Hone|].
  unfold us_per_day. evpow. lia.
Qed.

(** * C10 *)
(** A date-time given by its whole day, second of the day, counted from 1899-12-30. *)
Theorem C10_round_trip : forall d s, 0 <= d < 65536 -> 0 <= s < 86400 ->
  let dt := (d * 86400 + s) * 1000000 in
  serial_date_to_datetime (datetime_to_serial_date dt) = dt.
Proof.
  intros d s Hd Hs dt. unfold datetime_to_serial_date, us_per_day.
  assert (E1 : dt / 86400000000 = d) by (unfold dt; lia).
  assert (E2 : dt mod 86400000000 / 1000000 = s) by (unfold dt; lia).
  rewrite E1, E2, round_trip_aux by assumption. unfold us_per_day, dt. lia.
Qed.
Print Assumptions C10_round_trip.

(** 2024-02-29 13:37:59. *)
Example C10_example :
  let dt := (45351 * 86400 + 49079) * 1000000 in
  serial_date_to_datetime (datetime_to_serial_date dt) = dt /\
  datetime_to_serial_date dt <> 0.
Proof. split; [vm_compute; reflexivity|vm_compute; discriminate]. Qed.

(** From 65536 days on a double no longer resolves half a microsecond: 2079-06-05
    00:00:21 comes back one microsecond late. *)
Theorem C10_far_future_refuted : exists d s, 0 <= d /\ 0 <= s < 86400 /\
  let dt := (d * 86400 + s) * 1000000 in
  serial_date_to_datetime (datetime_to_serial_date dt) = dt + 1.
Proof. exists 65536, 21. split; [lia|]. split; [lia|]. vm_compute. reflexivity. Qed.
Print Assumptions C10_far_future_refuted.

(** Before the origin int() truncates towards zero while [% 1.0] rounds down: 1899-12-29
    12:00 comes back a day late. *)
Theorem C10_before_origin_refuted : exists d s, d < 0 /\ 0 <= s < 86400 /\
  let dt := (d * 86400 + s) * 1000000 in
  serial_date_to_datetime (datetime_to_serial_date dt) = dt + 86400 * 1000000.
Proof. exists (-1), 43200. split; [lia|]. split; [lia|]. vm_compute. reflexivity. Qed.
Print Assumptions C10_before_origin_refuted.

(** Microseconds are dropped. *)
Theorem C10_microseconds_refuted : exists dt, 0 <= dt /\
  serial_date_to_datetime (datetime_to_serial_date dt) <> dt.
Proof. exists 1500000. split; [lia|]. vm_compute. discriminate. Qed.
Print Assumptions C10_microseconds_refuted.
