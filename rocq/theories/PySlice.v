(** Python's slices: slice(a, b, step).indices(n) as an arithmetic progression
    (first index, step, number of indices).  From the Python language reference
    (CPython's PySlice_AdjustIndices); used by /repo/rsciio in many places. *)
From Verif Require Import Base.

Definition clip (n lower upper : Z) (x : Z) : Z := if x <? 0 then Z.max (x + n) lower else Z.min x upper.
Definition indices (n : Z) (a b : option Z) (step : Z) : Z * Z * Z :=
  let lower := if step <? 0 then -1 else 0 in
  let upper := if step <? 0 then n - 1 else n in
  let start := match a with Some x => clip n lower upper x | None => if step <? 0 then upper else lower end in
  let stop := match b with Some x => clip n lower upper x | None => if step <? 0 then lower else upper end in
  let count := if step <? 0 then (start - stop + (- step) - 1) / (- step) else (stop - start + step - 1) / step in
  (start, step, Z.max 0 count).
(** The positions that a slice selects, in order. *)
Definition progression (p : Z * Z * Z) : list Z := let '(a, s, c) := p in map (fun k => a + k * s) (zseq 0 (Z.to_nat c)).
(** The position of an index in a progression. *)
Definition position (p : Z * Z * Z) (i : Z) : option Z :=
  let '(a, s, c) := p in
  let k := (i - a) / s in
  if (0 <=? k) && (k <? c) && (a + k * s =? i) then Some k else None.

(** * Facts *)
Lemma position_up : forall a c i, position (a, 1, c) i = if (a <=? i) && (i <? a + c) then Some (i - a) else None.
Proof.
  intros a c i. unfold position. rewrite Z.div_1_r. destruct ((a <=? i) && (i <? a + c)) eqn:E.
  - replace ((0 <=? i - a) && (i - a <? c) && (a + (i - a) * 1 =? i)) with true by lia. reflexivity.
  - replace ((0 <=? i - a) && (i - a <? c) && (a + (i - a) * 1 =? i)) with false by lia. reflexivity.
Qed.
Lemma indices_up : forall n a b, 0 <= a <= b -> b <= n -> indices n (Some a) (Some b) 1 = (a, 1, b - a).
Proof.
  intros n a b H1 H2. unfold indices, clip. cbn [Z.ltb Z.compare]. replace (a <? 0) with false by lia. replace (b <? 0) with false by lia.
  rewrite Z.div_1_r. f_equal; [f_equal|]; lia.
Qed.
(** Going down from the end: [-x, -x - 1, ..., -(y - 1)]. *)
Lemma indices_down : forall n x y, 1 <= x <= y -> y <= n -> indices n (Some (- x)) (Some (- y)) (-1) = (n - x, -1, y - x).
Proof.
  intros n x y H1 H2. unfold indices, clip. cbn [Z.ltb Z.compare Z.opp]. replace (- x <? 0) with true by lia. replace (- y <? 0) with true by lia.
  rewrite Z.div_1_r. f_equal; [f_equal|]; lia.
Qed.
Lemma indices_step : forall n a b s c, 0 < s -> 0 <= a -> 0 <= b <= n -> 0 <= c -> a + c * s - s < b <= a + c * s -> (0 < c \/ a <= n) -> indices n (Some a) (Some b) s = (a, s, c).
Proof.
  intros n a b s c Hs Ha Hb Hc Hr Hn. unfold indices, clip. replace (s <? 0) with false by lia. replace (a <? 0) with false by lia. replace (b <? 0) with false by lia.
  assert (E : (Z.min b n - Z.min a n + s - 1) / s = c \/ ((Z.min b n - Z.min a n + s - 1) / s <= 0 /\ c = 0)).
  { destruct (Z.eq_dec c 0) as [->|Hc0].
    - right. split; [|reflexivity]. enough ((Z.min b n - Z.min a n + s - 1) / s < 1) by lia. apply Z.div_lt_upper_bound; lia.
    - left. replace (Z.min b n) with b by lia. assert (a <= n) by nia. replace (Z.min a n) with a by lia. symmetry. apply Z.div_unique with (r := b - a + s - 1 - s * c); lia. }
  replace (Z.min a n) with a in * by nia. f_equal. destruct E as [E|[E ->]]; lia.
Qed.
