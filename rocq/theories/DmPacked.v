(** Claim C36: packed complex images of Digital Micrograph. *)
From Verif Require Import Base Text Bytes SfsModel SfsProps BcfUnpack PySlice DmModel DmImageModel.

Section Packed.
Variables (T : Type) (zero : T) (neg : T -> T).
Hypothesis neg_neg : forall x, neg (neg x) = x.
Notation cplx := (T * T)%type.
Variable tmp : list T.
Definition at_ (p : Z) : T := nth (Z.to_nat p) tmp zero.

Lemma nth_zmap : forall A (f : Z -> A) d n a k, 0 <= k < n -> nth (Z.to_nat k) (map f (zseq a (Z.to_nat n))) d = f (a + k).
Proof.
  intros A f d n a k H. apply nth_error_nth. rewrite nth_error_map. rewrite RowMajor.nth_error_zseq by lia. cbn [option_map]. f_equal. f_equal. lia.
Qed.
Lemma cut_ok : forall a b s c, 0 < s -> 0 <= a -> 0 <= b -> 0 <= c -> a + c * s - s < b <= a + c * s -> (0 < c -> b <= zlen tmp) ->
  cut T zero tmp a b s = map (fun k => at_ (a + k * s)) (zseq 0 (Z.to_nat c)).
Proof.
  intros a b s c Hs Ha Hb Hc Hr Hn. unfold cut. destruct (Z.eq_dec c 0) as [->|Hc0].
  - assert (E : exists x, indices (zlen tmp) (Some a) (Some b) s = (x, s, 0)).
    { unfold indices, clip. replace (s <? 0) with false by lia. replace (a <? 0) with false by lia. replace (b <? 0) with false by lia. eexists. f_equal.
      pose proof (zlen_nonneg _ tmp). enough ((Z.min b (zlen tmp) - Z.min a (zlen tmp) + s - 1) / s < 1) by lia. apply Z.div_lt_upper_bound; lia. }
    destruct E as [x ->]. reflexivity.
  - rewrite (indices_step _ a b s c) by lia. unfold progression. rewrite map_map. reflexivity.
Qed.
Lemma numbers_ok : forall a b s c, 0 < s -> 0 <= a -> 0 <= b -> 0 <= c -> a + c * s - s < b <= a + c * s -> (0 < c -> b + 1 <= zlen tmp) ->
  numbers T zero tmp a b s = Ok (map (fun k => (at_ (a + k * s), at_ (a + 1 + k * s))) (zseq 0 (Z.to_nat c))).
Proof.
  intros a b s c Hs Ha Hb Hc Hr Hn. unfold numbers. rewrite (cut_ok a b s c) by lia. rewrite (cut_ok (a + 1) (b + 1) s c) by lia.
  rewrite !map_length, Nat.eqb_refl. f_equal. induction (zseq 0 (Z.to_nat c)) as [|k l IH]; [reflexivity|]. cbn [map combine]. rewrite IH. reflexivity.
Qed.
Lemma zseq_len : forall a n, List.length (zseq a n) = n.
Proof. intros a n. revert a. induction n as [|n IH]; intro a; [reflexivity|]. cbn [zseq List.length]. rewrite IH. reflexivity. Qed.

(** Filling with the numbers of one slice. *)
Lemma fill_ok : forall (d : img T) rows cols a s c, 0 <= c -> size rows * size cols = c ->
  exists d', fill T zero d rows cols (map (fun k => (at_ (a + k * s), at_ (a + 1 + k * s))) (zseq 0 (Z.to_nat c))) = Ok d' /\
    (forall i j x y, position rows i = Some x -> position cols j = Some y -> 0 <= x * size cols + y < c ->
       d' i j = (at_ (a + (x * size cols + y) * s), at_ (a + 1 + (x * size cols + y) * s))) /\
    (forall i j, position rows i = None \/ position cols j = None -> d' i j = d i j).
Proof.
  intros d rows cols a s c Hc E. unfold fill. unfold zlen. rewrite map_length, zseq_len, E. replace (Z.of_nat (Z.to_nat c) =? c) with true by lia.
  eexists. split; [reflexivity|]. split.
  - intros i j x y Hx Hy Hr. unfold block. rewrite Hx, Hy. rewrite nth_zmap by exact Hr. f_equal.
  - intros i j H. unfold block. destruct H as [->| ->]; [reflexivity|]. destruct (position rows i); reflexivity.
Qed.
Lemma mirror_ok : forall (d : img T) rows cols rows' cols', size rows = size rows' -> size cols = size cols' ->
  exists d', mirror T neg d rows cols rows' cols' = Ok d' /\
    (forall i j x y, position rows i = Some x -> position cols j = Some y -> d' i j = conj T neg (d (elem rows' x) (elem cols' y))) /\
    (forall i j, position rows i = None \/ position cols j = None -> d' i j = d i j).
Proof.
  intros d rows cols rows' cols' H1 H2. unfold mirror. rewrite H1, H2, !Z.eqb_refl. cbn [andb]. eexists. split; [reflexivity|]. split.
  - intros i j x y Hx Hy. unfold block. rewrite Hx, Hy. reflexivity.
  - intros i j H. unfold block. destruct H as [->| ->]; [reflexivity|]. destruct (position rows i); reflexivity.
Qed.
Lemma pos_in : forall a c i, a <= i < a + c -> position (a, 1, c) i = Some (i - a).
Proof. intros. rewrite position_up. replace ((a <=? i) && (i <? a + c)) with true by lia. reflexivity. Qed.
Lemma pos_out : forall a c i, i < a \/ a + c <= i -> position (a, 1, c) i = None.
Proof. intros. rewrite position_up. replace ((a <=? i) && (i <? a + c)) with false by lia. reflexivity. Qed.

Variable N : Z.
Hypothesis HN : 1 <= N.
Hypothesis Hlen : zlen tmp = 4 * N * N.

Lemma quarter_ok : forall is d, Forall (fun i => 0 <= i < N) is -> NoDup is ->
  exists d', quarter T zero N tmp is d = Ok d' /\
    (forall i k, In i is -> 1 <= k < N -> d' i (N + k) = (at_ (2 * i * N + 2 * k), at_ (2 * i * N + 2 * k + 1))) /\
    (forall i j, ~ (In i is /\ N < j < 2 * N) -> d' i j = d i j).
Proof.
  induction is as [|i is IH]; intros d HF HD.
  - exists d. split; [reflexivity|]. split; [intros i k []|]. intros; reflexivity.
  - inversion HF as [|? ? Hi HF']; subst. inversion HD as [|? ? Hn HD']; subst. cbn [quarter].
    assert (HiN : 0 <= i * N /\ i * N + N <= N * N) by (split; [nia|replace (i * N + N) with ((i + 1) * N) by ring; apply Z.mul_le_mono_nonneg_r; lia]).
    rewrite (numbers_ok (2 * i * N + 2) (2 * i * N + 2 + 2 * (N - 1) - 1) 2 (N - 1)) by (rewrite ?Hlen, <- ?Z.mul_assoc; lia). cbn [bind].
    rewrite indices_up by lia.
    destruct (fill_ok d (i, 1, 1) (N + 1, 1, 2 * N - (N + 1)) (2 * i * N + 2) 2 (N - 1)) as [d1 [E1 [F1 G1]]]; [lia|cbn [size snd]; ring|].
    rewrite E1. cbn [bind]. destruct (IH d1 HF' HD') as [d2 [E2 [F2 G2]]]. exists d2. split; [exact E2|]. split.
    + intros i' k [->|Hin] Hk; [|apply F2; assumption]. rewrite G2 by tauto.
      rewrite (F1 i' (N + k) 0 (k - 1)); [|rewrite pos_in by lia; f_equal; lia|rewrite pos_in by lia; f_equal; lia|cbn [size snd]; lia].
      cbn [size snd]. f_equal; f_equal; lia.
    + intros i' j H. rewrite G2 by (intro K; apply H; destruct K; split; [right|]; assumption). apply G1.
      destruct (Z.eq_dec i i') as [->|Hne]; [right|left]; apply pos_out; [|lia]. assert (~ (N < j < 2 * N)) by (intro K; apply H; split; [left; reflexivity|exact K]). lia.
Qed.
Lemma nodup_zseq : forall n a, NoDup (zseq a n).
Proof.
  induction n as [|n IH]; intro a; cbn [zseq]; constructor; [|apply IH]. rewrite in_zseq. lia.
Qed.
Lemma item_ok : forall p, 0 <= p < zlen tmp -> item T tmp p = Ok (at_ p).
Proof.
  intros p H. unfold item, at_. destruct (nth_error tmp (Z.to_nat p)) eqn:E.
  - f_equal. symmetry. apply nth_error_nth. exact E.
  - apply nth_error_None in E. unfold zlen in H. lia.
Qed.

(** ** Specification *)
(** Rows of 2 N numbers: first the real parts and imaginary parts of the right half of the
    image; the first two numbers of a row of the upper half belong to column 0 of the lower
    half, except for four real numbers. *)
Definition layout (A : Z -> Z -> cplx) : Prop :=
  A N 0 = (at_ 0, zero) /\ A 0 0 = (at_ 1, zero) /\ A N N = (at_ (2 * N * N), zero) /\ A 0 N = (at_ (2 * N * N + 1), zero) /\
  (forall r k, 0 <= r < 2 * N -> 1 <= k < N -> A r (N + k) = (at_ (2 * N * r + 2 * k), at_ (2 * N * r + 2 * k + 1))) /\
  (forall r, N < r < 2 * N -> A r N = (at_ (2 * N * r), at_ (2 * N * r + 1))) /\
  (forall r, 0 < r < N -> A (N + r) 0 = (at_ (2 * N * r), at_ (2 * N * r + 1))).
Definition real_place (i j : Z) : Prop := (i = 0 \/ i = N) /\ (j = 0 \/ j = N).
Definition hermitian (A : Z -> Z -> cplx) : Prop :=
  forall i j, 0 <= i < 2 * N -> 0 <= j < 2 * N -> ~ real_place i j ->
    let m := A ((2 * N - i) mod (2 * N)) ((2 * N - j) mod (2 * N)) in A i j = (fst m, neg (snd m)).

Ltac loc := first [left; apply pos_out; lia | right; apply pos_out; lia].
Lemma conj_conj : forall c, conj T neg (conj T neg c) = c.
Proof. intros [a b]. unfold conj. cbn. rewrite neg_neg. reflexivity. Qed.

Theorem C36_unpack : exists A, unpack_packed T zero neg [2 * N; 2 * N] tmp = Ok A /\ layout A /\ hermitian A.
Proof.
  unfold unpack_packed. rewrite Z.eqb_refl. cbn [negb]. replace (2 * N / 2) with N by (rewrite Z.mul_comm, Z.div_mul; lia).
  assert (HNN : N ^ 2 = N * N /\ N <= N * N) by nia.
  rewrite !item_ok by (rewrite Hlen, <- ?Z.mul_assoc; lia). cbn [bind].
  match goal with |- context [quarter T zero N tmp (zseq 0 (Z.to_nat N)) ?d] => set (d0 := d); destruct (quarter_ok (zseq 0 (Z.to_nat N)) d0) as [d1 [E1 [F1 G1]]] end.
  { rewrite Forall_forall. intros i Hi. apply in_zseq in Hi. lia. } { apply nodup_zseq. }
  rewrite E1. cbn [bind].
  rewrite (numbers_ok (2 * N) (2 * N + 2 * N * (N - 1) - 1) (2 * N) (N - 1)) by (rewrite ?Hlen, <- ?Z.mul_assoc; lia). cbn [bind].
  rewrite !(indices_up (2 * N) (N + 1) (2 * N)) by lia.
  destruct (fill_ok d1 (N + 1, 1, 2 * N - (N + 1)) (0, 1, 1) (2 * N) (2 * N) (N - 1)) as [d2 [E2 [F2 G2]]]; [lia|cbn [size snd]; ring|]. rewrite E2. cbn [bind].
  rewrite (numbers_ok (2 * N ^ 2 + 2) (2 * N ^ 2 + 2 + 2 * (N - 1) - 1) 2 (N - 1)) by (rewrite ?Hlen, <- ?Z.mul_assoc; lia). cbn [bind].
  destruct (fill_ok d2 (N, 1, 1) (N + 1, 1, 2 * N - (N + 1)) (2 * N ^ 2 + 2) 2 (N - 1)) as [d3 [E3 [F3 G3]]]; [lia|cbn [size snd]; ring|]. rewrite E3. cbn [bind].
  rewrite (numbers_ok (2 * N ^ 2 + 2 + 2 * (N - 1) - 1 + 1) (2 * N ^ 2 + 2 + 2 * (N - 1) - 1 + 1 + 2 * N * (N - 1) - 1) 2 ((N - 1) * N)) by (rewrite ?Hlen, <- ?Z.mul_assoc; lia). cbn [bind].
  rewrite !(indices_up (2 * N) N (2 * N)) by lia.
  destruct (fill_ok d3 (N + 1, 1, 2 * N - (N + 1)) (N, 1, 2 * N - N) (2 * N ^ 2 + 2 + 2 * (N - 1) - 1 + 1) 2 ((N - 1) * N)) as [d4 [E4 [F4 G4]]]; [nia|cbn [size snd]; ring|]. rewrite E4. cbn [bind].
  rewrite !(indices_up (2 * N) 1 N) by lia. assert (D1 : indices (2 * N) (Some (-1)) (Some (- N)) (-1) = (2 * N - 1, -1, N - 1)) by (apply (indices_down (2 * N) 1 N); lia). rewrite !D1.
  replace (- N - 1) with (- (N + 1)) by lia. replace (-2 * N) with (- (2 * N)) by lia. rewrite !(indices_down (2 * N) (N + 1) (2 * N)) by lia.
  destruct (mirror_ok d4 (0, 1, 1) (1, 1, N - 1) (0, 1, 1) (2 * N - 1, -1, N - 1)) as [d5 [E5 [F5 G5]]]; [reflexivity..|]. rewrite E5. cbn [bind].
  destruct (mirror_ok d5 (N, 1, 1) (1, 1, N - 1) (N, 1, 1) (2 * N - 1, -1, N - 1)) as [d6 [E6 [F6 G6]]]; [reflexivity..|]. rewrite E6. cbn [bind].
  destruct (mirror_ok d6 (1, 1, N - 1) (0, 1, 1) (2 * N - 1, -1, N - 1) (0, 1, 1)) as [d7 [E7 [F7 G7]]]; [reflexivity..|]. rewrite E7. cbn [bind].
  destruct (mirror_ok d7 (1, 1, N - 1) (N, 1, 1) (2 * N - 1, -1, N - 1) (N, 1, 1)) as [d8 [E8 [F8 G8]]]; [reflexivity..|]. rewrite E8. cbn [bind].
  destruct (mirror_ok d8 (1, 1, N - 1) (1, 1, N - 1) (2 * N - 1, -1, N - 1) (2 * N - 1, -1, N - 1)) as [d9 [E9 [F9 G9]]]; [reflexivity..|]. rewrite E9. cbn [bind].
  destruct (mirror_ok d9 (N + 1, 1, 2 * N - (N + 1)) (1, 1, N - 1) (2 * N - (N + 1), -1, 2 * N - (N + 1)) (2 * N - 1, -1, N - 1)) as [A [E10 [F10 G10]]]; [reflexivity..|]. rewrite E10.
  exists A. split; [reflexivity|].
  (* the places of the image after each step *)
  assert (P0 : d0 N 0 = (at_ 0, zero) /\ d0 0 0 = (at_ 1, zero) /\ d0 N N = (at_ (2 * N * N), zero) /\ d0 0 N = (at_ (2 * N * N + 1), zero)).
  { unfold d0, point. replace (2 * N ^ 2) with (2 * N * N) by nia.
    replace (0 =? N) with false by lia. replace (N =? 0) with false by lia. rewrite !Z.eqb_refl. cbn [andb Z.eqb]. repeat split. }
  clear E1 E2 E3 E4 E5 E6 E7 E8 E9 E10. clearbody d0.
  assert (Q1 : forall r k, 0 <= r < N -> 1 <= k < N -> A r (N + k) = (at_ (2 * N * r + 2 * k), at_ (2 * N * r + 2 * k + 1))).
  { intros r k Hr Hk. rewrite G10, G9, G8, G7, G6, G5, G4, G3, G2 by loc. rewrite F1 by (try apply in_zseq; lia). f_equal; f_equal; lia. }
  assert (Q2 : forall k, 1 <= k < N -> A N (N + k) = (at_ (2 * N * N + 2 * k), at_ (2 * N * N + 2 * k + 1))).
  { intros k Hk. rewrite G10, G9, G8, G7, G6, G5, G4 by loc. rewrite (F3 N (N + k) 0 (k - 1)); [|rewrite pos_in by lia; f_equal; lia|rewrite pos_in by lia; f_equal; lia|cbn [size snd]; lia].
    cbn [size snd]. f_equal; f_equal; nia. }
  assert (Q3 : forall r k, N < r < 2 * N -> 0 <= k < N -> A r (N + k) = (at_ (2 * N * r + 2 * k), at_ (2 * N * r + 2 * k + 1))).
  { intros r k Hr Hk. rewrite G10, G9, G8, G7, G6, G5 by loc. rewrite (F4 r (N + k) (r - (N + 1)) k); [|apply pos_in; lia|rewrite pos_in by lia; f_equal; lia|cbn [size snd]; nia].
    cbn [size snd]. f_equal; f_equal; nia. }
  assert (Q4 : forall r, 0 < r < N -> A (N + r) 0 = (at_ (2 * N * r), at_ (2 * N * r + 1))).
  { intros r Hr. rewrite G10, G9, G8, G7, G6, G5, G4, G3 by loc. rewrite (F2 (N + r) 0 (r - 1) 0); [|rewrite pos_in by lia; f_equal; lia|rewrite pos_in by lia; f_equal; lia|cbn [size snd]; lia].
    cbn [size snd]. f_equal; f_equal; nia. }
  assert (R : A N 0 = d0 N 0 /\ A 0 0 = d0 0 0 /\ A N N = d0 N N /\ A 0 N = d0 0 N).
  { clear F1 F2 F3 F4 F5 F6 F7 F8 F9 F10 Q1 Q2 Q3 Q4. repeat split; (rewrite G10, G9, G8, G7, G6, G5, G4, G3, G2 by loc; apply G1; intros [_ K]; lia). }
  destruct R as [R1 [R2 [R3 R4]]]. destruct P0 as [P1 [P2 [P3 P4]]]. split.
  - unfold layout. rewrite R1, R2, R3, R4. repeat split; try assumption.
    + intros r k Hr Hk. destruct (Z_lt_ge_dec r N); [apply Q1; lia|]. destruct (Z.eq_dec r N) as [->|]; [apply Q2; lia|apply Q3; lia].
    + intros r Hr. replace N with (N + 0) at 1 by lia. rewrite Q3 by lia. f_equal; f_equal; lia.
  - (* the mirrored places *)
    assert (M1 : forall j, 1 <= j < N -> A 0 j = conj T neg (A 0 (2 * N - j))).
    { intros j Hj. rewrite G10, G9, G8, G7, G6 by loc. rewrite (F5 0 j 0 (j - 1)); [|rewrite pos_in by lia; f_equal; lia|apply pos_in; lia].
      cbn [elem]. rewrite G10, G9, G8, G7, G6, G5 by loc. f_equal. f_equal; lia. }
    assert (M2 : forall j, 1 <= j < N -> A N j = conj T neg (A N (2 * N - j))).
    { intros j Hj. rewrite G10, G9, G8, G7 by loc. rewrite (F6 N j 0 (j - 1)); [|rewrite pos_in by lia; f_equal; lia|apply pos_in; lia].
      cbn [elem]. rewrite G10, G9, G8, G7, G6 by loc. f_equal. f_equal; lia. }
    assert (M3 : forall i, 1 <= i < N -> A i 0 = conj T neg (A (2 * N - i) 0)).
    { intros i Hi. rewrite G10, G9, G8 by loc. rewrite (F7 i 0 (i - 1) 0); [|apply pos_in; lia|rewrite pos_in by lia; f_equal; lia].
      cbn [elem]. rewrite G10, G9, G8, G7 by loc. f_equal. f_equal; lia. }
    assert (M4 : forall i, 1 <= i < N -> A i N = conj T neg (A (2 * N - i) N)).
    { intros i Hi. rewrite G10, G9 by loc. rewrite (F8 i N (i - 1) 0); [|apply pos_in; lia|rewrite pos_in by lia; f_equal; lia].
      cbn [elem]. rewrite G10, G9, G8 by loc. f_equal. f_equal; lia. }
    assert (M5 : forall i j, 1 <= i < N -> 1 <= j < N -> A i j = conj T neg (A (2 * N - i) (2 * N - j))).
    { intros i j Hi Hj. rewrite G10 by loc. rewrite (F9 i j (i - 1) (j - 1)); [|apply pos_in; lia..].
      cbn [elem]. rewrite G10, G9 by loc. f_equal. f_equal; lia. }
    assert (M6 : forall i j, N < i < 2 * N -> 1 <= j < N -> A i j = conj T neg (A (2 * N - i) (2 * N - j))).
    { intros i j Hi Hj. rewrite (F10 i j (i - (N + 1)) (j - 1)); [|apply pos_in; lia..].
      cbn [elem]. rewrite G10 by loc. f_equal. f_equal; lia. }
    clear - neg_neg HN M1 M2 M3 M4 M5 M6. intros i j Hi Hj Hr. cbv zeta.
    change (A i j = conj T neg (A ((2 * N - i) mod (2 * N)) ((2 * N - j) mod (2 * N)))).
    assert (MZ : forall x, 0 <= x < 2 * N -> (2 * N - x) mod (2 * N) = if x =? 0 then 0 else 2 * N - x).
    { intros x Hx. destruct (x =? 0) eqn:E; [assert (x = 0) as -> by lia; rewrite Z.sub_0_r; apply Z_mod_same_full|apply Z.mod_small; lia]. }
    rewrite !MZ by lia. unfold real_place in Hr.
    destruct (i =? 0) eqn:Ei; destruct (j =? 0) eqn:Ej; [lia|..].
    + assert (i = 0) as -> by lia. destruct (Z_lt_ge_dec j N); [apply M1; lia|]. rewrite (M1 (2 * N - j)) by lia. rewrite conj_conj. f_equal; lia.
    + assert (j = 0) as -> by lia. destruct (Z_lt_ge_dec i N); [apply M3; lia|]. rewrite (M3 (2 * N - i)) by lia. rewrite conj_conj. f_equal; lia.
    + destruct (Z.eq_dec i N) as [->|]; destruct (Z.eq_dec j N) as [->|]; [lia|..].
      * replace (2 * N - N) with N by lia. destruct (Z_lt_ge_dec j N); [apply M2; lia|]. rewrite (M2 (2 * N - j)) by lia. rewrite conj_conj. f_equal; lia.
      * replace (2 * N - N) with N by lia. destruct (Z_lt_ge_dec i N); [apply M4; lia|]. rewrite (M4 (2 * N - i)) by lia. rewrite conj_conj. f_equal; lia.
      * destruct (Z_lt_ge_dec j N).
        -- destruct (Z_lt_ge_dec i N); [apply M5; lia|apply M6; lia].
        -- destruct (Z_lt_ge_dec i N).
           ++ rewrite (M6 (2 * N - i) (2 * N - j)) by lia. rewrite conj_conj. f_equal; lia.
           ++ rewrite (M5 (2 * N - i) (2 * N - j)) by lia. rewrite conj_conj. f_equal; lia.
Qed.

(** Every packed number is the real or the imaginary part of a pixel. *)
Theorem C36_all_used : forall A, layout A -> forall p, 0 <= p < 4 * N * N ->
  exists i j, 0 <= i < 2 * N /\ 0 <= j < 2 * N /\ (fst (A i j) = at_ p \/ snd (A i j) = at_ p).
Proof.
  intros A [L1 [L2 [L3 [L4 [L5 [L6 L7]]]]]] p Hp.
  set (r := p / (2 * N)). set (q := p mod (2 * N)). assert (Ep : p = 2 * N * r + q) by (unfold r, q; apply Z.div_mod; lia).
  assert (Hq : 0 <= q < 2 * N) by (unfold q; apply Z.mod_pos_bound; lia).
  assert (Hr : 0 <= r < 2 * N). { unfold r. split; [apply Z.div_pos; lia|]. apply Z.div_lt_upper_bound; nia. }
  clearbody r q. set (k := q / 2). assert (Hk : q = 2 * k \/ q = 2 * k + 1) by (unfold k; lia). assert (0 <= k < N) by (unfold k; lia). clearbody k.
  destruct (Z_lt_ge_dec 0 k) as [Hk0|Hk0].
  - exists r, (N + k). rewrite L5 by lia. split; [lia|]. split; [lia|]. cbn [fst snd]. destruct Hk; [left|right]; f_equal; lia.
  - assert (k = 0) as -> by lia. destruct (Z.eq_dec r 0) as [->|Hr0].
    + destruct Hk; [exists N, 0; rewrite L1|exists 0, 0; rewrite L2]; (split; [lia|]; split; [lia|]; left; cbn [fst]; f_equal; lia).
    + destruct (Z.eq_dec r N) as [->|HrN].
      * destruct Hk; [exists N, N; rewrite L3|exists 0, N; rewrite L4]; (split; [lia|]; split; [lia|]; left; cbn [fst]; f_equal; lia).
      * destruct (Z_lt_ge_dec r N).
        -- exists (N + r), 0. rewrite L7 by lia. split; [lia|]. split; [lia|]. cbn [fst snd]. destruct Hk; [left|right]; f_equal; lia.
        -- exists r, N. rewrite L6 by lia. split; [lia|]. split; [lia|]. cbn [fst snd]. destruct Hk; [left|right]; f_equal; lia.
Qed.
End Packed.
Print Assumptions C36_unpack.
Print Assumptions C36_all_used.
Example C36_example : exists A, unpack_packed Z 0 Z.opp [4; 4] (zseq 10 16) = Ok A /\
  map (fun i => map (A i) [0; 1; 2; 3]) [0; 1; 2; 3] =
  [[(11, 0); (12, -13); (19, 0); (12, 13)]; [(14, -15); (24, -25); (22, -23); (16, 17)];
   [(10, 0); (20, -21); (18, 0); (20, 21)]; [(14, 15); (16, -17); (22, 23); (24, 25)]].
Proof. eexists. split; [reflexivity|vm_compute; reflexivity]. Qed.
Example C36_one : exists A, unpack_packed Z 0 Z.opp [2; 2] [1; 2; 3; 4] = Ok A /\ map (fun i => map (A i) [0; 1]) [0; 1] = [[(2, 0); (4, 0)]; [(1, 0); (3, 0)]].
Proof. eexists. split; [reflexivity|vm_compute; reflexivity]. Qed.
(** Images that are not square, or have more than two dimensions, are refused. *)
Theorem C36_refused : forall T zero neg a b rest tmp, a <> b \/ rest <> [] -> unpack_packed T zero neg (a :: b :: rest) tmp = Err IOError.
Proof.
  intros T zero neg a b rest tmp H. unfold unpack_packed. destruct rest as [|c rest]; [|reflexivity].
  replace (a =? b) with false by (destruct H; [lia|contradiction]). reflexivity.
Qed.
Print Assumptions C36_refused.

(** * The new packed format *)
Lemma nth_firstn_lt : forall A (d : A) n i l, (i < n)%nat -> nth i (firstn n l) d = nth i l d.
Proof. induction n as [|n IH]; intros i l H; [lia|]. destruct l as [|x l]; [reflexivity|]. destruct i as [|i]; [reflexivity|]. cbn [firstn nth]. apply IH. lia. Qed.
Lemma nth_error_firstn_lt : forall A n i (l : list A), (i < n)%nat -> nth_error (firstn n l) i = nth_error l i.
Proof. induction n as [|n IH]; intros i l H; [lia|]. destruct l as [|x l]; [reflexivity|]. destruct i as [|i]; [reflexivity|]. cbn [firstn nth_error]. apply IH. lia. Qed.
Lemma nth_skipn : forall A (d : A) n i l, nth i (skipn n l) d = nth (n + i) l d.
Proof. induction n as [|n IH]; intros i l; [reflexivity|]. destruct l as [|x l]; [destruct i; reflexivity|]. cbn [skipn Nat.add nth]. apply IH. Qed.
(** Each row holds columns M, M - 1, ..., 0 of an image of 2 M columns and is completed by
    its own mirror image. *)
Theorem C36_new_rows : forall T (zero : T) neg h M data, 0 <= h -> 1 <= M -> zlen data = h * (M + 1) ->
  exists A, unpack_new T neg [h; 2 * M] data = Ok A /\ zlen A = h /\
    forall r, 0 <= r < h -> exists row, nth_error A (Z.to_nat r) = Some row /\ zlen row = 2 * M /\
      let px c := nth (Z.to_nat c) row (zero, zero) in
      (forall k, 0 <= k <= M -> px (M - k) = nth (Z.to_nat (r * (M + 1) + k)) data (zero, zero)) /\
      (forall k, 1 <= k < M -> px (M + k) = (fst (px (M - k)), neg (snd (px (M - k))))).
Proof.
  intros T zero neg h M data Hh HM Hd. unfold unpack_new. replace (2 * M / 2 + 1) with (M + 1) by lia. rewrite Hd, Z.eqb_refl. eexists. split; [reflexivity|].
  split. { unfold zlen. rewrite map_length, records_length. lia. }
  intros r Hr. rewrite nth_error_map, nth_records by lia. cbn [option_map]. eexists. split; [reflexivity|].
  set (d := slice (Z.to_nat r * Z.to_nat (M + 1)) (Z.to_nat (M + 1)) data).
  assert (Ld : List.length d = Z.to_nat (M + 1)) by (unfold d; apply slice_length; unfold zlen in Hd; nia).
  assert (Nd : forall k, 0 <= k <= M -> nth (Z.to_nat k) d (zero, zero) = nth (Z.to_nat (r * (M + 1) + k)) data (zero, zero)).
  { intros k Hk. unfold d, slice. rewrite nth_firstn_lt by lia. rewrite nth_skipn. f_equal. nia. }
  clearbody d. assert (Hrow : forall k, 0 <= k <= M -> nth (Z.to_nat (M - k)) (unpack_row T neg d) (zero, zero) = nth (Z.to_nat k) d (zero, zero)).
  { intros k Hk. unfold unpack_row. rewrite app_nth1 by (rewrite rev_length; lia). rewrite rev_nth by lia. f_equal. lia. }
  assert (Ltl : List.length (removelast (tl d)) = Z.to_nat (M - 1)).
  { destruct d as [|x d]; [cbn in Ld; lia|]. cbn [tl]. cbn [List.length] in Ld. rewrite removelast_firstn_len, firstn_length. lia. }
  split. { unfold unpack_row, zlen. rewrite app_length, rev_length, map_length, Ltl, Ld. lia. }
  cbv zeta. split; [intros k Hk; rewrite Hrow by exact Hk; apply Nd; exact Hk|].
  intros k Hk. rewrite Hrow by lia. unfold unpack_row at 1. rewrite app_nth2 by (rewrite rev_length; lia). rewrite rev_length, Ld.
  replace (Z.to_nat (M + k) - Z.to_nat (M + 1))%nat with (Z.to_nat (k - 1)) by lia.
  assert (E : nth_error (removelast (tl d)) (Z.to_nat (k - 1)) = Some (nth (Z.to_nat k) d (zero, zero))).
  { destruct d as [|x d]; [cbn in Ld; lia|]. cbn [tl List.length] in *. rewrite removelast_firstn_len. rewrite nth_error_firstn_lt by lia.
    replace (Z.to_nat k) with (S (Z.to_nat (k - 1))) by lia. cbn [nth]. apply nth_error_nth'. lia. }
  apply nth_error_nth with (d := (zero, zero)) in E as E2. apply nth_error_nth. rewrite nth_error_map, E. reflexivity.
Qed.
Print Assumptions C36_new_rows.
Example C36_new_example : unpack_new Z Z.opp [2; 4] [(1, 0); (2, 3); (4, 5); (6, 0); (7, 8); (9, 10)] =
  Ok [[(4, 5); (2, 3); (1, 0); (2, -3)]; [(9, 10); (7, 8); (6, 0); (7, -8)]].
Proof. reflexivity. Qed.
(** The rows are mirrored one by one: unless they are equal in pairs, the result is not
    Hermitian in the plane, whatever row is taken as its centre. *)
Theorem C36_new_plane_refuted : exists data A, unpack_new Z Z.opp [4; 4] data = Ok A /\
  let px i j := nth (Z.to_nat j) (nth (Z.to_nat i) A []) (0, 0) in
  forall c, ~ (forall i j, 0 <= i < 4 -> 0 <= j < 4 -> j <> 0 -> px i j = (fst (px ((c - i) mod 4) (4 - j)), - snd (px ((c - i) mod 4) (4 - j)))).
Proof.
  exists (flat_map (fun r => [(r, 0); (10 + r, 1); (20 + r, 0)]) [1; 2; 3; 4]). eexists. split; [vm_compute; reflexivity|]. cbv zeta. intros c H.
  assert (Hc : c mod 4 = 0 \/ c mod 4 = 1 \/ c mod 4 = 2 \/ c mod 4 = 3) by lia.
  assert (E : forall i, (c - i) mod 4 = (c mod 4 - i) mod 4) by (intro i; rewrite Zminus_mod_idemp_l; reflexivity).
  pose proof (H 0 1 ltac:(lia) ltac:(lia) ltac:(lia)) as H0. pose proof (H 1 1 ltac:(lia) ltac:(lia) ltac:(lia)) as H1. rewrite E in H0, H1.
  destruct Hc as [Hc|[Hc|[Hc|Hc]]]; rewrite Hc in H0, H1; vm_compute in H0, H1; congruence.
Qed.
Print Assumptions C36_new_plane_refuted.
