(** Bytes, fixed-width integers in either byte order, slices and fixed-size records.
    Shared by the binary formats; nothing here mirrors code in /repo.  A file is a list
    of integers 0..255. *)
From Verif Require Import Base.

Definition is_byte (b : Z) : Prop := 0 <= b < 256.
Definition bytes (l : list Z) : Prop := Forall is_byte l.

(** Little endian: [n] bytes of [x] (modulo 256^n), and the value of a byte string. *)
Fixpoint le (n : nat) (x : Z) : list Z :=
  match n with O => [] | S n' => x mod 256 :: le n' (x / 256) end.
Fixpoint le_val (l : list Z) : Z :=
  match l with [] => 0 | b :: l' => b + 256 * le_val l' end.
Definition be (n : nat) (x : Z) : list Z := rev (le n x).
Definition be_val (l : list Z) : Z := le_val (rev l).
(** Two's complement reading of an unsigned number of [n] bytes. *)
Definition signed (n : nat) (x : Z) : Z := if x <? 2 ^ (8 * Z.of_nat n - 1) then x else x - 2 ^ (8 * Z.of_nat n).

Lemma le_length : forall n x, List.length (le n x) = n.
Proof. induction n as [|n IH]; intros x; cbn; [reflexivity|]. rewrite IH. reflexivity. Qed.
Lemma be_length : forall n x, List.length (be n x) = n.
Proof. intros. unfold be. rewrite rev_length. apply le_length. Qed.
Lemma le_bytes : forall n x, bytes (le n x).
Proof. induction n as [|n IH]; intros x; cbn; constructor; [unfold is_byte; lia|apply IH]. Qed.
Lemma be_bytes : forall n x, bytes (be n x).
Proof. intros. unfold be, bytes. apply Forall_rev. apply le_bytes. Qed.

Lemma pow256_succ : forall n, 256 ^ Z.of_nat (S n) = 256 * 256 ^ Z.of_nat n.
Proof. intros. rewrite Nat2Z.inj_succ, Z.pow_succ_r by lia. reflexivity. Qed.

Lemma le_val_le : forall n x, le_val (le n x) = x mod 256 ^ Z.of_nat n.
Proof.
  induction n as [|n IH]; intros x.
  - cbn [le le_val]. change (256 ^ Z.of_nat 0) with 1. symmetry. apply Z.mod_1_r.
  - cbn [le le_val]. rewrite IH. rewrite pow256_succ.
    assert (P : 0 < 256 ^ Z.of_nat n) by (apply Z.pow_pos_nonneg; lia).
    rewrite Z.rem_mul_r by lia. reflexivity.
Qed.
Lemma be_val_be : forall n x, be_val (be n x) = x mod 256 ^ Z.of_nat n.
Proof. intros. unfold be_val, be. rewrite rev_involutive. apply le_val_le. Qed.

Lemma le_val_small : forall n x, 0 <= x < 256 ^ Z.of_nat n -> le_val (le n x) = x.
Proof. intros. rewrite le_val_le. apply Z.mod_small. assumption. Qed.
Lemma be_val_small : forall n x, 0 <= x < 256 ^ Z.of_nat n -> be_val (be n x) = x.
Proof. intros. rewrite be_val_be. apply Z.mod_small. assumption. Qed.

Lemma le_val_range : forall l, bytes l -> 0 <= le_val l < 256 ^ Z.of_nat (List.length l).
Proof.
  induction 1 as [|b l Hb _ IH]; [cbn; lia|]. cbn [le_val List.length]. rewrite pow256_succ. unfold is_byte in Hb. lia.
Qed.

Lemma le_le_val : forall l, bytes l -> le (List.length l) (le_val l) = l.
Proof.
  induction 1 as [|b l Hb H IH]; [reflexivity|]. cbn [List.length le le_val]. unfold is_byte in Hb.
  f_equal; [lia|]. replace ((b + 256 * le_val l) / 256) with (le_val l) by lia. exact IH.
Qed.

Lemma signed_mod : forall n x, (n > 0)%nat -> - 2 ^ (8 * Z.of_nat n - 1) <= x < 2 ^ (8 * Z.of_nat n - 1) ->
  signed n (x mod 256 ^ Z.of_nat n) = x.
Proof.
  intros n x Hn Hx. unfold signed.
  assert (E : 256 ^ Z.of_nat n = 2 * 2 ^ (8 * Z.of_nat n - 1)).
  { change 256 with (2 ^ 8). rewrite <- Z.pow_mul_r by lia. rewrite <- Z.pow_succ_r by lia. f_equal. lia. }
  assert (E2 : 2 ^ (8 * Z.of_nat n) = 2 * 2 ^ (8 * Z.of_nat n - 1)).
  { rewrite <- Z.pow_succ_r by lia. f_equal. lia. }
  rewrite E, E2. assert (P : 0 < 2 ^ (8 * Z.of_nat n - 1)) by (apply Z.pow_pos_nonneg; lia).
  generalize dependent (2 ^ (8 * Z.of_nat n - 1)). intros h Hx _ _ P.
  destruct (Z_lt_le_dec x 0) as [K|K].
  - assert (M : x mod (2 * h) = x + 2 * h) by (symmetry; apply Z.mod_unique with (-1); lia).
    rewrite M. destruct (x + 2 * h <? h) eqn:F; lia.
  - rewrite Z.mod_small by lia. destruct (x <? h) eqn:F; lia.
Qed.

(** Python's [b[i : i + n]] for non-negative [i]. *)
Definition slice {A} (i n : nat) (l : list A) : list A := firstn n (skipn i l).

Lemma slice_length : forall A i n (l : list A), (i + n <= List.length l)%nat -> List.length (slice i n l) = n.
Proof. intros. unfold slice. rewrite firstn_length, skipn_length. lia. Qed.

Lemma slice_app : forall A (a b c : list A) i n, List.length a = i -> List.length b = n -> slice i n (a ++ b ++ c) = b.
Proof.
  intros A a b c i n <- <-. unfold slice. rewrite skipn_app, skipn_all, Nat.sub_diag. cbn [skipn app].
  rewrite firstn_app, Nat.sub_diag, firstn_all. cbn [firstn]. apply app_nil_r.
Qed.

Lemma firstn_app_exact : forall A (a b : list A) n, List.length a = n -> firstn n (a ++ b) = a.
Proof. intros A a b n <-. rewrite firstn_app, Nat.sub_diag, firstn_all. cbn. apply app_nil_r. Qed.
Lemma skipn_app_exact : forall A (a b : list A) n, List.length a = n -> skipn n (a ++ b) = b.
Proof. intros A a b n <-. rewrite skipn_app, skipn_all, Nat.sub_diag. reflexivity. Qed.
Lemma skipn_skipn : forall A i j (l : list A), skipn i (skipn j l) = skipn (j + i) l.
Proof.
  intros A i j. revert i. induction j as [|j IH]; intros i l; [reflexivity|].
  destruct l as [|x l]; [cbn; apply skipn_nil|]. cbn. apply IH.
Qed.

(** Complete records of [n] bytes; a partial one at the end is dropped (as np.fromfile
    and np.frombuffer with floor division do). *)
Fixpoint records {A} (k n : nat) (l : list A) : list (list A) :=
  match k with O => [] | S k' => firstn n l :: records k' n (skipn n l) end.

Lemma records_length : forall A k n (l : list A), List.length (records k n l) = k.
Proof. induction k as [|k IH]; intros; cbn; [reflexivity|]. rewrite IH. reflexivity. Qed.

Lemma records_concat : forall A n (rs : list (list A)) tail,
  Forall (fun r => List.length r = n) rs -> records (List.length rs) n (List.concat rs ++ tail) = rs.
Proof.
  induction rs as [|r rs IH]; intros tail H; cbn [List.length records List.concat app]; [reflexivity|].
  inversion H as [|? ? H1 H2]; subst. rewrite <- app_assoc.
  rewrite firstn_app_exact by reflexivity. rewrite skipn_app_exact by reflexivity. rewrite IH by exact H2. reflexivity.
Qed.

Lemma records_flat : forall A k n (l : list A), (k * n <= List.length l)%nat -> List.concat (records k n l) = firstn (k * n) l.
Proof.
  induction k as [|k IH]; intros n l H; cbn [records List.concat Nat.mul]; [reflexivity|].
  rewrite IH by (rewrite skipn_length; cbn in H; lia).
  rewrite <- (firstn_skipn n l) at 3. rewrite firstn_app.
  rewrite firstn_length_le by (cbn in H; lia).
  replace (n + k * n - n)%nat with (k * n)%nat by lia. f_equal.
  symmetry. apply firstn_all2. rewrite firstn_length. lia.
Qed.

Lemma records_each : forall A k n (l : list A), (k * n <= List.length l)%nat -> Forall (fun r => List.length r = n) (records k n l).
Proof.
  induction k as [|k IH]; intros n l H; cbn [records]; constructor.
  - apply firstn_length_le. cbn in H. lia.
  - apply IH. rewrite skipn_length. cbn in H. lia.
Qed.

Lemma concat_length_const : forall A n (rs : list (list A)), Forall (fun r => List.length r = n) rs ->
  List.length (List.concat rs) = (List.length rs * n)%nat.
Proof.
  induction 1 as [|r rs Hr _ IH]; [reflexivity|]. cbn [List.concat List.length Nat.mul]. rewrite app_length, IH, Hr. reflexivity.
Qed.

Lemma nth_records : forall A k n (l : list A) i, (i < k)%nat -> nth_error (records k n l) i = Some (slice (i * n) n l).
Proof.
  induction k as [|k IH]; intros n l i H; [lia|]. destruct i as [|i]; cbn [records nth_error]; [reflexivity|].
  rewrite IH by lia. unfold slice. rewrite skipn_skipn. reflexivity.
Qed.

(** Reading fields one after the other. *)
Lemma slice_skip : forall A (a b : list A) i n, (List.length a <= i)%nat -> slice i n (a ++ b) = slice (i - List.length a) n b.
Proof.
  intros A a b i n H. unfold slice. f_equal. rewrite skipn_app.
  rewrite skipn_all2 by exact H. reflexivity.
Qed.
Lemma slice_here : forall A (a b : list A) n, List.length a = n -> slice 0 n (a ++ b) = a.
Proof. intros. unfold slice. cbn [skipn]. apply firstn_app_exact. assumption. Qed.
Lemma slice_all : forall A (a : list A) n, List.length a = n -> slice 0 n a = a.
Proof. intros A a n <-. unfold slice. cbn [skipn]. apply firstn_all. Qed.

(** Either byte order. *)
Definition enc (big : bool) (n : nat) (x : Z) : list Z := if big then be n x else le n x.
Definition dec_int (big : bool) (l : list Z) : Z := if big then be_val l else le_val l.
Lemma enc_length : forall b n x, List.length (enc b n x) = n.
Proof. intros [] n x; [apply be_length|apply le_length]. Qed.
Lemma dec_enc : forall b n x, 0 <= x < 256 ^ Z.of_nat n -> dec_int b (enc b n x) = x.
Proof. intros [] n x H; [apply be_val_small|apply le_val_small]; exact H. Qed.
Lemma dec_enc_mod : forall b n x, dec_int b (enc b n x) = x mod 256 ^ Z.of_nat n.
Proof. intros [] n x; [apply be_val_be|apply le_val_le]. Qed.
Lemma enc_bytes : forall b n x, bytes (enc b n x).
Proof. intros [] n x; [apply be_bytes|apply le_bytes]. Qed.

(** [l[z:]] for a possibly huge [z]. *)
Fixpoint skipz {A} (z : Z) (l : list A) : list A :=
  match l with [] => [] | x :: l' => if z <=? 0 then l else skipz (z - 1) l' end.
Lemma skipz_skipn : forall A (l : list A) z, skipz z l = skipn (Z.to_nat z) l.
Proof.
  induction l as [|x l IH]; intros z; cbn [skipz].
  - rewrite skipn_nil. reflexivity.
  - destruct (z <=? 0) eqn:E.
    + replace (Z.to_nat z) with 0%nat by lia. reflexivity.
    + rewrite IH. replace (Z.to_nat z) with (S (Z.to_nat (z - 1))) by lia. reflexivity.
Qed.
