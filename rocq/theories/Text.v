(** Python strings as lists of code points, with the string methods the models use.
    The semantics is that of CPython's str type; nothing here mirrors code in /repo. *)
From Verif Require Import Base.

Definition pystr := list Z.

(** Literals. *)
Definition str (s : string) : pystr :=
  map (fun a => Z.of_N (N_of_ascii a)) (list_ascii_of_string s).

Fixpoint eqb_str (a b : pystr) : bool :=
  match a, b with
  | [], [] => true
  | x :: a', y :: b' => (x =? y) && eqb_str a' b'
  | _, _ => false
  end.

Lemma eqb_str_spec : forall a b, eqb_str a b = true <-> a = b.
Proof.
  induction a as [|x a IH]; intros [|y b]; cbn [eqb_str]; split; intro H; try discriminate; auto.
  - apply andb_prop in H. destruct H as [H1 H2]. apply IH in H2. subst. f_equal. lia.
  - injection H as -> ->. rewrite Z.eqb_refl. apply IH. reflexivity.
Qed.

Lemma eqb_str_refl : forall a, eqb_str a a = true.
Proof. intros. apply eqb_str_spec. reflexivity. Qed.

Lemma eqb_str_neq : forall a b, eqb_str a b = false <-> a <> b.
Proof.
  intros a b. rewrite <- eqb_str_spec. destruct (eqb_str a b); split; congruence.
Qed.

(** str.isspace of one character. *)
Definition is_space (c : Z) : bool :=
  ((9 <=? c) && (c <=? 13)) || ((28 <=? c) && (c <=? 32)) || (c =? 133) || (c =? 160)
  || (c =? 5760) || ((8192 <=? c) && (c <=? 8202)) || (c =? 8232) || (c =? 8233)
  || (c =? 8239) || (c =? 8287) || (c =? 12288).

Definition is_digit (c : Z) : bool := (48 <=? c) && (c <=? 57).

(** str.lstrip / rstrip / strip without arguments. *)
Fixpoint lstrip (s : pystr) : pystr :=
  match s with c :: s' => if is_space c then lstrip s' else s | [] => [] end.
Definition rstrip (s : pystr) : pystr := rev (lstrip (rev s)).
Definition strip (s : pystr) : pystr := rstrip (lstrip s).

(** ASCII part of str.lower. *)
Definition lower_char (c : Z) : Z := if (65 <=? c) && (c <=? 90) then c + 32 else c.
Definition lower (s : pystr) : pystr := map lower_char s.

Fixpoint startswith (p s : pystr) : bool :=
  match p, s with
  | [], _ => true
  | x :: p', y :: s' => (x =? y) && startswith p' s'
  | _ :: _, [] => false
  end.

Definition endswith (p s : pystr) : bool := startswith (rev p) (rev s).

(** [p in s]. *)
Fixpoint contains (p s : pystr) : bool :=
  startswith p s || match s with [] => false | _ :: s' => contains p s' end.

(** str.split(c) for a one-character separator. *)
Fixpoint split_char (c : Z) (s : pystr) : list pystr :=
  match s with
  | [] => [[]]
  | x :: s' =>
      if x =? c then [] :: split_char c s'
      else match split_char c s' with
           | [] => [[x]]
           | w :: ws => (x :: w) :: ws
           end
  end.

(** [c.join(l)] for a one-character separator. *)
Fixpoint join_char (c : Z) (l : list pystr) : pystr :=
  match l with
  | [] => []
  | [w] => w
  | w :: l' => w ++ c :: join_char c l'
  end.

Lemma split_char_ne : forall c s, split_char c s <> [].
Proof.
  intros c s. destruct s as [|x s]; cbn [split_char]; [discriminate|].
  destruct (x =? c); [discriminate|]. destruct (split_char c s); discriminate.
Qed.

Lemma split_char_nosep : forall c s, ~ In c s -> split_char c s = [s].
Proof.
  induction s as [|x s IH]; intros H; [reflexivity|].
  cbn [split_char]. destruct (x =? c) eqn:E.
  - exfalso. apply H. left. lia.
  - rewrite IH; [reflexivity|]. intro K. apply H. right. exact K.
Qed.

Lemma split_char_app : forall c a b, ~ In c a ->
  split_char c (a ++ c :: b) = a :: split_char c b.
Proof.
  induction a as [|x a IH]; intros b H; cbn [app split_char].
  - rewrite Z.eqb_refl. reflexivity.
  - destruct (x =? c) eqn:E; [exfalso; apply H; left; lia|].
    rewrite IH; [reflexivity|]. intro K. apply H. right. exact K.
Qed.

Lemma split_join : forall c l, l <> [] -> Forall (fun w => ~ In c w) l ->
  split_char c (join_char c l) = l.
Proof.
  intros c. induction l as [|w l IH]; intros Hne H; [congruence|].
  inversion H; subst. destruct l as [|w' l].
  - cbn [join_char]. apply split_char_nosep. assumption.
  - change (join_char c (w :: w' :: l)) with (w ++ c :: join_char c (w' :: l)).
    rewrite split_char_app by assumption. rewrite IH; [reflexivity|discriminate|assumption].
Qed.

(** Decimal digits of a natural number: [str(n)]. *)
Fixpoint dec_aux (fuel : nat) (n : Z) : pystr :=
  match fuel with
  | O => []
  | S f => if n <? 10 then [48 + n] else dec_aux f (n / 10) ++ [48 + n mod 10]
  end.
Definition dec (n : Z) : pystr := dec_aux (S (Z.to_nat (Z.log2 n))) n.

(** [str(n)] for any integer. *)
Definition str_int (n : Z) : pystr := if n <? 0 then 45 :: dec (- n) else dec n.

(** Value of a digit string. *)
Fixpoint undec_aux (acc : Z) (s : pystr) : option Z :=
  match s with
  | [] => Some acc
  | c :: s' => if is_digit c then undec_aux (acc * 10 + (c - 48)) s' else None
  end.
Definition undec (s : pystr) : option Z :=
  match s with [] => None | _ => undec_aux 0 s end.

(** [int(s)] for a plain optionally signed digit string with surrounding white space
    (underscores and non-ASCII digits, which Python also accepts, are not modelled). *)
Definition parse_int (s : pystr) : res Z :=
  match strip s with
  | 45 :: s' => match undec s' with Some n => Ok (- n) | None => Err ValueError end
  | 43 :: s' => match undec s' with Some n => Ok n | None => Err ValueError end
  | s' => match undec s' with Some n => Ok n | None => Err ValueError end
  end.

Lemma undec_aux_app : forall a acc b, undec_aux acc (a ++ b) =
  match undec_aux acc a with Some v => undec_aux v b | None => None end.
Proof.
  induction a as [|c a IH]; intros acc b; cbn [app undec_aux]; [reflexivity|].
  destruct (is_digit c); [apply IH|reflexivity].
Qed.

Lemma dec_aux_spec : forall f n, 0 <= n -> n < 2 ^ Z.of_nat f ->
  (n = 0 -> (0 < f)%nat) ->
  dec_aux f n <> [] /\ Forall (fun c => is_digit c = true) (dec_aux f n) /\
  undec_aux 0 (dec_aux f n) = Some n.
Proof.
  induction f as [|f IH]; intros n Hn Hb Hz.
  - change (2 ^ Z.of_nat 0) with 1 in Hb. lia.
  - cbn [dec_aux]. destruct (n <? 10) eqn:E.
    + split; [discriminate|]. split.
      * constructor; [unfold is_digit; lia|constructor].
      * cbn [undec_aux]. unfold is_digit. destruct ((48 <=? 48 + n) && (48 + n <=? 57)) eqn:D; [f_equal; lia|lia].
    + assert (P : n / 10 < 2 ^ Z.of_nat f).
      { apply Z.div_lt_upper_bound; [lia|].
        rewrite Nat2Z.inj_succ, Z.pow_succ_r in Hb by lia. lia. }
      destruct (IH (n / 10)) as [I1 [I2 I3]]; [lia|exact P|lia|].
      split; [intro K; apply app_eq_nil in K; destruct K; discriminate|]. split.
      * apply Forall_app. split; [exact I2|]. constructor; [unfold is_digit; lia|constructor].
      * rewrite undec_aux_app, I3. cbn [undec_aux]. unfold is_digit.
        destruct ((48 <=? 48 + n mod 10) && (48 + n mod 10 <=? 57)) eqn:D; [f_equal; lia|lia].
Qed.

Lemma dec_fuel : forall n, 0 <= n -> n < 2 ^ Z.of_nat (S (Z.to_nat (Z.log2 n))).
Proof.
  intros n H. rewrite Nat2Z.inj_succ, Z2Nat.id by apply Z.log2_nonneg.
  destruct (Z.eq_dec n 0) as [->|K]; [reflexivity|].
  destruct (Z.log2_spec n) as [_ S]; [lia|]. exact S.
Qed.

Lemma dec_digits : forall n, 0 <= n -> Forall (fun c => is_digit c = true) (dec n).
Proof. intros n H. apply dec_aux_spec; [assumption|apply dec_fuel; assumption|lia]. Qed.

Lemma dec_ne : forall n, 0 <= n -> dec n <> [].
Proof. intros n H. apply dec_aux_spec; [assumption|apply dec_fuel; assumption|lia]. Qed.

Lemma undec_dec : forall n, 0 <= n -> undec (dec n) = Some n.
Proof.
  intros n H. unfold undec. pose proof (dec_ne n H) as K.
  destruct (dec n) eqn:E; [congruence|]. rewrite <- E.
  apply dec_aux_spec; [assumption|apply dec_fuel; assumption|lia].
Qed.

Lemma dec_inj : forall a b, 0 <= a -> 0 <= b -> dec a = dec b -> a = b.
Proof.
  intros a b Ha Hb E. pose proof (undec_dec a Ha) as A. rewrite E, undec_dec in A by assumption. congruence.
Qed.

Lemma digit_not_space : forall c, is_digit c = true -> is_space c = false.
Proof. intros c. unfold is_digit, is_space. lia. Qed.

Lemma lstrip_id : forall c s, is_space c = false -> lstrip (c :: s) = c :: s.
Proof. intros c s H. cbn. rewrite H. reflexivity. Qed.

(** A string without white space at its ends is not changed by [strip]. *)
Definition trimmed (s : pystr) : Prop :=
  match s with
  | [] => True
  | c :: _ => is_space c = false /\ is_space (last s 0) = false
  end.

Lemma rev_last_cons : forall A (s : list A) d, s <> [] -> exists r, rev s = last s d :: r.
Proof.
  intros A s d H. destruct (exists_last H) as [s' [x E]]. subst s.
  rewrite last_last, rev_app_distr. cbn. eexists; reflexivity.
Qed.

Lemma strip_trimmed : forall s, trimmed s -> strip s = s.
Proof.
  intros [|c s] H; [reflexivity|]. destruct H as [H1 H2].
  unfold strip. rewrite lstrip_id by exact H1. unfold rstrip.
  destruct (rev_last_cons _ (c :: s) 0) as [r E]; [discriminate|].
  rewrite E. rewrite lstrip_id by exact H2. rewrite <- E. apply rev_involutive.
Qed.

Lemma digits_trimmed : forall s, Forall (fun c => is_digit c = true) s -> trimmed s.
Proof.
  intros [|c s] H; [exact I|]. split.
  - apply digit_not_space. inversion H; assumption.
  - apply digit_not_space. rewrite Forall_forall in H. apply H.
    destruct (exists_last (l := c :: s)) as [s' [x E]]; [discriminate|].
    rewrite E, last_last. apply in_or_app. right. left. reflexivity.
Qed.

Lemma parse_int_undec : forall s, trimmed s -> s <> [] ->
  (forall c, nth_error s 0 = Some c -> is_digit c = true) ->
  parse_int s = match undec s with Some n => Ok n | None => Err ValueError end.
Proof.
  intros s Ht Hne Hd. unfold parse_int. rewrite strip_trimmed by exact Ht.
  destruct s as [|c s]; [congruence|]. specialize (Hd c eq_refl). unfold is_digit in Hd.
  assert (c <> 45 /\ c <> 43) as [A B] by lia.
  destruct c as [|p|p]; try lia.
  repeat (destruct p as [p|p|]; try reflexivity; try congruence).
Qed.

Lemma parse_int_str_int : forall n, parse_int (str_int n) = Ok n.
Proof.
  intros n. unfold str_int. destruct (n <? 0) eqn:E.
  - unfold parse_int.
    assert (D : Forall (fun c => is_digit c = true) (dec (- n))) by (apply dec_digits; lia).
    rewrite strip_trimmed.
    + rewrite undec_dec by lia. f_equal. lia.
    + split; [reflexivity|]. apply digits_trimmed in D.
      pose proof (dec_ne (- n) ltac:(lia)) as K. destruct (dec (- n)) as [|c s] eqn:Ed; [congruence|].
      destruct D as [_ D]. cbn [last] in *. exact D.
  - assert (D : Forall (fun c => is_digit c = true) (dec n)) by (apply dec_digits; lia).
    rewrite parse_int_undec.
    + rewrite undec_dec by lia. reflexivity.
    + apply digits_trimmed. exact D.
    + apply dec_ne. lia.
    + intros c Hc. rewrite Forall_forall in D. apply D. eapply nth_error_In. exact Hc.
Qed.
