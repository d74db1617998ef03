(** Properties C41 and C42: XML. *)
From Verif Require Import Base Text HierModel HierProof Dict SfsModel NpyModel XmlModel.

(** * C41: specification *)
Definition digits (s : pystr) : Prop := Forall (fun c => is_digit c = true) s.
Definition sign (s : pystr) : Prop := s = [] \/ s = str "-".
(** what comes before and after a decimal comma *)
Definition before (b : pystr) : Prop := exists m d, b = str ">" ++ m ++ d /\ sign m /\ digits d /\ d <> [].
Definition after (a : pystr) : Prop :=
  exists d e, a = d ++ e ++ str "<" /\ digits d /\ (e = [] \/ exists c m d', e = c :: m ++ d' /\ In c (str "Ee") /\ sign m /\ digits d').
Definition decimal_comma (s : pystr) (i : nat) : Prop :=
  exists x b a y, s = x ++ b ++ str "," ++ a ++ y /\ before b /\ after a /\ i = (List.length x + List.length b)%nat.

Lemma take_digits_spec : forall s, let (d, r) := take_digits s in s = d ++ r /\ digits d /\ match r with c :: _ => is_digit c = false | [] => True end.
Proof.
  induction s as [|c s IH]; cbn [take_digits]; [repeat split; constructor|]. destruct (is_digit c) eqn:E.
  - destruct (take_digits s) as [d r]. destruct IH as [-> [H1 H2]]. repeat split; [constructor; assumption|exact H2].
  - repeat split; [constructor|exact E].
Qed.
Lemma take_digits_app : forall d r, digits d -> match r with c :: _ => is_digit c = false | [] => True end -> take_digits (d ++ r) = (d, r).
Proof.
  induction d as [|c d IH]; intros r Hd Hr; [destruct r as [|c r]; [reflexivity|]; cbn [app take_digits]; rewrite Hr; reflexivity|].
  inversion Hd; subst. cbn [app take_digits]. rewrite H1, IH by assumption. reflexivity.
Qed.
Lemma one_spec : forall c s r, one c s = Some r <-> s = c :: r.
Proof.
  intros c [|x s] r; cbn [one]; [split; discriminate|]. destruct (x =? c) eqn:E; split; intro H; try discriminate.
  - injection H as <-. apply Z.eqb_eq in E. subst. reflexivity.
  - injection H as -> ->. reflexivity.
  - injection H as -> ->. rewrite Z.eqb_refl in E. discriminate.
Qed.
Lemma one_not : forall c s, match s with x :: _ => x <> c | [] => True end -> one c s = None.
Proof. intros c [|x s] H; [reflexivity|]. cbn. apply Z.eqb_neq in H. rewrite H. reflexivity. Qed.
Lemma minus_spec : forall s, let (m, r) := minus s in s = m ++ r /\ sign m.
Proof.
  intros s. unfold minus, sign. destruct (one 45 s) as [r|] eqn:E; [apply one_spec in E; subst; split; [reflexivity|right; reflexivity]|split; [reflexivity|left; reflexivity]].
Qed.
Lemma minus_app : forall m r, sign m -> match r with c :: _ => c <> 45 | [] => True end -> minus (m ++ r) = (m, r).
Proof. intros m r [-> | ->] Hr; [|reflexivity]. unfold minus. cbn [app]. rewrite one_not by exact Hr. reflexivity. Qed.
Lemma exponent_spec : forall s, let (e, r) := exponent s in s = e ++ r /\ (e = [] \/ exists c m d', e = c :: m ++ d' /\ In c (str "Ee") /\ sign m /\ digits d').
Proof.
  intros [|c s]; cbn [exponent]; [split; [reflexivity|left; reflexivity]|]. destruct ((c =? 69) || (c =? 101)) eqn:E; [|split; [reflexivity|left; reflexivity]].
  pose proof (minus_spec s) as H. destruct (minus s) as [m r1]. destruct H as [-> Hm]. pose proof (take_digits_spec r1) as H. destruct (take_digits r1) as [d r2]. destruct H as [-> [Hd _]].
  split; [cbn; rewrite app_assoc; reflexivity|]. right. exists c, m, d. repeat split; auto. cbn. lia.
Qed.
Lemma digit_range : forall c, is_digit c = true -> 48 <= c <= 57.
Proof. intros c. unfold is_digit. lia. Qed.
Lemma head_digits : forall d c r, digits d -> (c < 48 \/ 57 < c) -> match d ++ c :: r with x :: _ => x <> 45 \/ (d = [] /\ x = c) | [] => False end.
Proof. intros [|x d] c r H Hc; cbn; [auto|]. inversion H; subst. left. apply digit_range in H2. lia. Qed.

Lemma match_sound : forall s b a r, match_at s = Some (b, a, r) -> s = b ++ str "," ++ a ++ r /\ before b /\ after a.
Proof.
  intros s b a r H. unfold match_at in H. destruct (one 62 s) as [r0|] eqn:E0; [|discriminate]. apply one_spec in E0. subst s.
  pose proof (minus_spec r0) as M. destruct (minus r0) as [m r1]. destruct M as [-> Hm].
  pose proof (take_digits_spec r1) as M. destruct (take_digits r1) as [d r2]. destruct M as [-> [Hd _]]. destruct d as [|d0 d]; [discriminate|].
  destruct (one 44 r2) as [r3|] eqn:E1; [|discriminate]. apply one_spec in E1. subst r2.
  pose proof (take_digits_spec r3) as M. destruct (take_digits r3) as [d2 r4]. destruct M as [-> [Hd2 _]].
  pose proof (exponent_spec r4) as M. destruct (exponent r4) as [e r5]. destruct M as [-> He].
  destruct (one 60 r5) as [r6|] eqn:E2; [|discriminate]. apply one_spec in E2. subst r5. injection H as <- <- <-.
  split; [|split].
  - cbn. repeat (f_equal; cbn; rewrite <- ?app_assoc; cbn).
  - exists m, (d0 :: d). repeat split; auto. discriminate.
  - exists d2, e. repeat split; auto.
Qed.
Lemma match_complete : forall b a r, before b -> after a -> match_at (b ++ str "," ++ a ++ r) = Some (b, a, r).
Proof.
  intros b a r [m [d [-> [Hm [Hd Hne]]]]] [d2 [e [-> [Hd2 He]]]]. unfold match_at.
  replace ((str ">" ++ m ++ d) ++ str "," ++ (d2 ++ e ++ str "<") ++ r) with (62 :: m ++ d ++ 44 :: d2 ++ e ++ 60 :: r) by (cbn [str app]; cbn; repeat (rewrite <- ?app_assoc; cbn [app]); reflexivity).
  cbn [one]. rewrite Z.eqb_refl.
  assert (Hh : match d ++ 44 :: d2 ++ e ++ 60 :: r with c :: _ => c <> 45 | [] => True end).
  { destruct d as [|x d]; [congruence|]. cbn. inversion Hd; subst. apply digit_range in H1. lia. }
  rewrite minus_app by assumption. rewrite take_digits_app; [|exact Hd|reflexivity]. destruct d as [|x d]; [congruence|]. cbn [one]. rewrite Z.eqb_refl.
  assert (He1 : match e ++ 60 :: r with c :: _ => is_digit c = false | [] => True end) by (destruct He as [->|[c [m' [d' [-> [Hc _]]]]]]; [reflexivity|cbn in Hc; destruct Hc as [<-|[<-|[]]]; reflexivity]).
  rewrite take_digits_app by assumption.
  assert (He2 : exponent (e ++ 60 :: r) = (e, 60 :: r)).
  { destruct He as [->|[c [m' [d' [-> [Hc [Hm' Hd']]]]]]]; [reflexivity|]. cbn [app exponent].
    replace ((c =? 69) || (c =? 101)) with true by (cbn in Hc; destruct Hc as [<-|[<-|[]]]; reflexivity). rewrite <- app_assoc.
    rewrite minus_app; [|exact Hm'|destruct d' as [|y d']; cbn; [lia|inversion Hd'; subst; apply digit_range in H1; lia]].
    rewrite take_digits_app; [reflexivity|exact Hd'|reflexivity]. }
  rewrite He2. cbn [one]. rewrite Z.eqb_refl. reflexivity.
Qed.

Lemma sign_chars : forall m c, sign m -> In c m -> c = 45.
Proof. intros m c [-> | ->] H; [destruct H|]. destruct H as [<-|[]]. reflexivity. Qed.
Lemma digit_chars : forall d c, digits d -> In c d -> 48 <= c <= 57.
Proof. intros d c H K. unfold digits in H. rewrite Forall_forall in H. apply digit_range, H, K. Qed.
Lemma before_no : forall b c, before b -> In c b -> c <> 60 /\ c <> 44.
Proof.
  intros b c [m [d [-> [Hm [Hd _]]]]] H. cbn in H. destruct H as [<-|H]; [lia|]. apply in_app_or in H. destruct H as [H|H]; [apply (sign_chars m c Hm) in H; lia|apply (digit_chars d c Hd) in H; lia].
Qed.
Lemma after_no : forall a c, after a -> In c a -> c <> 44.
Proof.
  intros a c [d [e [-> [Hd He]]]] H. apply in_app_or in H. destruct H as [H|H]; [apply (digit_chars d c Hd) in H; lia|]. apply in_app_or in H. destruct H as [H|[<-|[]]]; [|discriminate].
  destruct He as [->|[k [m [d' [-> [Hk [Hm Hd']]]]]]]; [destruct H|]. destruct H as [<-|H]; [cbn in Hk; lia|]. apply in_app_or in H.
  destruct H as [H|H]; [apply (sign_chars m c Hm) in H; lia|apply (digit_chars d' c Hd') in H; lia].
Qed.
Lemma after_last : forall a, after a -> exists a', a = a' ++ [60].
Proof. intros a [d [e [-> _]]]. exists (d ++ e). rewrite <- app_assoc. reflexivity. Qed.
Lemma comma_at : forall s i, decimal_comma s i -> nth_error s i = Some 44.
Proof.
  intros s i [x [b [a [y [-> [_ [_ ->]]]]]]]. rewrite app_assoc. rewrite nth_error_app2 by (rewrite app_length; lia). rewrite app_length, Nat.sub_diag. reflexivity.
Qed.
Lemma comma_later : forall p s j, decimal_comma s j -> decimal_comma (p ++ s) (List.length p + j).
Proof. intros p s j [x [b [a [y [-> [Hb [Ha ->]]]]]]]. exists (p ++ x), b, a, y. rewrite <- app_assoc, app_length. repeat split; auto. lia. Qed.
(** A comma after some text is a decimal comma for the part it starts in. *)
Lemma comma_shift : forall p s j, decimal_comma (p ++ s) (List.length p + j) ->
  (forall x b a y, p ++ s = x ++ b ++ str "," ++ a ++ y -> before b -> after a -> (List.length x + List.length b = List.length p + j)%nat -> (List.length p <= List.length x)%nat) ->
  decimal_comma s j.
Proof.
  intros p s j [x [b [a [y [E [Hb [Ha Hi]]]]]]] K. specialize (K x b a y E Hb Ha (eq_sym Hi)).
  assert (E2 : s = skipn (List.length p) x ++ b ++ str "," ++ a ++ y).
  { pose proof (f_equal (skipn (List.length p)) E) as F. rewrite skipn_app, skipn_all, Nat.sub_diag in F. cbn [skipn app] in F.
    rewrite skipn_app in F. replace (List.length p - List.length x)%nat with 0%nat in F by lia. exact F. }
  exists (skipn (List.length p) x), b, a, y. repeat split; auto. rewrite skipn_length. lia.
Qed.

Lemma sub_spec : forall fuel s, (List.length s <= fuel)%nat ->
  List.length (sub fuel s) = List.length s /\
  forall i, (decimal_comma s i -> nth_error (sub fuel s) i = Some 46) /\ (~ decimal_comma s i -> nth_error (sub fuel s) i = nth_error s i).
Proof.
  induction fuel as [|k IH]; intros s Hs.
  - destruct s; [|cbn in Hs; lia]. split; [reflexivity|]. intros i. split; [|reflexivity]. intro H. apply comma_at in H. destruct i; discriminate.
  - destruct s as [|c s']; [split; [reflexivity|]; intros i; split; [intro H; apply comma_at in H; destruct i; discriminate|reflexivity]|].
    cbn [sub]. set (s := c :: s') in *. destruct (match_at s) as [[[b a] r]|] eqn:E.
    + apply match_sound in E. destruct E as [E [Hb Ha]]. rewrite E in *.
      assert (Lr : (List.length r <= k)%nat) by (rewrite !app_length in Hs; cbn in Hs; lia).
      destruct (IH r Lr) as [L P]. split; [rewrite !app_length; cbn; rewrite !app_length; lia|].
      intro i. set (p := b ++ str "," ++ a). assert (Ep : b ++ str "," ++ a ++ r = p ++ r) by (unfold p; rewrite <- !app_assoc; reflexivity).
      assert (Lp : List.length p = (List.length b + 1 + List.length a)%nat) by (unfold p; rewrite !app_length; cbn; lia).
      destruct (Nat.lt_ge_cases i (List.length p)) as [Hi|Hi].
      * destruct (Nat.eq_dec i (List.length b)) as [->|N].
        { split; [intros _; rewrite nth_error_app2, Nat.sub_diag by lia; reflexivity|]. intro H. exfalso. apply H. exists [], b, a, r. repeat split; auto. }
        assert (Q : nth_error (b ++ 46 :: a ++ sub k r) i = nth_error (b ++ str "," ++ a ++ r) i).
        { destruct (Nat.lt_ge_cases i (List.length b)); [rewrite !nth_error_app1 by lia; reflexivity|]. rewrite !nth_error_app2 by lia. destruct (i - List.length b)%nat as [|j] eqn:Ej; [lia|]. cbn [str app nth_error]. cbn. rewrite !nth_error_app1 by lia. reflexivity. }
        split; [|intros _; exact Q]. intro H. exfalso. apply comma_at in H. destruct (Nat.lt_ge_cases i (List.length b)).
        { rewrite nth_error_app1 in H by lia. apply nth_error_In in H. apply (before_no b 44 Hb) in H. lia. }
        { rewrite nth_error_app2 in H by lia. destruct (i - List.length b)%nat as [|j] eqn:Ej; [lia|]. cbn in H. rewrite nth_error_app1 in H by lia. apply nth_error_In in H. apply (after_no a 44 Ha) in H. lia. }
      * replace i with (List.length p + (i - List.length p))%nat by lia. set (j := (i - List.length p)%nat).
        assert (Q1 : nth_error (b ++ 46 :: a ++ sub k r) (List.length p + j) = nth_error (sub k r) j).
        { rewrite nth_error_app2 by lia. replace (List.length p + j - List.length b)%nat with (Datatypes.S (List.length a + j)) by lia. cbn. rewrite nth_error_app2 by lia. f_equal. lia. }
        assert (Q2 : nth_error (b ++ str "," ++ a ++ r) (List.length p + j) = nth_error r j) by (rewrite Ep, nth_error_app2 by lia; f_equal; lia).
        rewrite Q1, Q2, Ep. destruct (P j) as [P1 P2]. split; [|intro H; apply P2; intro K; apply H; apply comma_later; exact K].
        intro H. apply P1. apply (comma_shift p); [exact H|]. intros x b' a' y E' Hb' Ha' El.
        destruct (Nat.le_gt_cases (List.length p) (List.length x)) as [|Lx]; [assumption|exfalso].
        destruct (after_last a Ha) as [a0 Ea]. assert (N60 : nth_error (p ++ r) (List.length p - 1) = Some 60).
        { rewrite nth_error_app1 by lia. unfold p. rewrite Ea, !app_assoc. rewrite nth_error_app2 by (rewrite !app_length; cbn; lia). rewrite !app_length. cbn. replace (_ - _)%nat with 0%nat by lia. reflexivity. }
        rewrite E' in N60. rewrite nth_error_app2 in N60 by lia. rewrite nth_error_app1 in N60 by lia. apply nth_error_In in N60. apply (before_no b' 60 Hb') in N60. lia.
    + assert (Ls : (List.length s' <= k)%nat) by (cbn in Hs; lia). destruct (IH s' Ls) as [L P]. split; [unfold s; cbn; lia|].
      assert (K : forall x b a y, [c] ++ s' = x ++ b ++ str "," ++ a ++ y -> before b -> after a -> (1 <= List.length x)%nat).
      { intros x b a y Ex Hb Ha. destruct x as [|x0 x]; [|cbn; lia]. exfalso. cbn [app] in Ex. fold s in Ex. rewrite Ex in E. rewrite match_complete in E by assumption. discriminate. }
      intros [|i].
      * cbn [nth_error]. split; [|reflexivity]. intro H. exfalso. destruct H as [x [b [a [y [Ex [Hb [Ha Hi]]]]]]]. specialize (K x b a y Ex Hb Ha). lia.
      * cbn [nth_error]. destruct (P i) as [P1 P2]. split; intro H.
        { apply P1. apply (comma_shift [c] s' i); [exact H|]. intros x b a y Ex Hb Ha _. exact (K x b a y Ex Hb Ha). }
        { apply P2. intro Q. apply H. exact (comma_later [c] s' i Q). }
Qed.

Lemma nth_error_ext' : forall A (l m : list A), (forall i, nth_error l i = nth_error m i) -> l = m.
Proof.
  induction l as [|x l IH]; intros [|y m] H; [reflexivity|specialize (H 0%nat); discriminate|specialize (H 0%nat); discriminate|].
  f_equal; [specialize (H 0%nat); cbn in H; congruence|]. apply IH. intro i. exact (H (Datatypes.S i)).
Qed.
Lemma nth_error_firstn_lt : forall A n (l : list A) j, (j < n)%nat -> nth_error (firstn n l) j = nth_error l j.
Proof. induction n as [|n IH]; intros [|x l] j H; try lia; [reflexivity|]. destruct j; [reflexivity|]. cbn. apply IH. lia. Qed.
Lemma nth_error_skipn' : forall A n (l : list A) j, nth_error (skipn n l) j = nth_error l (n + j).
Proof. induction n as [|n IH]; intros [|x l] j; try reflexivity; [destruct j; reflexivity|]. cbn. apply IH. Qed.
Lemma no_dot_b : forall b, before b -> ~ In 46 b.
Proof. intros b [m [d [-> [Hm [Hd _]]]]] H. cbn in H. destruct H as [H|H]; [discriminate|]. apply in_app_or in H. destruct H as [H|H]; [apply (sign_chars m 46 Hm) in H; lia|apply (digit_chars d 46 Hd) in H; lia]. Qed.
Lemma no_dot_a : forall a, after a -> ~ In 46 a.
Proof.
  intros a [d [e [-> [Hd He]]]] H. apply in_app_or in H. destruct H as [H|H]; [apply (digit_chars d 46 Hd) in H; lia|]. apply in_app_or in H. destruct H as [H|[H|[]]]; [|discriminate].
  destruct He as [->|[k [m [d' [-> [Hk [Hm Hd']]]]]]]; [destruct H|]. destruct H as [H|H]; [subst k; cbn in Hk; lia|]. apply in_app_or in H.
  destruct H as [H|H]; [apply (sign_chars m 46 Hm) in H; lia|apply (digit_chars d' 46 Hd') in H; lia].
Qed.
(** Exactly the decimal commas become dots. *)
Theorem C41_sanitize : forall s,
  List.length (sanitize s) = List.length s /\
  forall i, (decimal_comma s i -> nth_error (sanitize s) i = Some 46) /\ (~ decimal_comma s i -> nth_error (sanitize s) i = nth_error s i).
Proof. intro s. apply sub_spec. lia. Qed.
(** So a second time changes nothing. *)
Theorem C41_twice : forall s, sanitize (sanitize s) = sanitize s.
Proof.
  intro s. destruct (C41_sanitize (sanitize s)) as [L P]. destruct (C41_sanitize s) as [L1 P1].
  assert (N : forall i, ~ decimal_comma (sanitize s) i).
  { intros i H. pose proof (comma_at _ _ H) as Hc. destruct H as [x [b [a [y [E [Hb [Ha Hi]]]]]]].
    assert (D : ~ decimal_comma s i) by (intro D; destruct (P1 i) as [Q _]; rewrite (Q D) in Hc; discriminate).
    assert (Same : forall j, nth_error (sanitize s) j <> Some 46 -> nth_error (sanitize s) j = nth_error s j).
    { intros j Hj. destruct (P1 j) as [Q1 Q2]. apply Q2. intro Q. apply Hj, Q1, Q. }
    apply D. exists (firstn (List.length x) s), b, a, (skipn (List.length x + List.length b + 1 + List.length a) s).
    assert (Len : List.length s = (List.length x + List.length b + 1 + List.length a + List.length y)%nat) by (rewrite <- L1, E, !app_length; cbn; lia).
    split; [|split; [exact Hb|split; [exact Ha|rewrite firstn_length_le by lia; exact Hi]]].
    rewrite <- (firstn_skipn (List.length x) s) at 1. f_equal.
    set (w := b ++ str "," ++ a). assert (Lw : List.length w = (List.length b + 1 + List.length a)%nat) by (unfold w; rewrite !app_length; cbn; lia).
    assert (Ew : firstn (List.length w) (skipn (List.length x) s) = w).
    { assert (E' : firstn (List.length w) (skipn (List.length x) (sanitize s)) = w).
      { rewrite E, skipn_app, skipn_all, Nat.sub_diag. cbn [skipn app]. replace (b ++ str "," ++ a ++ y) with (w ++ y) by (unfold w; rewrite <- !app_assoc; reflexivity). rewrite firstn_app, Nat.sub_diag, firstn_all. apply app_nil_r. }
      rewrite <- E' at 2. apply nth_error_ext'. intro j. destruct (Nat.lt_ge_cases j (List.length w)) as [Hj|Hj].
      - rewrite !nth_error_firstn_lt by exact Hj. rewrite !nth_error_skipn'. symmetry. apply Same. intro Q46.
        assert (Qw : nth_error w j = Some 46) by (rewrite <- E'; rewrite nth_error_firstn_lt by exact Hj; rewrite nth_error_skipn'; exact Q46).
        apply nth_error_In in Qw. unfold w in Qw. apply in_app_or in Qw. destruct Qw as [Qw|Qw]; [apply (no_dot_b b Hb Qw)|]. apply in_app_or in Qw. destruct Qw as [[Qw|[]]|Qw]; [discriminate|apply (no_dot_a a Ha Qw)].
      - assert (T1 : (List.length (firstn (List.length w) (skipn (List.length x) s)) <= j)%nat) by (rewrite firstn_length; lia).
        assert (T2 : (List.length (firstn (List.length w) (skipn (List.length x) (sanitize s))) <= j)%nat) by (rewrite firstn_length; lia).
        apply nth_error_None in T1. apply nth_error_None in T2. congruence. }
    rewrite <- (firstn_skipn (List.length w) (skipn (List.length x) s)). rewrite Ew. replace (skipn (List.length w) (skipn (List.length x) s)) with (skipn (List.length x + List.length b + 1 + List.length a) s) by (apply nth_error_ext'; intro j; rewrite !nth_error_skipn'; f_equal; lia).
    unfold w. rewrite <- !app_assoc. reflexivity. }
  apply nth_error_ext'. intro i. destruct (P i) as [_ Q]. apply Q, N.
Qed.
(** A number with a plus in its exponent keeps its comma, and a list of two numbers gets a dot. *)
Theorem C41_numbers_refuted : sanitize (str "<x>8,8E+7</x>") = str "<x>8,8E+7</x>" /\ sanitize (str "<x>8,8E-7</x>") = str "<x>8.8E-7</x>"
  /\ sanitize (str "<x>1,2</x>") = str "<x>1.2</x>" /\ sanitize (str "<x>1,2,3</x>") = str "<x>1,2,3</x>".
Proof. repeat split; vm_compute; reflexivity. Qed.
Example C41_example : decimal_comma (str "<a>x</a><b>-12,5e-3</b>") 14.
Proof.
  exists (str "<a>x</a><b"), (str ">-12"), (str "5e-3<"), (str "/b>"). split; [reflexivity|]. split; [exists (str "-"), (str "12"); repeat split; [right; reflexivity|repeat constructor|discriminate]|].
  split; [|reflexivity]. exists (str "5"), (str "e-3"). repeat split; [repeat constructor|]. right. exists 101, (str "-"), (str "3"). repeat split; [right; left; reflexivity|right; reflexivity|repeat constructor].
Qed.

(** * C42: the simple converter *)
Lemma NoDup_app_l : forall A (a b : list A), NoDup (a ++ b) -> NoDup a.
Proof. induction a as [|x a IH]; intros b H; [constructor|]. inversion H; subst. constructor; [intro K; apply H2, in_or_app; left; exact K|apply (IH b); assumption]. Qed.
(** What an element should become *)
Fixpoint plain (e : xml) : tree :=
  match e with
  | Elem tag attrs text _ children =>
      match text with
      | _ :: _ => TStr text
      | [] => TDict (map (fun a => (fst a, TStr (snd a))) attrs ++ map (fun c => (x_tag c, plain c)) children)
      end
  end.
(** Elements have a text or attributes and children, and names are used once. *)
Inductive clean : xml -> Prop :=
| clean_text : forall tag text tail, text <> [] -> clean (Elem tag [] text tail [])
| clean_node : forall tag attrs tail children, NoDup (map fst attrs ++ map x_tag children) -> Forall clean children -> clean (Elem tag attrs [] tail children).
Lemma clean_ind2 : forall P : xml -> Prop,
  (forall tag text tail, text <> [] -> P (Elem tag [] text tail [])) ->
  (forall tag attrs tail children, NoDup (map fst attrs ++ map x_tag children) -> Forall clean children -> Forall P children -> P (Elem tag attrs [] tail children)) ->
  forall e, clean e -> P e.
Proof.
  intros P H1 H2. fix IH 2. intros e H. destruct H as [tag text tail Ht|tag attrs tail children Hn Hc]; [apply H1; exact Ht|].
  apply H2; [exact Hn|exact Hc|]. induction Hc as [|c l Hc0 Hl IHl]; constructor; [apply IH; exact Hc0|].
  apply IHl. clear - Hn. cbn [map] in Hn. apply NoDup_remove_1 in Hn. exact Hn.
Qed.

Fixpoint all_children (f : xml -> list (pystr * tree) -> res (list (pystr * tree))) (l : list xml) (x : list (pystr * tree)) : res (list (pystr * tree)) :=
  match l with [] => Ok x | c :: l' => let! y := f c x in all_children f l' y end.
Lemma xml2dtb_node : forall tag attrs tail children d, ~ In tag (map fst d) ->
  xml2dtb (Elem tag attrs [] tail children) d =
  let! d2 := all_children xml2dtb children (fold_left (fun x a => put (fst a) (TStr (snd a)) x) attrs []) in Ok (put tag (TDict d2) d).
Proof.
  intros tag attrs tail children d H. cbn [xml2dtb]. rewrite (lookup_none _ _ _ H). f_equal. generalize (fold_left (fun x a => put (fst a) (TStr (snd a)) x) attrs []).
  induction children as [|c l IH]; intro x; [reflexivity|]. cbn [all_children]. destruct (xml2dtb c x); [|reflexivity]. cbn [bind]. apply IH.
Qed.
Lemma fold_put : forall A B (f : B -> A) attrs (d : list (pystr * A)), NoDup (map fst d ++ map fst attrs) ->
  fold_left (fun x (a : pystr * B) => put (fst a) (f (snd a)) x) attrs d = d ++ map (fun a => (fst a, f (snd a))) attrs.
Proof.
  induction attrs as [|[k v] attrs IH]; intros d H; [rewrite app_nil_r; reflexivity|]. cbn [fold_left fst snd map].
  rewrite put_fresh by (cbn [map fst] in H; apply NoDup_remove_2 in H; intro K; apply H, in_or_app; left; exact K).
  rewrite IH; [rewrite <- app_assoc; reflexivity|]. rewrite map_app. cbn [map fst]. rewrite <- app_assoc. exact H.
Qed.
Theorem C42_simple : forall e, clean e -> forall d, ~ In (x_tag e) (map fst d) -> xml2dtb e d = Ok (d ++ [(x_tag e, plain e)]).
Proof.
  intros e H. induction H as [tag text tail Ht|tag attrs tail children Hn Hc IH] using clean_ind2; intros d Hd; cbn [x_tag] in *.
  - cbn [xml2dtb plain]. destruct text; [congruence|]. rewrite put_fresh by exact Hd. reflexivity.
  - rewrite xml2dtb_node by exact Hd.
    rewrite (fold_put tree pystr TStr) by (cbn [map app]; apply NoDup_app_l in Hn; exact Hn). cbn [app].
    set (d0 := map (fun a : pystr * pystr => (fst a, TStr (snd a))) attrs).
    assert (E : forall l x, Forall (fun e => forall d, ~ In (x_tag e) (map fst d) -> xml2dtb e d = Ok (d ++ [(x_tag e, plain e)])) l ->
       NoDup (map fst x ++ map x_tag l) -> all_children xml2dtb l x = Ok (x ++ map (fun c => (x_tag c, plain c)) l)).
    { clear. induction l as [|c l IHl]; intros x F N; [rewrite app_nil_r; reflexivity|]. inversion F; subst. cbn [all_children map].
      rewrite H1 by (cbn [map] in N; apply NoDup_remove_2 in N; intro K; apply N, in_or_app; left; exact K). cbn [bind].
      rewrite IHl; [rewrite <- app_assoc; reflexivity|assumption|]. rewrite map_app. cbn [map fst]. rewrite <- app_assoc. exact N. }
    rewrite E; [|exact IH|unfold d0; rewrite map_map; cbn [fst]; exact Hn]. cbn [bind]. rewrite put_fresh by exact Hd. reflexivity.
Qed.
(** So every text and attribute is under its path. *)
Inductive step := Child (tag : pystr) (n : nat) | Attr (key : pystr) | Text.
Fixpoint tree_get (t : tree) (path : list pystr) : option tree :=
  match path, t with
  | [], _ => Some t
  | k :: p, TDict d => match lookup k d with Some t' => tree_get t' p | None => None end
  | _, _ => None
  end.
(** [held e path s]: text or attribute [s] is at the path below element [e] *)
Inductive held : xml -> list pystr -> pystr -> Prop :=
| held_text : forall tag attrs text tail children, text <> [] -> held (Elem tag attrs text tail children) [] text
| held_attr : forall tag attrs text tail children k v, In (k, v) attrs -> held (Elem tag attrs text tail children) [k] v
| held_child : forall tag attrs text tail children c p s, In c children -> held c p s -> held (Elem tag attrs text tail children) (x_tag c :: p) s.
Theorem C42_paths : forall e p s, clean e -> held e p s -> tree_get (plain e) p = Some (TStr s).
Proof.
  intros e p s Hc H. induction H as [tag attrs text tail children Ht|tag attrs text tail children k v Hin|tag attrs text tail children c p s Hin Hh IH].
  - cbn [plain]. destruct text; [congruence|reflexivity].
  - inversion Hc as [|? ? ? ? Hn Hf]; subst; [destruct Hin|]. cbn [plain tree_get]. rewrite lookup_app.
    rewrite (lookup_in _ k (TStr v)); [reflexivity| |].
    + rewrite map_map. cbn [fst]. apply NoDup_app_l in Hn. exact Hn.
    + apply in_map_iff. exists (k, v). split; [reflexivity|exact Hin].
  - inversion Hc as [|? ? ? ? Hn Hf]; subst; [destruct Hin|]. cbn [plain tree_get].
    rewrite (lookup_in _ (x_tag c) (plain c)).
    + apply IH. rewrite Forall_forall in Hf. apply Hf, Hin.
    + rewrite map_app, !map_map. cbn [fst]. exact Hn.
    + apply in_or_app. right. apply (in_map (fun c => (x_tag c, plain c))). exact Hin.
Qed.
(** White space before the first child loses the children and attributes; of elements with
    the same tag the last one is kept; attributes of an element with text are lost; an element
    with children after one with text and the same tag stops the converter. *)
Definition el (tag text : string) (ch : list xml) : xml := Elem (str tag) [] (str text) [] ch.
Theorem C42_simple_refuted :
  xml2dtb (Elem (str "a") [(str "k", str "v")] [10] [] [el "b" "1" []]) [] = Ok [(str "a", TStr [10])] /\
  xml2dtb (el "a" "" [el "b" "1" []; el "b" "2" []]) [] = Ok [(str "a", TDict [(str "b", TStr (str "2"))])] /\
  xml2dtb (Elem (str "a") [(str "k", str "v")] (str "1") [] []) [] = Ok [(str "a", TStr (str "1"))] /\
  xml2dtb (el "a" "" [el "b" "1" []; el "b" "" [el "c" "2" []]]) [] = Err AttributeError.
Proof. repeat split. Qed.
Example C42_simple_example : clean (Elem (str "a") [(str "k", str "v")] [] [] [el "b" "1" []; el "c" "" [el "b" "2" []]]).
Proof. repeat (constructor; try discriminate); cbn; intuition discriminate. Qed.

Print Assumptions C41_sanitize.
Print Assumptions C41_twice.
Print Assumptions C41_numbers_refuted.
Print Assumptions C42_simple.
Print Assumptions C42_paths.
Print Assumptions C42_simple_refuted.
