(** Texts of the logs: replaced and separating texts, columns of tables. *)
From Coq Require Import QArith.
From Verif Require Import Base Text Bytes HierModel SfsModel RplModel RplProps RenModel QuadModel HamText SurQuantity LogModel.
Local Open Scope Z_scope.

(** * Specification *)
Definition occurs (p s : pystr) : Prop := exists a b, s = a ++ p ++ b.
(** A separator: a comma, with or without a blank *)
Definition comma (s : pystr) : Prop := s = [44] \/ s = [44; 32].
(** Cells with a separator between them; cells have no commas and do not start with a blank *)
Definition plain_cell (s : pystr) : Prop := ~ In 44 s /\ forall c r, s = c :: r -> c <> 32.
Inductive listed : pystr -> list pystr -> Prop :=
| listed_one : forall s, plain_cell s -> listed s [s]
| listed_more : forall s c line l, plain_cell s -> comma c -> listed line l -> listed (s ++ c ++ line) (s :: l).

(** * Finding texts *)
Lemma starts_spec : forall p s, startswith p s = true <-> exists b, s = p ++ b.
Proof.
  induction p as [|x p IH]; intro s; cbn [startswith]; [split; [intros _; exists s; reflexivity|reflexivity]|]. destruct s as [|y s]; [split; [discriminate|intros [b E]; discriminate E]|]. rewrite andb_true_iff, IH, Z.eqb_eq. split; [intros [-> [b ->]]; exists b; reflexivity|]. intros [b E]. injection E as -> ->. split; [reflexivity|exists b; reflexivity].
Qed.
Lemma contains_spec : forall p s, contains p s = true <-> occurs p s.
Proof.
  intros p s. induction s as [|x s IH]; cbn [contains]; rewrite orb_true_iff, starts_spec.
  - split; [intros [[b E]|K]; [exists [], b; exact E|discriminate K]|]. intros (a & b & E). left. destruct a; [exists b; exact E|discriminate E].
  - rewrite IH. split.
    + intros [[b E]|(a & b & ->)]; [exists [], b; exact E|exists (x :: a), b; reflexivity].
    + intros (a & b & E). destruct a as [|y a]; [left; exists b; exact E|]. injection E as -> ->. right. exists a, b. reflexivity.
Qed.
Lemma contains_not : forall p s, ~ occurs p s <-> contains p s = false.
Proof. intros p s. rewrite <- contains_spec. destruct (contains p s); split; congruence. Qed.
(** * str.replace(", ", ",") *)
Lemma replace_step : forall n p r c s, startswith p (c :: s) = false -> replace_sub (S n) p r (c :: s) = c :: replace_sub n p r s.
Proof. intros n p r c s H. cbn [replace_sub]. rewrite H. reflexivity. Qed.
Lemma replace_pass : forall a n p r x p' s, p = x :: p' -> ~ In x a -> replace_sub (List.length a + n) p r (a ++ s) = a ++ replace_sub n p r s.
Proof.
  induction a as [|c a IH]; intros n p r x p' s E N; [reflexivity|]. cbn [List.length Nat.add app]. rewrite replace_step; [f_equal; apply (IH n p r x p' s E); intro K; apply N; right; exact K|]. subst p. cbn [startswith]. replace (x =? c) with false by (destruct (x =? c) eqn:Q; [exfalso; apply N; left; lia|reflexivity]). reflexivity.
Qed.
Lemma listed_head : forall x line l, listed (x :: line) l -> x <> 32.
Proof.
  intros x line l L. remember (x :: line) as t eqn:E. destruct L as [s [_ P]|s c line0 l [_ P] C L]; [apply (P x line); exact E|]. destruct s as [|y s]; [|cbn [app] in E; injection E as -> _; apply (P x s); reflexivity]. destruct C as [-> | ->]; cbn [app] in E; injection E as <- _; lia.
Qed.
Lemma replace_commas : forall line l, listed line l -> forall n, (List.length line <= n)%nat -> replace_sub n (str ", ") (str ",") line = join_char 44 l.
Proof.
  intros line l L. induction L as [s [S1 S2]|s c line l [S1 S2] C L IH]; intros n N.
  - replace n with (List.length s + (n - List.length s))%nat by lia. pose proof (replace_pass s (n - List.length s) (str ", ") (str ",") 44 [32] [] eq_refl S1) as K. rewrite app_nil_r in K. rewrite K. cbn [join_char]. replace (replace_sub (n - List.length s) (str ", ") (str ",") []) with (@nil Z) by (destruct (n - List.length s)%nat; reflexivity). apply app_nil_r.
  - rewrite !app_length in N. replace n with (List.length s + (n - List.length s))%nat by lia. rewrite (replace_pass s _ (str ", ") _ 44 [32]) by (auto; reflexivity).
    assert (E : replace_sub (n - List.length s) (str ", ") (str ",") (c ++ line) = 44 :: join_char 44 l).
    { destruct C as [-> | ->]; cbn [List.length] in N.
      - destruct (n - List.length s)%nat as [|k] eqn:K; [lia|]. cbn [app]. rewrite replace_step; [rewrite IH by lia; reflexivity|]. change (str ", ") with [44; 32]. cbn [startswith]. rewrite Z.eqb_refl. cbn [andb]. destruct line as [|x line]; [reflexivity|]. pose proof (listed_head _ _ _ L) as X. replace (32 =? x) with false by lia. reflexivity.
      - destruct (n - List.length s)%nat as [|k] eqn:K; [lia|]. cbn [replace_sub]. change (startswith (str ", ") ([44; 32] ++ line)) with true. cbv iota. change (skipn (List.length (str ", ")) ([44; 32] ++ line)) with line. rewrite IH by lia. reflexivity. }
    rewrite E. destruct l as [|w l]; [inversion L|]. reflexivity.
Qed.
Lemma listed_split : forall line l, listed line l -> split_char 44 (replace ", " "," line) = l.
Proof.
  intros line l L. unfold replace. rewrite (replace_commas line l L) by lia. apply split_join; [inversion L; discriminate|]. clear - L. induction L as [s [S _]|s c line l [S _] C L IH]; constructor; auto.
Qed.
(** a blank becomes an underscore *)
Definition under (c : Z) : Z := if c =? 32 then 95 else c.
Lemma replace_blank : forall s n, (List.length s <= n)%nat -> replace_sub n (str " ") (str "_") s = map under s.
Proof.
  induction s as [|c s IH]; intros n N; [destruct n; reflexivity|]. cbn [List.length] in N. destruct n as [|n]; [lia|]. cbn [map replace_sub]. change (startswith (str " ") (c :: s)) with ((32 =? c) && true). change (skipn (List.length (str " ")) (c :: s)) with s. rewrite andb_true_r, IH by lia. unfold under. destruct (Z.eqb_spec 32 c) as [<- | N2]; [reflexivity|]. replace (c =? 32) with false by lia. reflexivity.
Qed.
Lemma replace_under : forall s, replace " " "_" s = map under s.
Proof. intro s. unfold replace. apply replace_blank. lia. Qed.
(** * str.split(" = ") *)
Lemma split_at_none : forall s n p cur, (List.length s <= n)%nat -> p <> [] -> contains p s = false -> split_at n p cur s = [rev cur ++ s].
Proof.
  induction s as [|c s IH]; intros n p cur N P H; [rewrite app_nil_r; destruct n; reflexivity|]. cbn [List.length] in N. destruct n as [|n]; [lia|]. cbn [contains] in H. apply orb_false_iff in H. destruct H as [H1 H2]. cbn [split_at]. rewrite H1, IH by (try lia; assumption). cbn [rev]. rewrite <- app_assoc. reflexivity.
Qed.
Lemma split_at_step : forall n p cur c s, startswith p (c :: s) = false -> split_at (S n) p cur (c :: s) = split_at n p (c :: cur) s.
Proof. intros n p cur c s H. cbn [split_at]. rewrite H. reflexivity. Qed.
(** the first place of a separator: there is none in the text before it and all but its last letter *)
Lemma split_at_first : forall a n p cur b, (List.length a + List.length p + List.length b <= n)%nat -> p <> [] -> contains p (a ++ removelast p) = false -> split_at (S n) p cur (a ++ p ++ b) = (rev cur ++ a) :: split_at (S n - S (List.length a)) p [] b.
Proof.
  induction a as [|c a IH]; intros n p cur b N P H.
  - cbn [app]. destruct p as [|x p]; [congruence|]. change ((x :: p) ++ b) with (x :: (p ++ b)). cbn [split_at]. assert (S : startswith (x :: p) (x :: p ++ b) = true) by (apply starts_spec; exists b; reflexivity). rewrite S. rewrite app_nil_r. f_equal. cbn [List.length skipn Nat.sub]. rewrite Nat.sub_0_r. f_equal. rewrite <- (app_nil_l b) at 2. rewrite skipn_app, skipn_all, Nat.sub_diag. reflexivity.
  - cbn [app contains] in H. apply orb_false_iff in H. destruct H as [H1 H2]. cbn [List.length] in N. destruct n as [|n]; [lia|]. cbn [app].
    assert (S : startswith p (c :: a ++ p ++ b) = false).
    { destruct (startswith p (c :: a ++ p ++ b)) eqn:K; [|reflexivity]. apply starts_spec in K. destruct K as [r K]. exfalso. assert (Q : startswith p (c :: a ++ removelast p) = true); [|congruence]. apply starts_spec. destruct (exists_last P) as [q [z Z]]. rewrite Z, removelast_last in *. clear - K.
      assert (L : (List.length q + 1 <= List.length (c :: a ++ q))%nat) by (cbn [List.length]; rewrite app_length; lia).
      exists (skipn (List.length q + 1) (c :: a ++ q)). rewrite <- (firstn_skipn (List.length q + 1) (c :: a ++ q)) at 1. f_equal. assert (F : firstn (List.length q + 1) (c :: a ++ (q ++ [z]) ++ b) = firstn (List.length q + 1) ((q ++ [z]) ++ r)) by (rewrite <- K; reflexivity).
      replace (c :: a ++ (q ++ [z]) ++ b) with ((c :: a ++ q) ++ ([z] ++ b)) in F by (cbn [app]; rewrite <- !app_assoc; reflexivity). rewrite firstn_app in F. replace (List.length q + 1 - List.length (c :: a ++ q))%nat with 0%nat in F by lia. rewrite app_nil_r in F. rewrite F. replace (List.length q + 1)%nat with (List.length (q ++ [z]) + 0)%nat by (rewrite app_length; cbn; lia). rewrite firstn_app_2. cbn [firstn]. apply app_nil_r. }
    rewrite split_at_step by exact S. rewrite (IH n p (c :: cur) b) by (try lia; assumption). cbn [rev]. rewrite <- app_assoc. reflexivity.
Qed.
Lemma split_on_two : forall a b p, p <> EmptyString -> ~ occurs (str p) (a ++ removelast (str p)) -> ~ occurs (str p) b -> split_on p (a ++ str p ++ b) = [a; b].
Proof.
  intros a b p P A B. apply contains_not in A. apply contains_not in B. assert (NE : str p <> []) by (destruct p; [congruence|discriminate]). unfold split_on. rewrite !app_length. rewrite split_at_first by (try lia; assumption). cbn [rev app]. rewrite split_at_none; [reflexivity|lia|exact NE|exact B].
Qed.
Lemma split_on_one : forall s p, p <> EmptyString -> ~ occurs (str p) s -> split_on p s = [s].
Proof. intros s p P B. apply contains_not in B. assert (NE : str p <> []) by (destruct p; [congruence|discriminate]). unfold split_on. rewrite split_at_none; [reflexivity|lia|exact NE|exact B]. Qed.
