(** Property C95: Protochips logs. *)
From Coq Require Import QArith.
From Verif Require Import Base Text Bytes HierModel HierProps SfsModel RplModel RplProps RenModel QuadModel HamText SurQuantity LogModel DensText DensFile LogText LogTable.
Local Open Scope Z_scope.

(** * Specification *)
(** Lines with "name = value" in their second cell, and lines with anything else *)
Definition param_line (line p v : pystr) : Prop := exists a c more, listed line (a :: (p ++ str " = " ++ v) :: c :: more) /\ ~ occurs (str " = ") (p ++ str " =") /\ ~ occurs (str " = ") v.
Definition note_line (line note : pystr) : Prop := exists a c more, listed line (a :: note :: c :: more) /\ ~ occurs (str " = ") note.
(** The value of the last parameter with a property *)
Definition final (P : pystr -> Prop) (ps : list (pystr * pystr)) (v : pystr) : Prop := exists a b p, ps = a ++ (p, v) :: b /\ P p /\ forall q w, In (q, w) b -> ~ P q.
Definition is_user (p : pystr) : Prop := occurs (str "User") p.
Definition is_calibration (p : pystr) : Prop := occurs (str "Calibration file") p.
Definition is_day (p : pystr) : Prop := ~ is_calibration p /\ occurs (str "Date (yyyy.mm.dd)") p.
Definition is_hour (p : pystr) : Prop := ~ is_calibration p /\ ~ occurs (str "Date (yyyy.mm.dd)") p /\ occurs (str "Time (hh:mm:ss.ms)") p.
Definition is_attribute (k p : pystr) : Prop := ~ is_calibration p /\ ~ occurs (str "Date (yyyy.mm.dd)") p /\ ~ occurs (str "Time (hh:mm:ss.ms)") p /\ k = Text.lower (map under p).
Definition header_of (h : header) (ps : list (pystr * pystr)) : Prop :=
  (forall v, h_calibration h = Some v <-> final is_calibration ps v) /\ (forall v, h_date h = Some v <-> final is_day ps v) /\ (forall v, h_time h = Some v <-> final is_hour ps v) /\ (forall k v, lookup k (h_attrs h) = Some v <-> final (is_attribute k) ps v).
Definition last_word (s w : pystr) : Prop := ~ In 32 w /\ (s = w \/ exists a, s = a ++ 32 :: w).

(** * Lines *)
Lemma listed_newline : forall line l, listed line l -> exists i z, l = i ++ [z] /\ listed (line ++ [10]) (i ++ [z ++ [10]]).
Proof.
  intros line l L. induction L as [s [S1 S2]|s c line l S C L (i & z & -> & IH)].
  - exists [], s. split; [reflexivity|]. constructor. split; [rewrite in_app_iff; intros [K|[K|[]]]; [contradiction|lia]|]. intros x r E. destruct s as [|y s]; [injection E as <- _; lia|]. injection E as <- _. apply (S2 y s). reflexivity.
  - exists (s :: i), z. split; [reflexivity|]. rewrite <- !app_assoc. cbn [app]. constructor; assumption.
Qed.
Lemma listed_cell : forall line a b c more, listed line (a :: b :: c :: more) -> nth_cell (split_char 44 (replace ", " "," (newline line))) 1 = Ok b.
Proof.
  intros line a b c more L. destruct (listed_newline _ _ L) as (i & z & E & N). unfold newline. rewrite (listed_split _ _ N). destruct i as [|x [|y i]]; [discriminate E|injection E as E1 E2; destruct more; discriminate|]. cbn [app] in E. injection E as <- <- _. reflexivity.
Qed.
Theorem C95_parameter : forall line p v, param_line line p v -> parameter (newline line) = Ok (p, v).
Proof.
  intros line p v (a & c & more & L & P & V). unfold parameter. rewrite (listed_cell _ _ _ _ _ L). cbn [bind]. rewrite split_on_two; [reflexivity|discriminate|exact P|exact V].
Qed.
Theorem C95_note : forall line note, note_line line note -> parameter (newline line) = Err ValueError.
Proof.
  intros line note (a & c & more & L & N). unfold parameter. rewrite (listed_cell _ _ _ _ _ L). cbn [bind]. rewrite split_on_one; [reflexivity|discriminate|exact N].
Qed.
(** * The header *)
Definition set_all (h : header) (ps : list (pystr * pystr)) : header := fold_left (fun h pv => set_parameter h (fst pv) (snd pv)) ps h.
Lemma final_snoc : forall P ps p v w, final P (ps ++ [(p, v)]) w <-> (P p /\ w = v) \/ (~ P p /\ final P ps w).
Proof.
  intros P ps p v w. split.
  - intros (a & b & q & E & Q & N). destruct b as [|[x y] b] using rev_ind.
    + apply app_inj_tail in E. destruct E as [_ E]. injection E as -> ->. left. split; [exact Q|reflexivity].
    + change (a ++ (q, w) :: b ++ [(x, y)]) with (a ++ ((q, w) :: b) ++ [(x, y)]) in E. rewrite app_assoc in E. apply app_inj_tail in E. destruct E as [-> E]. injection E as -> ->. right. split; [apply (N x y); apply in_or_app; right; left; reflexivity|]. exists a, b, q. split; [reflexivity|]. split; [exact Q|]. intros r z R. apply (N r z). apply in_or_app. left. exact R.
  - intros [[Q ->]|[Q (a & b & q & -> & QQ & N)]].
    + exists ps, [], p. split; [reflexivity|]. split; [exact Q|]. intros r z [].
    + exists a, (b ++ [(p, v)]), q. split; [rewrite <- app_assoc; reflexivity|]. split; [exact QQ|]. intros r z R. apply in_app_or in R. destruct R as [R|[R|[]]]; [exact (N r z R)|]. injection R as <- _. exact Q.
Qed.
Lemma final_nil : forall P w, ~ final P [] w.
Proof. intros P w (a & b & q & E & _). destruct a; discriminate E. Qed.
Lemma set_all_of : forall ps, header_of (set_all no_header ps) ps.
Proof.
  induction ps as [|[p v] ps IH] using rev_ind.
  - unfold set_all. cbn [fold_left]. repeat split; intro K; try discriminate K; destruct (final_nil _ _ K).
  - unfold set_all. rewrite fold_left_app. change (fold_left _ ps no_header) with (set_all no_header ps). cbn [fold_left fst snd]. destruct IH as (I1 & I2 & I3 & I4). set (h := set_all no_header ps) in *. unfold set_parameter.
    assert (OPT : forall (x : option pystr) P, (forall w, x = Some w <-> final P ps w) -> forall Q : Prop, (P p <-> Q) -> (Q -> forall w, (Some v = Some w <-> final P (ps ++ [(p, v)]) w)) /\ (~ Q -> forall w, (x = Some w <-> final P (ps ++ [(p, v)]) w))).
    { intros x P X Q PQ. split; intros H w; rewrite final_snoc.
      - split; [intro E; injection E as <-; left; split; [apply PQ; exact H|reflexivity]|]. intros [[_ ->]|[N _]]; [reflexivity|]. exfalso. apply N. apply PQ. exact H.
      - rewrite X. split; [intro F; right; split; [rewrite PQ; exact H|exact F]|]. intros [[K _]|[_ F]]; [exfalso; apply H; apply PQ; exact K|exact F]. }
    destruct (contains (str "Calibration file") p) eqn:C1.
    { assert (K : is_calibration p) by (apply contains_spec; exact C1). split; [|split; [|split]]; cbn [h_calibration h_date h_time h_attrs].
      - exact (proj1 (OPT _ _ I1 _ (iff_refl _)) K).
      - apply (OPT _ _ I2 _ (iff_refl _)). unfold is_day. tauto.
      - apply (OPT _ _ I3 _ (iff_refl _)). unfold is_hour. tauto.
      - intro k. apply (OPT _ _ (I4 k) _ (iff_refl _)). unfold is_attribute. tauto. }
    assert (N1 : ~ is_calibration p) by (apply contains_not; exact C1). destruct (contains (str "Date (yyyy.mm.dd)") p) eqn:C2.
    { assert (K : occurs (str "Date (yyyy.mm.dd)") p) by (apply contains_spec; exact C2). split; [|split; [|split]]; cbn [h_calibration h_date h_time h_attrs].
      - apply (OPT _ _ I1 _ (iff_refl _)). exact N1.
      - apply (proj1 (OPT _ _ I2 _ (iff_refl _))). split; assumption.
      - apply (OPT _ _ I3 _ (iff_refl _)). unfold is_hour. tauto.
      - intro k. apply (OPT _ _ (I4 k) _ (iff_refl _)). unfold is_attribute. tauto. }
    assert (N2 : ~ occurs (str "Date (yyyy.mm.dd)") p) by (apply contains_not; exact C2). destruct (contains (str "Time (hh:mm:ss.ms)") p) eqn:C3.
    { assert (K : occurs (str "Time (hh:mm:ss.ms)") p) by (apply contains_spec; exact C3). split; [|split; [|split]]; cbn [h_calibration h_date h_time h_attrs].
      - apply (OPT _ _ I1 _ (iff_refl _)). exact N1.
      - apply (OPT _ _ I2 _ (iff_refl _)). unfold is_day. tauto.
      - apply (proj1 (OPT _ _ I3 _ (iff_refl _))). repeat split; assumption.
      - intro k. apply (OPT _ _ (I4 k) _ (iff_refl _)). unfold is_attribute. tauto. }
    assert (N3 : ~ occurs (str "Time (hh:mm:ss.ms)") p) by (apply contains_not; exact C3). split; [|split; [|split]]; cbn [h_calibration h_date h_time h_attrs].
    + apply (OPT _ _ I1 _ (iff_refl _)). exact N1.
    + apply (OPT _ _ I2 _ (iff_refl _)). unfold is_day. tauto.
    + apply (OPT _ _ I3 _ (iff_refl _)). unfold is_hour. tauto.
    + intros k w. rewrite replace_under, lookup_put. destruct (eqb_str k (Text.lower (map under p))) eqn:E.
      * apply eqb_str_spec in E. apply (proj1 (OPT _ _ (I4 k) _ (iff_refl _))). repeat split; assumption.
      * apply (proj2 (OPT _ _ (I4 k) _ (iff_refl _))). apply eqb_str_neq in E. unfold is_attribute. tauto.
Qed.
Lemma finish_of : forall h u i ps, header_of h ps -> header_of (finish h u i) ps.
Proof. intros h u i ps H. exact H. Qed.
Lemma no_user : forall p, ~ is_user p -> contains (str "User") p = false.
Proof. intros p N. apply contains_not. exact N. Qed.
Lemma read_user : forall ps lines h i p v uline up u rest, Forall2 (fun l pv => param_line l (fst pv) (snd pv)) lines ps -> Forall (fun pv => ~ is_user (fst pv)) ps -> ~ is_user p -> param_line uline up u -> is_user up ->
  read_header h i p v (lines ++ uline :: rest) = finish (set_all h ((p, v) :: ps)) (Some (Some u)) (i + 1 + zlen ps).
Proof.
  intros ps lines. revert ps. induction lines as [|l lines IH]; intros ps h i p v uline up u rest F N NP U UP; inversion F as [|? [q w] ? ? L F']; subst.
  - cbn [app read_header]. rewrite (no_user p NP), (C95_parameter _ _ _ U). cbv zeta. destruct rest as [|r rest]; cbn [read_header]; assert (K : contains (str "User") up = true) by (apply contains_spec; exact UP); rewrite K; unfold set_all; cbn [fold_left fst snd zlen List.length]; change (Z.of_nat 0) with 0; rewrite Z.add_0_r; reflexivity.
  - cbn [app read_header]. rewrite (no_user p NP). cbv zeta. cbn [fst snd] in L. rewrite (C95_parameter _ _ _ L). inversion N as [|? ? N1 N2]; subst. rewrite (IH _ _ _ _ _ _ up u rest F' N2 N1 U UP). unfold set_all. cbn [fold_left fst snd]. f_equal. unfold zlen. cbn [List.length]. lia.
Qed.
Lemma read_nouser : forall ps lines h i p v nline note rest, Forall2 (fun l pv => param_line l (fst pv) (snd pv)) lines ps -> Forall (fun pv => ~ is_user (fst pv)) ps -> ~ is_user p -> note_line nline note ->
  read_header h i p v (lines ++ nline :: rest) = finish (set_all h ((p, v) :: ps)) (Some None) (i + 1 + zlen ps).
Proof.
  intros ps lines. revert ps. induction lines as [|l lines IH]; intros ps h i p v nline note rest F N NP U; inversion F as [|? [q w] ? ? L F']; subst.
  - cbn [app read_header]. rewrite (no_user p NP), (C95_note _ _ U). cbv zeta. unfold set_all. cbn [fold_left fst snd zlen List.length]. change (Z.of_nat 0) with 0. rewrite Z.add_0_r. reflexivity.
  - cbn [app read_header]. rewrite (no_user p NP). cbv zeta. cbn [fst snd] in L. rewrite (C95_parameter _ _ _ L). inversion N as [|? ? N1 N2]; subst. rewrite (IH _ _ _ _ _ _ _ rest F' N2 N1 U). unfold set_all. cbn [fold_left fst snd]. f_equal. unfold zlen. cbn [List.length]. lia.
Qed.
(** The parameters up to the line with the user; the table starts after this line.  Without such a line the header ends with
    the first line that is no parameter, and the table starts after it *)
Theorem C95_header : forall ps lines p v next rest, Forall2 (fun l pv => param_line l (fst pv) (snd pv)) lines ps -> Forall (fun pv => ~ is_user (fst pv)) ((p, v) :: ps) ->
  let h := read_header no_header 2 p v (lines ++ next :: rest) in
  (forall up u, param_line next up u -> is_user up -> header_of h ((p, v) :: ps) /\ h_user h = Some (Some u) /\ h_lines h = 3 + zlen ps) /\
  (forall note, note_line next note -> header_of h ((p, v) :: ps) /\ h_user h = Some None /\ h_lines h = 3 + zlen ps).
Proof.
  intros ps lines p v next rest F N. inversion N as [|? ? N1 N2]; subst. cbv zeta. split.
  - intros up u U UP. rewrite (read_user ps lines no_header 2 p v next up u rest F N2 N1 U UP). split; [apply finish_of; apply set_all_of|]. split; [reflexivity|cbn [h_lines finish]; lia].
  - intros note U. rewrite (read_nouser ps lines no_header 2 p v next note rest F N2 N1 U). split; [apply finish_of; apply set_all_of|]. split; [reflexivity|cbn [h_lines finish]; lia].
Qed.
Lemma last_word_cell : forall s w, last_word s w -> last_cell (split_char 32 s) = w.
Proof.
  intros s w [N H]. unfold last_cell. destruct H as [-> | [a ->]]; [rewrite split_char_nosep by exact N; reflexivity|].
  assert (G : forall a, last (split_char 32 (a ++ 32 :: w)) [] = w).
  { clear a. intro a. induction a as [|c a IH]; cbn [app split_char]; [rewrite Z.eqb_refl, split_char_nosep by exact N; reflexivity|]. destruct (c =? 32).
    - destruct (split_char 32 (a ++ 32 :: w)) as [|x l] eqn:E; [destruct (split_char_ne _ _ E)|]. exact IH.
    - destruct (split_char 32 (a ++ 32 :: w)) as [|x l] eqn:E; [destruct (split_char_ne _ _ E)|]. destruct l as [|y l]; [exfalso|exact IH]. assert (J : join_char 32 (split_char 32 (a ++ 32 :: w)) = a ++ 32 :: w) by apply join_split. rewrite E in J. cbn [join_char] in J. apply (split_nosep_parts 32 (a ++ 32 :: w) x); [rewrite E; left; reflexivity|]. rewrite J. apply in_or_app. right. left. reflexivity. }
  apply G.
Qed.
