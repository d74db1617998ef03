(** Properties C76 and C77: metadata and comments of sur and pro files. *)
From Verif Require Import Base Text HierModel SurMetaModel.
Local Open Scope Z_scope.

(** * Specification of comments *)
Definition no_break (s : pystr) : Prop := Forall (fun c => is_break c = false) s.
Definition plain (s : pystr) : Prop := no_break s /\ trimmed s /\ ~ In 61 s.
Definition not_us (s : pystr) : Prop := hd 0 s <> 95.
Section Spec.
  Variable A : Type.
  Variable show : A -> pystr.
  Variable eval : pystr -> A.
  Variable raw : pystr -> A.
  (** A key, its value, and maybe units *)
  Record entry := { e_key : pystr; e_value : A; e_units : option A }.
  Definition items (e : entry) : list (pystr * A) := (e_key e, e_value e) :: match e_units e with Some u => [(e_key e ++ str "_units", u)] | None => [] end.
  Definition dict (secs : list (pystr * list entry)) : list (pystr * list (pystr * A)) := map (fun s => (fst s, flat_map items (snd s))) secs.
  (** Text in one line without spaces or equals signs *)
  Definition value_ok (a : A) : Prop := plain (show a) /\ ~ In 32 (show a).
  Definition entry_ok (e : entry) : Prop :=
    plain (e_key e) /\ not_us (e_key e) /\ value_ok (e_value e) /\ (if eqb_str (e_key e) (str "Grating") then raw else eval) (show (e_value e)) = e_value e /\
    match e_units e with Some u => value_ok u /\ show u <> [] /\ raw (show u) = u /\ show (e_value e) <> [] | None => True end.
  Definition section_ok (s : pystr * list entry) : Prop :=
    no_break (fst s) /\ trimmed (fst s) /\ not_us (fst s) /\ Forall entry_ok (snd s) /\ NoDup (map fst (flat_map items (snd s))) /\
    (forall e, In e (snd s) -> e_units e = None -> ~ In (e_key e ++ str "_units") (map fst (flat_map items (snd s)))).
  Definition sections_ok (secs : list (pystr * list entry)) : Prop :=
    secs <> [] /\ Forall section_ok secs /\ NoDup (map fst secs) /\ (forall s e, In s secs -> In e (snd s) -> ~ In (e_key e ++ str "_units") (map fst secs)).
End Spec.
Arguments e_key {A} _.
Arguments e_value {A} _.
Arguments e_units {A} _.
Arguments items {A} _.
Arguments dict {A} _.

(** * Lines *)
Lemma splitlines_line : forall l s, no_break l -> splitlines (l ++ 10 :: s) = l :: splitlines s.
Proof.
  induction l as [|c l IH]; intros s H.
  - cbn [app splitlines]. change (is_break 10) with true. cbn iota. change (10 =? 13) with false. cbn [andb]. destruct s; reflexivity.
  - cbn [app splitlines]. rewrite (Forall_inv H), IH by exact (Forall_inv_tail H). reflexivity.
Qed.
Lemma splitlines_last : forall l, no_break l -> l <> [] -> splitlines l = [l].
Proof.
  induction l as [|c l IH]; intros H Hn; [congruence|]. cbn [splitlines]. rewrite (Forall_inv H). destruct l as [|d l]; [reflexivity|]. rewrite IH by (exact (Forall_inv_tail H) || discriminate). reflexivity.
Qed.
Definition text_of (lines : list pystr) : pystr := List.concat (map (fun l => l ++ [10]) lines).
Lemma splitlines_text : forall lines s, Forall no_break lines -> splitlines (text_of lines ++ s) = lines ++ splitlines s.
Proof.
  induction lines as [|l lines IH]; intros s H; [reflexivity|]. unfold text_of in *. cbn [map List.concat]. rewrite <- !app_assoc. cbn [app]. rewrite splitlines_line by exact (Forall_inv H). rewrite IH by exact (Forall_inv_tail H). reflexivity.
Qed.
Lemma lstrip_ne : forall l c, is_space c = false -> lstrip (l ++ [c]) <> [].
Proof. induction l as [|x l IH]; intros c H; cbn [app lstrip]; [rewrite H; discriminate|]. destruct (is_space x); [apply IH; exact H|discriminate]. Qed.
Lemma strip_ne : forall c s, is_space c = false -> strip (c :: s) <> [].
Proof.
  intros c s H E. unfold strip in E. rewrite lstrip_id in E by exact H. unfold rstrip in E. cbn [rev] in E. apply (f_equal (@rev Z)) in E. rewrite rev_involutive in E. exact (lstrip_ne _ _ H E).
Qed.
Lemma strip_space_left : forall s, strip (32 :: s) = strip s.
Proof. reflexivity. Qed.
Lemma strip_space_right : forall s, trimmed s -> strip (s ++ [32]) = s.
Proof.
  intros [|c s] H; [reflexivity|]. destruct H as [H1 H2]. unfold strip. cbn [app]. rewrite lstrip_id by exact H1. unfold rstrip. change (c :: s ++ [32]) with ((c :: s) ++ [32]). rewrite rev_app_distr. cbn [rev app lstrip].
  change (is_space 32) with true. cbn iota. destruct (rev_last_cons _ (c :: s) 0) as [r E]; [discriminate|]. cbn [rev] in E. rewrite E. rewrite lstrip_id by exact H2. rewrite <- E. change (rev s ++ [c]) with (rev (c :: s)). apply rev_involutive.
Qed.
Lemma dollar_line : forall s, ignored (36 :: s) = false.
Proof. intro s. unfold ignored. destruct (strip (36 :: s)) eqn:E; [exfalso; exact (strip_ne 36 s eq_refl E)|reflexivity]. Qed.

(** * Dictionaries *)
Lemma put_new : forall A k (v : A) l, ~ In k (map fst l) -> put k v l = l ++ [(k, v)].
Proof.
  intros A k v l H. induction l as [|[k' v'] l IH]; [reflexivity|]. cbn [put map fst In app] in *. destruct (eqb_str k k') eqn:E; [apply eqb_str_spec in E; subst; tauto|]. rewrite IH by tauto. reflexivity.
Qed.
Lemma put_last : forall A k (v v' : A) l, ~ In k (map fst l) -> put k v' (l ++ [(k, v)]) = l ++ [(k, v')].
Proof.
  intros A k v v' l H. induction l as [|[k' w] l IH]; cbn [app put map fst In] in *; [rewrite eqb_str_refl; reflexivity|]. destruct (eqb_str k k') eqn:E; [apply eqb_str_spec in E; subst; tauto|]. rewrite IH by tauto. reflexivity.
Qed.
Lemma lookup_last : forall A k (v : A) l, ~ In k (map fst l) -> lookup k (l ++ [(k, v)]) = Some v.
Proof.
  intros A k v l H. induction l as [|[k' w] l IH]; cbn [app lookup map fst In] in *; [rewrite eqb_str_refl; reflexivity|]. destruct (eqb_str k k') eqn:E; [apply eqb_str_spec in E; subst; tauto|]. apply IH. tauto.
Qed.
Lemma nodup_middle : forall A (a b : list A) x, NoDup (a ++ x :: b) -> ~ In x a.
Proof. intros A a b x H I. apply NoDup_remove_2 in H. apply H. apply in_or_app. left. exact I. Qed.

Lemma nodup_left : forall A (a b : list A), NoDup (a ++ b) -> NoDup a.
Proof. intros A a b H. induction a as [|x a IH]; [constructor|]. inversion H as [|? ? H1 H2]; subst. constructor; [|apply IH; exact H2]. intro I. apply H1. apply in_or_app. left. exact I. Qed.

Section Comments.
  Variable A : Type.
  Variable show : A -> pystr.
  Variable eval : pystr -> A.
  Variable raw : pystr -> A.
  Variable repr : list (pystr * tree A) -> pystr.
  Notation entry := (entry A).
  Definition title_line (t : pystr) : pystr := str "$_" ++ t.
  Definition entry_line (e : entry) : pystr := str "$" ++ e_key e ++ str " = " ++ show (e_value e) ++ match e_units e with Some u => 32 :: show u | None => [] end.
  Definition section_lines (s : pystr * list entry) : list pystr := title_line (fst s) :: map entry_line (snd s).
  Definition leaves (l : list (pystr * A)) : list (pystr * tree A) := map (fun ka => (fst ka, Leaf A (snd ka))) l.
  Definition nodes (secs : list (pystr * list entry)) : list (pystr * tree A) := map (fun s => (fst s, Node A (leaves (flat_map items (snd s))))) secs.
  Lemma of_dict : forall secs, of_sections A (dict secs) = Node A (nodes secs).
  Proof. intro secs. unfold of_sections, dict, nodes, leaves. rewrite map_map. reflexivity. Qed.
  (** Writing *)
  Lemma pop_none : forall k q, ~ In k (map fst q) -> pop_key A k q = None.
  Proof.
    intros k q H. induction q as [|[k' v] q IH]; [reflexivity|]. cbn [pop_key map fst In] in *. destruct (eqb_str k k') eqn:E; [apply eqb_str_spec in E; subst; tauto|]. rewrite IH by tauto. reflexivity.
  Qed.
  Lemma stringify_entries : forall es f rest, (forall e, In e es -> ~ In (e_key e ++ str "_units") (map fst rest)) -> 
    (forall e, In e es -> e_units e = None -> ~ In (e_key e ++ str "_units") (map fst (flat_map items es))) ->
    stringify A show repr (List.length es + f) (leaves (flat_map items es) ++ rest) = let! r := stringify A show repr f rest in Ok (text_of (map entry_line es) ++ r).
  Proof.
    induction es as [|e es IH]; intros f rest Hr Hn.
    - cbn [List.length Nat.add flat_map leaves map app]. destruct (stringify A show repr f rest); reflexivity.
    - assert (Hr' : forall e', In e' es -> ~ In (e_key e' ++ str "_units") (map fst rest)) by (intros e' He; apply Hr; right; exact He).
      assert (Hn' : forall e', In e' es -> e_units e' = None -> ~ In (e_key e' ++ str "_units") (map fst (flat_map items es))) by (intros e' He Hu I; apply (Hn e' (or_intror He) Hu); cbn [flat_map]; rewrite map_app; apply in_or_app; right; exact I).
      cbn [List.length Nat.add flat_map]. unfold leaves. rewrite map_app, <- app_assoc. fold (leaves (flat_map items es)). unfold text_of. cbn [map List.concat]. fold (text_of (map entry_line es)).
      destruct e as [k a [u|]]; unfold items at 1; cbn [e_key e_value e_units map fst snd app]; cbn [stringify].
      + cbn [pop_key]. rewrite eqb_str_refl. rewrite IH by assumption. destruct (stringify A show repr f rest) as [r|x]; [|reflexivity]. cbn [bind]. f_equal. unfold entry_line. cbn [e_key e_value e_units show_tree]. cbn [app]. rewrite <- ?app_assoc. cbn [app]. rewrite <- ?app_assoc. cbn [app]. rewrite <- ?app_assoc. reflexivity.
      + rewrite pop_none.
        * rewrite IH by assumption. destruct (stringify A show repr f rest) as [r|x]; [|reflexivity]. cbn [bind]. f_equal. unfold entry_line. cbn [e_key e_value e_units]. cbn [app]. rewrite <- ?app_assoc. cbn [app]. rewrite <- ?app_assoc. cbn [app]. rewrite <- ?app_assoc. reflexivity.
        * rewrite map_app. intro I. apply in_app_or in I. destruct I as [I|I]; [|exact (Hr _ (or_introl eq_refl) I)]. apply (Hn _ (or_introl eq_refl) eq_refl). cbn [flat_map]. rewrite map_app. apply in_or_app. right. unfold leaves in I. rewrite map_map in I. exact I.
  Qed.
  Definition cost (secs : list (pystr * list entry)) : nat := fold_right (fun s n => S (List.length (snd s) + n)) O secs.
  Lemma stringify_sections : forall secs f titles, (forall s e, In s secs -> In e (snd s) -> ~ In (e_key e ++ str "_units") titles) -> (forall s, In s secs -> In (fst s) titles) ->
    Forall (section_ok A show eval raw) secs -> stringify A show repr (cost secs + f) (nodes secs) = Ok (text_of (flat_map section_lines secs)).
  Proof.
    induction secs as [|[t es] secs IH]; intros f titles Ht Hin H; [destruct f; reflexivity|].
    pose proof (Forall_inv H) as (_ & _ & _ & _ & _ & Hu). apply Forall_inv_tail in H. cbn [fst snd] in *.
    cbn [cost fold_right snd]. fold (cost secs). cbn [Nat.add nodes map fst snd]. fold (nodes secs). cbn [stringify]. rewrite <- Nat.add_assoc, stringify_entries.
    - rewrite (IH f titles); [|intros s e H1 H2; apply (Ht s e); [right; exact H1|exact H2]|intros s H1; apply Hin; right; exact H1|exact H]. cbn [bind]. f_equal. cbn [flat_map]. unfold section_lines at 2. cbn [fst snd]. unfold text_of. rewrite map_app, concat_app. cbn [map List.concat]. unfold title_line. cbn [app]. rewrite <- ?app_assoc. cbn [app]. rewrite <- ?app_assoc. reflexivity.
    - intros e He I. unfold nodes in I. rewrite map_map in I. cbn [fst] in I. apply (Ht (t, es) e (or_introl eq_refl) He). apply in_map_iff in I. destruct I as (s & E & I). rewrite <- E. apply Hin. right. exact I.
    - exact Hu.
  Qed.
  Lemma size_leaves : forall l n, (fold_right (fun kt m => tree_size A (snd kt) + m) n (leaves l) = List.length l + n)%nat.
  Proof. induction l as [|x l IH]; intro n; [reflexivity|]. cbn [leaves map fold_right snd tree_size List.length Nat.add]. fold (leaves l). rewrite IH. reflexivity. Qed.
  Lemma items_length : forall es : list entry, (List.length es <= List.length (flat_map items es))%nat.
  Proof. induction es as [|e es IH]; [apply le_n|]. cbn [flat_map List.length]. rewrite app_length. unfold items at 1. cbn [List.length]. lia. Qed.
  Lemma cost_size : forall secs, (cost secs <= tree_size A (Node A (nodes secs)))%nat.
  Proof.
    intro secs. cbn [tree_size]. induction secs as [|[t es] secs IH]; [apply Nat.le_0_l|]. cbn [cost fold_right nodes map fst snd]. fold (cost secs) (nodes secs). cbn [tree_size]. rewrite (size_leaves _ 0). pose proof (items_length es). lia.
  Qed.
  Lemma comment_text : forall secs, sections_ok A show eval raw secs -> comment_of A show repr (nodes secs) = Ok (text_of (flat_map section_lines secs)).
  Proof.
    intros secs (_ & H & _ & Hu). unfold comment_of. pose proof (cost_size secs) as Hc. replace (tree_size A (Node A (nodes secs))) with (cost secs + (tree_size A (Node A (nodes secs)) - cost secs))%nat by lia.
    apply (stringify_sections secs _ (map fst secs)); [exact Hu|intros s I; apply in_map; exact I|exact H].
  Qed.

  (** Reading *)
  Lemma title_parsed : forall d m t, trimmed t -> parse_line A eval raw (d, m) (title_line t) = (put t [] d, Some t).
  Proof. intros d m t H. unfold parse_line, title_line. cbn [app str]. change (str "$_" ++ t) with (36 :: 95 :: t). rewrite dollar_line. change (startswith titlestart (36 :: 95 :: t)) with true. cbn iota. change (skipn 2 (36 :: 95 :: t)) with t. rewrite strip_trimmed by exact H. reflexivity. Qed.
  Lemma not_title : forall k s, not_us k -> startswith titlestart (36 :: k ++ 32 :: s) = false.
  Proof. intros [|c k] s H; [reflexivity|]. unfold titlestart. change (prefix ++ str "_") with [36; 95]. cbn [app startswith]. unfold not_us in H. cbn [hd] in H. assert (E : (95 =? c) = false) by lia. rewrite E. reflexivity. Qed.
  Lemma trimmed_pair : forall a b, trimmed a -> a <> [] -> trimmed b -> b <> [] -> trimmed (a ++ 32 :: b).
  Proof.
    intros [|c a] [|d b] Ha Na Hb Nb; try congruence. destruct Ha as [Ha _]. destruct Hb as [_ Hb]. cbn [app trimmed]. split; [exact Ha|]. change (c :: a ++ 32 :: d :: b) with ((c :: a) ++ 32 :: d :: b).
    assert (E : last ((c :: a) ++ 32 :: d :: b) 0 = last (d :: b) 0). { destruct (exists_last (l := d :: b)) as (b' & x & E); [discriminate|]. rewrite E. change (32 :: b' ++ [x]) with ((32 :: b') ++ [x]). rewrite app_assoc, !last_last. reflexivity. }
    rewrite E. exact Hb.
  Qed.
  (** The text after the equals sign, with or without the space *)
  Definition value_text (e : entry) : pystr := show (e_value e) ++ match e_units e with Some u => 32 :: show u | None => [] end.
  Lemma value_parsed : forall e, entry_ok A show eval raw e -> trimmed (value_text e) /\ ~ In 61 (value_text e) /\ no_break (value_text e) /\
    split_char 32 (value_text e) = match e_units e with Some u => [show (e_value e); show u] | None => [show (e_value e)] end.
  Proof.
    intros [k a u] (_ & _ & ((V1 & V2 & V3) & V4) & _ & Hu). unfold value_text. cbn [e_key e_value e_units] in *. destruct u as [u|].
    - destruct Hu as (((U1 & U2 & U3) & U4) & Nu & _ & Na). split; [apply trimmed_pair; assumption|]. split; [intro I; apply in_app_or in I; destruct I as [I|[I|I]]; [tauto|discriminate|tauto]|]. split; [unfold no_break in *; rewrite Forall_app; split; [exact V1|constructor; [reflexivity|exact U1]]|].
      rewrite split_char_app by exact V4. rewrite split_char_nosep by exact U4. reflexivity.
    - rewrite app_nil_r. split; [exact V2|]. split; [exact V3|]. split; [exact V1|]. apply split_char_nosep. exact V4.
  Qed.
  Lemma entry_parsed : forall d t acc e sp, sp = [32] \/ sp = [] -> entry_ok A show eval raw e -> ~ In t (map fst d) -> NoDup (map fst (acc ++ items e)) ->
    parse_line A eval raw (d ++ [(t, acc)], Some t) (36 :: e_key e ++ [32; 61] ++ sp ++ value_text e) = (d ++ [(t, acc ++ items e)], Some t).
  Proof.
    intros d t acc e sp Hsp He Ht Hnd. pose proof (value_parsed e He) as (T1 & T2 & _ & T3). destruct He as ((K1 & K2 & K3) & K4 & V & Ev & Hu).
    unfold parse_line. rewrite dollar_line. change ([32; 61] ++ sp ++ value_text e) with (32 :: [61] ++ sp ++ value_text e). rewrite not_title by exact K4. change (startswith prefix (36 :: e_key e ++ 32 :: [61] ++ sp ++ value_text e)) with true. cbn iota.
    change (36 :: e_key e ++ 32 :: [61] ++ sp ++ value_text e) with ((36 :: e_key e) ++ [32] ++ 61 :: sp ++ value_text e). rewrite app_assoc. rewrite split_char_app; [|intro I; apply in_app_or in I; destruct I as [[I|I]|[I|[]]]; [discriminate|tauto|discriminate]].
    assert (Esp : split_char 61 (sp ++ value_text e) = [sp ++ value_text e]) by (apply split_char_nosep; intro I; apply in_app_or in I; destruct I as [I|I]; [destruct Hsp; subst sp; cbn in I; intuition discriminate|tauto]). rewrite Esp. cbn [skipn app].
    change (skipn 1 ((36 :: e_key e) ++ [32])) with (e_key e ++ [32]). rewrite (strip_space_right (e_key e) K2).
    assert (Es : strip (sp ++ value_text e) = value_text e) by (destruct Hsp; subst sp; cbn [app]; rewrite ?strip_space_left; apply strip_trimmed; exact T1). rewrite Es, T3.
    assert (Hadd : forall k v ac, ~ In k (map fst ac) -> add A t k v (d ++ [(t, ac)]) = d ++ [(t, ac ++ [(k, v)])]) by (intros k v ac Hk; unfold add; rewrite lookup_last by exact Ht; rewrite (put_new _ k v ac Hk), put_last by exact Ht; reflexivity).
    rewrite map_app in Hnd. destruct e as [k a u]. unfold items in *. cbn [e_key e_value e_units map fst] in *. pose proof (nodup_middle _ _ _ _ Hnd) as Nk. destruct u as [u|].
    - destruct Hu as (_ & _ & Ru & _). rewrite Hadd by exact Nk. rewrite Hadd.
      + rewrite Ru. rewrite <- app_assoc. cbn [app]. f_equal. f_equal. f_equal. f_equal. f_equal. f_equal. f_equal. destruct (eqb_str k (str "Grating")); rewrite Ev; reflexivity.
      + rewrite map_app. cbn [map fst] in Hnd |- *. change (k :: [k ++ str "_units"]) with ([k] ++ [k ++ str "_units"]) in Hnd. rewrite app_assoc in Hnd. exact (nodup_middle _ _ _ _ Hnd).
    - rewrite Hadd by exact Nk. destruct (eqb_str k (str "Grating")); rewrite Ev; reflexivity.
  Qed.
  Lemma entry_shape : forall e, entry_line e = 36 :: e_key e ++ [32; 61] ++ [32] ++ value_text e.
  Proof. intro e. reflexivity. Qed.
  Lemma entries_parsed : forall es d t acc, Forall (entry_ok A show eval raw) es -> ~ In t (map fst d) -> NoDup (map fst (acc ++ flat_map items es)) ->
    fold_left (parse_line A eval raw) (map entry_line es) (d ++ [(t, acc)], Some t) = (d ++ [(t, acc ++ flat_map items es)], Some t).
  Proof.
    induction es as [|e es IH]; intros d t acc H Ht Hn; cbn [map fold_left flat_map]; [rewrite app_nil_r; reflexivity|]. cbn [flat_map] in Hn. rewrite app_assoc in *. rewrite entry_shape.
    rewrite entry_parsed; [|left; reflexivity|exact (Forall_inv H)|exact Ht|rewrite map_app in Hn; apply nodup_left in Hn; exact Hn]. apply IH; [exact (Forall_inv_tail H)|exact Ht|exact Hn].
  Qed.
  Lemma section_parsed : forall s d m, section_ok A show eval raw s -> ~ In (fst s) (map fst d) ->
    fold_left (parse_line A eval raw) (section_lines s) (d, m) = (d ++ [(fst s, flat_map items (snd s))], Some (fst s)).
  Proof.
    intros [t es] d m (H1 & H2 & H3 & H4 & H5 & H6) Ht. cbn [fst snd] in *. unfold section_lines. cbn [fst snd fold_left]. rewrite title_parsed by exact H2. rewrite put_new by exact Ht. apply (entries_parsed es d t []); assumption.
  Qed.
  Lemma sections_parsed : forall secs d m, Forall (section_ok A show eval raw) secs -> NoDup (map fst d ++ map fst secs) ->
    fst (fold_left (parse_line A eval raw) (flat_map section_lines secs) (d, m)) = d ++ dict secs.
  Proof.
    induction secs as [|s secs IH]; intros d m H Hn; cbn [flat_map map] in *; [symmetry; apply app_nil_r|]. rewrite fold_left_app. pose proof (nodup_middle _ _ _ _ Hn) as Hs. rewrite (section_parsed s d m (Forall_inv H) Hs). rewrite IH.
    - cbn [dict map fst snd]. fold (dict secs). rewrite <- app_assoc. reflexivity.
    - exact (Forall_inv_tail H).
    - rewrite map_app, <- app_assoc. exact Hn.
  Qed.
  Lemma section_breaks : forall s, section_ok A show eval raw s -> Forall no_break (section_lines s).
  Proof.
    intros [t es] (H1 & _ & _ & H4 & _). cbn [fst snd] in *. unfold section_lines. cbn [fst snd]. constructor; [repeat (constructor; [reflexivity|]); exact H1|]. apply Forall_forall. intros l Hl. apply in_map_iff in Hl. destruct Hl as (e & <- & He). rewrite Forall_forall in H4. specialize (H4 e He).
    pose proof (value_parsed e H4) as (_ & _ & Hb & _). destruct H4 as ((K1 & _) & _). rewrite entry_shape. constructor; [reflexivity|]. unfold no_break in *. rewrite Forall_app. split; [exact K1|]. repeat (constructor; [reflexivity|]). exact Hb.
  Qed.
  Lemma sections_breaks : forall secs, Forall (section_ok A show eval raw) secs -> Forall no_break (flat_map section_lines secs).
  Proof. intros secs H. apply Forall_forall. intros l Hl. apply in_flat_map in Hl. destruct Hl as (s & Hs & Hl). rewrite Forall_forall in H. pose proof (section_breaks s (H s Hs)) as X. rewrite Forall_forall in X. exact (X l Hl). Qed.

  (** The space after the equals sign does not matter *)
  Lemma space_parsed : forall e st, entry_ok A show eval raw e -> parse_line A eval raw st (36 :: e_key e ++ [32; 61] ++ value_text e) = parse_line A eval raw st (entry_line e).
  Proof.
    intros e [d m] He. pose proof (value_parsed e He) as (T1 & T2 & _ & _). destruct He as ((K1 & K2 & K3) & K4 & _). rewrite entry_shape. unfold parse_line. rewrite !dollar_line. change ([32; 61] ++ value_text e) with (32 :: [61] ++ value_text e). change ([32; 61] ++ [32] ++ value_text e) with (32 :: [61] ++ [32] ++ value_text e). rewrite !not_title by exact K4.
    assert (E : forall sp, sp = [32] \/ sp = [] -> split_char 61 (36 :: e_key e ++ 32 :: [61] ++ sp ++ value_text e) = [36 :: e_key e ++ [32]; sp ++ value_text e]).
    { intros sp Hsp. change (36 :: e_key e ++ 32 :: [61] ++ sp ++ value_text e) with ((36 :: e_key e) ++ [32] ++ 61 :: sp ++ value_text e). rewrite app_assoc, split_char_app; [|intro I; apply in_app_or in I; destruct I as [[I|I]|[I|[]]]; [discriminate|tauto|discriminate]].
      rewrite split_char_nosep; [reflexivity|]. intro I. apply in_app_or in I. destruct I as [I|I]; [destruct Hsp; subst sp; cbn in I; intuition discriminate|tauto]. }
    rewrite (E [32]) by tauto. specialize (E [] (or_intror eq_refl)). cbn [app] in E |- *. rewrite E. rewrite strip_space_left. reflexivity.
  Qed.
  (** Lines that _check_comments accepts *)
  Definition good (l : pystr) : Prop := ignored l = false /\ is_title l || is_entry l = true.
  Lemma contains_in : forall c s, In c s -> contains [c] s = true.
  Proof. intros c s H. induction s as [|x s IH]; [destruct H|]. cbn [contains startswith]. destruct H as [->|H]; [rewrite Z.eqb_refl; reflexivity|]. rewrite IH by exact H. apply orb_true_r. Qed.
  Lemma good_title : forall t, good (title_line t).
  Proof. intro t. split; [apply dollar_line|reflexivity]. Qed.
  Lemma good_entry : forall k s, In 61 s -> good (36 :: k ++ s).
  Proof. intros k s H. split; [apply dollar_line|]. apply orb_true_iff. right. unfold is_entry. rewrite (contains_in 61); [reflexivity|]. right. apply in_or_app. right. exact H. Qed.
  Lemma check_good : forall c, splitlines c <> [] -> Forall good (splitlines c) -> check_comments c = true.
  Proof.
    intros c Hne H. unfold check_comments. set (ls := splitlines c) in *. clearbody ls. assert (E : filter (fun l => negb (ignored l)) ls = ls) by (clear Hne; induction H as [|l ls [H1 _] H IH]; [reflexivity|]; cbn [filter]; rewrite H1; cbn [negb]; rewrite IH; reflexivity). rewrite E.
    assert (E2 : filter (fun l => is_title l || is_entry l) ls = ls) by (clear Hne E; induction H as [|l ls [_ H1] H IH]; [reflexivity|]; cbn [filter]; rewrite H1, IH; reflexivity). rewrite E2.
    assert (E3 : forallb (fun l => is_title l || is_entry l) ls = true) by (apply forallb_forall; intros l Hl; rewrite Forall_forall in H; exact (proj2 (H l Hl))). rewrite E3. destruct ls; [congruence|reflexivity].
  Qed.
  Lemma lines_good : forall secs, Forall good (flat_map section_lines secs).
  Proof.
    intro secs. apply Forall_forall. intros l Hl. apply in_flat_map in Hl. destruct Hl as ([t es] & _ & [<- | Hl]); [apply good_title|]. apply in_map_iff in Hl. destruct Hl as (e & <- & _). rewrite entry_shape. apply good_entry. right. left. reflexivity.
  Qed.
  Lemma same_titles : forall secs acc, Forall (section_ok A show eval raw) secs -> NoDup (map fst acc ++ map fst secs) ->
    fold_left (fun d ks => put (lstrip_us (fst ks)) (snd ks) d) (dict secs) acc = acc ++ dict secs.
  Proof.
    induction secs as [|[t es] secs IH]; intros acc H Hn; cbn [dict map fold_left fst snd]; [symmetry; apply app_nil_r|]. fold (dict secs). cbn [map fst] in Hn. pose proof (Forall_inv H) as (_ & _ & Hu & _). cbn [fst] in Hu.
    assert (E : lstrip_us t = t) by (destruct t as [|c t]; [reflexivity|]; cbn [lstrip_us]; unfold not_us in Hu; cbn [hd] in Hu; assert (X : (c =? 95) = false) by lia; rewrite X; reflexivity). rewrite E, put_new by exact (nodup_middle _ _ _ _ Hn).
    rewrite IH; [rewrite <- app_assoc; reflexivity|exact (Forall_inv_tail H)|]. rewrite map_app, <- app_assoc. exact Hn.
  Qed.
  Lemma parsed_ok : forall secs c, sections_ok A show eval raw secs -> splitlines c <> [] -> Forall good (splitlines c) ->
    fold_left (parse_line A eval raw) (splitlines c) ([], None) = fold_left (parse_line A eval raw) (flat_map section_lines secs) ([], None) -> parsed A eval raw c = Some (dict secs).
  Proof.
    intros secs c (_ & H & Hn & _) Hne Hg E. unfold parsed, parse_metadata. rewrite check_good by assumption. rewrite E, (sections_parsed secs [] None H Hn). cbn [app]. rewrite (same_titles secs [] H Hn). reflexivity.
  Qed.
  Theorem C77_comment : forall secs, sections_ok A show eval raw secs -> exists c, comment_of A show repr (nodes secs) = Ok c /\ parsed A eval raw c = Some (dict secs).
  Proof.
    intros secs H. eexists. split; [apply comment_text; exact H|]. pose proof H as (Hne & Hs & _ & _). assert (E : splitlines (text_of (flat_map section_lines secs)) = flat_map section_lines secs) by (rewrite <- (app_nil_r (text_of _)), splitlines_text by (apply sections_breaks; exact Hs); apply app_nil_r).
    apply parsed_ok; rewrite ?E; [exact H| |apply lines_good|reflexivity]. destruct secs as [|s secs]; [congruence|]. discriminate.
  Qed.
  (** What is read is what is written the next time *)
  Theorem C77_again : forall secs c, sections_ok A show eval raw secs -> parsed A eval raw c = Some (dict secs) ->
    exists omd, original_metadata A eval raw 1 1 [c] = Ok omd /\ comment_dict A (Auto A) omd = Ok (nodes secs).
  Proof.
    intros secs c (Hne & _) H. exists [(str "Object_0_Channel_0", Node A [(str "Parsed", Node A (nodes secs))])]. split.
    - unfold original_metadata. change (Z.to_nat (1 * Z.max 1 1)) with 1%nat. change (zseq 0 1) with [0]. cbn [fold_left bind]. change (Z.to_nat ((0 / Z.max 1 1 + 1) * (0 mod Z.max 1 1 + 1) - 1)) with O. cbn [nth_error]. rewrite H, of_dict. reflexivity.
    - unfold comment_dict. cbn [flat_map fst snd]. change (is_object (str "Object_0_Channel_0")) with true. cbn iota. cbn [app first_parsed]. change (lookup (str "Parsed") [(str "Parsed", Node A (nodes secs))]) with (Some (Node A (nodes secs))). cbn iota. destruct secs as [|s secs]; [congruence|]. reflexivity.
  Qed.
End Comments.

(** * Examples of comments *)
(** Numbers and text *)
Inductive atom := N (z : Z) | T (s : pystr).
Definition show_atom (a : atom) : pystr := match a with N z => str_int z | T s => s end.
Definition eval_atom (s : pystr) : atom := match parse_int s with Ok z => N z | Err _ => T s end.
Definition no_repr (l : list (pystr * tree atom)) : pystr := str "{}".
Definition again (l : list (pystr * tree atom)) : option (list (pystr * list (pystr * atom))) :=
  match comment_of atom show_atom no_repr l with Ok c => parsed atom eval_atom T c | Err _ => None end.
Definition leaf (s : string) (a : atom) : pystr * tree atom := (str s, Leaf atom a).
Definition node (s : string) (l : list (pystr * tree atom)) : pystr * tree atom := (str s, Node atom l).
Definition ex_sections : list (pystr * list (entry atom)) :=
  [(str "CCD 1", [{| e_key := str "Exposure Time"; e_value := N 10; e_units := Some (T (str "ms")) |}; {| e_key := str "Grating"; e_value := T (str "150"); e_units := None |}; {| e_key := str "note"; e_value := T []; e_units := None |}]); (str "SEM", [])].
Example C77_example : comment_of atom show_atom no_repr (nodes atom ex_sections) = Ok (str "$_CCD 1" ++ [10] ++ str "$Exposure Time = 10 ms" ++ [10] ++ str "$Grating = 150" ++ [10] ++ str "$note = " ++ [10] ++ str "$_SEM" ++ [10]) /\
  again (nodes atom ex_sections) = Some [(str "CCD 1", [(str "Exposure Time", N 10); (str "Exposure Time_units", T (str "ms")); (str "Grating", T (str "150")); (str "note", T [])]); (str "SEM", [])].
Proof. split; vm_compute; reflexivity. Qed.
Lemma forallb_no_break : forall s, forallb (fun c => negb (is_break c)) s = true -> no_break s.
Proof. intros s H. apply Forall_forall. intros c Hc. pose proof (proj1 (forallb_forall _ _) H c Hc) as X. cbn beta in X. destruct (is_break c); [discriminate|reflexivity]. Qed.
Lemma plain_by : forall s, forallb (fun c => negb (is_break c) && negb (c =? 61)) s = true -> trimmed s -> plain s.
Proof.
  intros s H Ht. split; [|split; [exact Ht|]].
  - apply Forall_forall. intros c Hc. pose proof (proj1 (forallb_forall _ _) H c Hc) as X. cbn beta in X. destruct (is_break c); [discriminate|reflexivity].
  - intro I. pose proof (proj1 (forallb_forall _ _) H 61 I) as X. cbn in X. discriminate.
Qed.
Example C77_hyps : sections_ok atom show_atom eval_atom T ex_sections.
Proof.
  assert (V : forall a, forallb (fun c => negb (is_break c) && negb (c =? 61)) (show_atom a) = true -> trimmed (show_atom a) -> forallb (fun c => negb (c =? 32)) (show_atom a) = true -> value_ok atom show_atom a).
  { intros a H1 H2 H3. split; [apply plain_by; assumption|]. intro I. pose proof (proj1 (forallb_forall _ _) H3 32 I) as X. discriminate. }
  split; [discriminate|]. split; [|split].
  - constructor; [|constructor; [|constructor]].
    + split; [apply forallb_no_break; reflexivity|]. split; [vm_compute; tauto|]. split; [discriminate|]. split; [|split].
      * constructor; [|constructor; [|constructor; [|constructor]]]; (split; [apply plain_by; [reflexivity|vm_compute; tauto]|]; split; [discriminate|]; split; [apply V; [reflexivity|vm_compute; tauto|reflexivity]|]; split; [vm_compute; reflexivity|]); [|exact I|exact I].
        cbn [e_units]. split; [apply V; [reflexivity|vm_compute; tauto|reflexivity]|]. split; [discriminate|]. split; [reflexivity|discriminate].
      * vm_compute. repeat (constructor; [cbn [In]; intuition discriminate|]). constructor.
      * intros e He Hu. cbn [snd In] in He. destruct He as [<-|[<-|[<-|[]]]]; [discriminate Hu|vm_compute; intuition discriminate|vm_compute; intuition discriminate].
    + split; [apply forallb_no_break; reflexivity|]. split; [vm_compute; tauto|]. split; [discriminate|]. split; [constructor|]. split; [constructor|intros e []].
  - vm_compute. repeat (constructor; [cbn [In]; intuition discriminate|]). constructor.
  - intros s e Hs He. cbn [In] in Hs. destruct Hs as [<-|[<-|[]]]; [|destruct He]. cbn [snd In] in He. destruct He as [<-|[<-|[<-|[]]]]; vm_compute; intuition discriminate.
Qed.
(** A space: the rest of the text becomes units *)
Theorem C77_space_refuted : again [node "A" [leaf "x" (T (str "two words"))]] = Some [(str "A", [(str "x", T (str "two")); (str "x_units", T (str "words"))])].
Proof. vm_compute. reflexivity. Qed.
Theorem C77_equals_refuted : again [node "A" [leaf "x" (T (str "a=b"))]] = Some [(str "A", [(str "x", T (str "a"))])].
Proof. vm_compute. reflexivity. Qed.
(** A key with an underscore becomes a title *)
Theorem C77_underscore_refuted : again [node "A" [leaf "_x" (N 1); leaf "y" (N 2)]] = Some [(str "A", []); (str "x = 1", [(str "y", N 2)])].
Proof. vm_compute. reflexivity. Qed.
(** Text that looks like a number becomes a number *)
Theorem C77_number_refuted : again [node "A" [leaf "x" (T (str "12"))]] = Some [(str "A", [(str "x", N 12)])].
Proof. vm_compute. reflexivity. Qed.
(** What follows an inner dictionary ends up in it *)
Theorem C77_nested_refuted : again [node "A" [node "B" [leaf "x" (N 1)]; leaf "y" (N 2)]] = Some [(str "A", []); (str "B", [(str "x", N 1); (str "y", N 2)])].
Proof. vm_compute. reflexivity. Qed.
(** A section with the name of units is lost *)
Theorem C77_title_refuted : again [node "A" [leaf "x" (N 1)]; node "x_units" [leaf "y" (N 2)]] = Some [(str "A", [(str "x", N 1); (str "x_units", T (str "{}"))])].
Proof. vm_compute. reflexivity. Qed.
(** An empty dictionary is not skipped, as the comment in the code says *)
Theorem C77_empty_refuted : comment_dict atom (Auto atom) [node "Object_0_Channel_0" [node "Parsed" []]; node "Object_0_Channel_1" [node "Parsed" [node "A" []]]] = Ok [node "Parsed" []].
Proof. vm_compute. reflexivity. Qed.
Print Assumptions C77_comment.
Print Assumptions C77_again.
Print Assumptions C77_example.
Print Assumptions C77_hyps.
Print Assumptions C77_space_refuted.
Print Assumptions C77_equals_refuted.
Print Assumptions C77_underscore_refuted.
Print Assumptions C77_number_refuted.
Print Assumptions C77_nested_refuted.
Print Assumptions C77_title_refuted.
Print Assumptions C77_empty_refuted.
