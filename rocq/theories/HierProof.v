(** Proof that storable metadata survives storage (C14). *)
From Coq Require Import Permutation.
From Verif Require Import Base Text HierModel HierSpec.

(** * Strings *)
Lemma startswith_spec : forall p s, startswith p s = true <-> exists r, s = p ++ r.
Proof.
  induction p as [|x p IH]; intros s; cbn [startswith].
  - split; [intros _; exists s; reflexivity|reflexivity].
  - destruct s as [|y s].
    + split; [discriminate|]. intros [r H]. discriminate.
    + rewrite andb_true_iff, IH. split.
      * intros [H [r ->]]. exists r. cbn. f_equal. lia.
      * intros [r H]. cbn in H. injection H as -> ->. split; [lia|]. exists r. reflexivity.
Qed.

Lemma startswith_app : forall p r, startswith p (p ++ r) = true.
Proof. intros. apply startswith_spec. exists r. reflexivity. Qed.

Lemma startswith_false : forall p s, (forall r, s <> p ++ r) -> startswith p s = false.
Proof.
  intros p s H. destruct (startswith p s) eqn:E; [|reflexivity].
  apply startswith_spec in E. destruct E as [r E]. destruct (H r E).
Qed.

Lemma contains_slash : forall k, contains (str "/") k = false <-> ~ In 47 k.
Proof.
  change (str "/") with [47]. induction k as [|c k IH]; cbn [contains startswith].
  - cbn. tauto.
  - destruct (47 =? c) eqn:E; cbn [andb orb In].
    + split; [discriminate|]. intro H. exfalso. apply H. left. lia.
    + rewrite IH. split; [intros H [K|K]; [lia|tauto]|tauto].
Qed.

Lemma skipn_app_len : forall A (a b : list A), skipn (List.length a) (a ++ b) = b.
Proof. intros. rewrite skipn_app, skipn_all, Nat.sub_diag. reflexivity. Qed.

Lemma no_slash_app : forall a b, ~ In 47 a -> ~ In 47 b -> ~ In 47 (a ++ b).
Proof. intros a b Ha Hb H. apply in_app_or in H. tauto. Qed.

Lemma digits_no : forall c s, is_digit c = false -> Forall (fun c => is_digit c = true) s -> ~ In c s.
Proof. intros c s Hc H K. rewrite Forall_forall in H. specialize (H c K). congruence. Qed.

Lemma str_int_digits : forall n, Forall (fun c => is_digit c = true) (str_int (Z.of_nat n)).
Proof. intros n. unfold str_int. destruct (_ <? 0) eqn:E; [lia|]. apply dec_digits. lia. Qed.
Lemma str_int_ne : forall n, str_int (Z.of_nat n) <> [].
Proof. intros n. unfold str_int. destruct (_ <? 0) eqn:E; [lia|]. apply dec_ne. lia. Qed.

Lemma after_underscore_app : forall ds r, ~ In 95 ds -> after_underscore (ds ++ 95 :: r) = r.
Proof.
  induction ds as [|c ds IH]; intros r H; cbn [app after_underscore].
  - reflexivity.
  - destruct (c =? 95) eqn:E; [exfalso; apply H; left; lia|]. apply IH. intro K. apply H. right. exact K.
Qed.

Lemma strip_count_name : forall pre n k, strip_count (List.length pre) (elements_name pre k n) = k.
Proof.
  intros pre n k. unfold strip_count, elements_name. rewrite skipn_app_len.
  change (str "_") with [95]. cbn [app].
  assert (D : ~ In 95 (str_int (Z.of_nat n))) by (eapply digits_no; [|apply str_int_digits]; reflexivity).
  rewrite existsb_app. cbn [existsb]. rewrite Z.eqb_refl, orb_true_r.
  apply after_underscore_app. exact D.
Qed.

(** * Lookup and put *)
Lemma lookup_none : forall A k (l : list (pystr * A)), ~ In k (map fst l) -> lookup k l = None.
Proof.
  induction l as [|[k' v] l IH]; intros H; cbn [lookup]; [reflexivity|].
  destruct (eqb_str k k') eqn:E.
  - apply eqb_str_spec in E. exfalso. apply H. left. auto.
  - apply IH. intro K. apply H. right. exact K.
Qed.

Lemma put_fresh : forall A k v (l : list (pystr * A)), ~ In k (map fst l) -> put k v l = l ++ [(k, v)].
Proof.
  induction l as [|[k' v'] l IH]; intros H; cbn [put app]; [reflexivity|].
  destruct (eqb_str k k') eqn:E.
  - apply eqb_str_spec in E. exfalso. apply H. left. auto.
  - rewrite IH; [reflexivity|]. intro K. apply H. right. exact K.
Qed.

(** * Sorting by key *)
Lemma leb_total : forall a b, leb_str a b = true \/ leb_str b a = true.
Proof.
  induction a as [|x a IH]; intros [|y b]; cbn [leb_str]; auto.
  destruct (IH b) as [H|H]; rewrite ?H; destruct (x <? y) eqn:E1, (y <? x) eqn:E2, (x =? y) eqn:E3, (y =? x) eqn:E4; cbn; auto; lia.
Qed.
Lemma leb_antisym : forall a b, leb_str a b = true -> leb_str b a = true -> a = b.
Proof.
  induction a as [|x a IH]; intros [|y b] H1 H2; cbn [leb_str] in *; try discriminate; auto.
  destruct (x <? y) eqn:E1, (y <? x) eqn:E2, (x =? y) eqn:E3, (y =? x) eqn:E4; cbn in *; try lia; try discriminate.
  f_equal; [lia|apply IH; assumption].
Qed.
Lemma leb_trans : forall a b c, leb_str a b = true -> leb_str b c = true -> leb_str a c = true.
Proof.
  induction a as [|x a IH]; intros [|y b] [|z c] H1 H2; cbn [leb_str] in *; try discriminate; auto.
  destruct (x <? y) eqn:E1, (y <? z) eqn:E2, (x =? y) eqn:E3, (y =? z) eqn:E4, (x <? z) eqn:E5, (x =? z) eqn:E6;
    cbn in *; try lia; try discriminate; auto. eapply IH; eassumption.
Qed.

Lemma insert_comm : forall A (p q : pystr * A) l, fst p <> fst q ->
  insert_item p (insert_item q l) = insert_item q (insert_item p l).
Proof.
  intros A p q l Hpq. induction l as [|r l IH]; cbn [insert_item].
  - destruct (leb_str (fst p) (fst q)) eqn:E1, (leb_str (fst q) (fst p)) eqn:E2; try reflexivity.
    + exfalso. apply Hpq. apply leb_antisym; assumption.
    + destruct (leb_total (fst p) (fst q)); congruence.
  - destruct (leb_str (fst q) (fst r)) eqn:Eq, (leb_str (fst p) (fst r)) eqn:Ep; cbn [insert_item].
    + destruct (leb_str (fst p) (fst q)) eqn:E1, (leb_str (fst q) (fst p)) eqn:E2; cbn [insert_item]; rewrite ?Eq, ?Ep; try reflexivity.
      * exfalso. apply Hpq. apply leb_antisym; assumption.
      * destruct (leb_total (fst p) (fst q)); congruence.
    + assert (E1 : leb_str (fst p) (fst q) = false).
      { destruct (leb_str (fst p) (fst q)) eqn:E; [|reflexivity]. rewrite (leb_trans _ _ _ E Eq) in Ep. discriminate. }
      rewrite E1, Ep, Eq. reflexivity.
    + assert (E1 : leb_str (fst q) (fst p) = false).
      { destruct (leb_str (fst q) (fst p)) eqn:E; [|reflexivity]. rewrite (leb_trans _ _ _ E Ep) in Eq. discriminate. }
      rewrite Ep, Eq, E1. reflexivity.
    + rewrite Ep, Eq, IH. reflexivity.
Qed.

Lemma sort_perm : forall A (a b : list (pystr * A)), Permutation a b -> NoDup (map fst a) -> sort_items a = sort_items b.
Proof.
  intros A a b H. induction H as [|x a b H IH|x y a|a b c H1 IH1 H2 IH2]; intros Hnd; cbn [sort_items].
  - reflexivity.
  - rewrite IH; [reflexivity|]. inversion Hnd; assumption.
  - apply insert_comm. cbn [map] in Hnd. inversion Hnd as [|? ? Hin _]; subst.
    intro E. apply Hin. left. symmetry. exact E.
  - rewrite IH1 by exact Hnd. apply IH2. eapply Permutation_NoDup; [|exact Hnd]. apply Permutation_map. exact H1.
Qed.

Fixpoint sorted {A} (l : list (pystr * A)) : Prop :=
  match l with
  | p :: ((q :: _) as l') => leb_str (fst p) (fst q) = true /\ sorted l'
  | _ => True
  end.

Lemma sort_sorted : forall A (l : list (pystr * A)), sorted l -> sort_items l = l.
Proof.
  induction l as [|p l IH]; intros H; cbn [sort_items]; [reflexivity|].
  destruct l as [|q l]; [reflexivity|]. destruct H as [H1 H2]. rewrite IH by exact H2.
  cbn [insert_item]. rewrite H1. reflexivity.
Qed.

(** * Reading one entry *)
Definition read_item (k : pystr) (n : node) (d : list (pystr * value)) : res (list (pystr * value)) :=
  if startswith (str "_ragged_shapes_") k then Ok d
  else if startswith (str "_sig_") k then Err NotImplementedError
  else match n with
       | NData ds =>
           if startswith (str "_list_") k then
             let! l := dataset_list ds in Ok (put (skipn 6 k) (VList l) d)
           else if startswith (str "_tuple_") k then
             let! l := dataset_list ds in Ok (put (skipn 7 k) (VTuple l) d)
           else match ds with
                | DArr a => Ok (put k (VArr a) d)
                | _ => Err NotImplementedError
                end
       | NGroup _ _ =>
           if startswith (str "_hspy_AxesManager_") k then
             let! s := group2dict n [] in Ok (put k (VList (map snd (sort_items s))) d)
           else if startswith (str "_list_") k then
             let! s := group2dict n [] in Ok (put (strip_count 6 k) (VList (map snd (sort_items s))) d)
           else if startswith (str "_tuple_") k then
             let! s := group2dict n [] in Ok (put (strip_count 7 k) (VTuple (map snd (sort_items s))) d)
           else
             let! s := group2dict n [] in Ok (put k (VDict s) d)
       end.

Fixpoint read_items (items : list (pystr * node)) (d : list (pystr * value)) : res (list (pystr * value)) :=
  match items with
  | [] => Ok d
  | (k, n) :: rest => let! d' := read_item k n d in read_items rest d'
  end.

Lemma group2dict_unfold : forall attrs items d,
  group2dict (NGroup attrs items) d = let! d1 := read_attrs attrs d in read_items items d1.
Proof.
  intros attrs items d. cbn [group2dict]. destruct (read_attrs attrs d) as [d1|e]; [|reflexivity].
  cbn [bind]. revert d1. induction items as [|[k n] items IH]; intros d1; [reflexivity|].
  cbn [read_items]. fold (read_item k n d1). destruct (read_item k n d1) as [d2|e]; cbn [bind]; [apply IH|reflexivity].
Qed.

(** Stored entries: an attribute or a member. *)
Definition entry := ((pystr * attr) + (pystr * node))%type.
Definition ename (e : entry) : bool * pystr :=
  match e with inl (n, _) => (true, n) | inr (n, _) => (false, n) end.
Definition add_entry (e : entry) (g : node) : node :=
  match g with
  | NGroup a i => match e with inl p => NGroup (a ++ [p]) i | inr p => NGroup a (i ++ [p]) end
  | NData _ => g
  end.
Definition reads (e : entry) (kv : pystr * value) : Prop :=
  match e with
  | inl (n, a) => forall d, read_attr n a d = Ok (put (fst kv) (snd kv) d)
  | inr (n, g) => forall d, read_item n g d = Ok (put (fst kv) (snd kv) d)
  end.
Definition fresh (e : entry) (g : node) : Prop :=
  match g with
  | NGroup a i => match e with inl (n, _) => ~ In n (map fst a) | inr (n, _) => ~ In n (map fst i) end
  | NData _ => False
  end.

(** * Names under which a value is stored *)
Definition is_elements (l : list value) : bool :=
  match list_kind l with KElements => true | _ => false end.
Definition sname (v : value) (k : pystr) : bool * pystr :=
  match v with
  | VDict _ | VArr _ => (false, k)
  | VNone | VStr _ | VInt _ | VBool _ | VFloat _ => (true, k)
  | VBytes _ => (true, str "_bs_" ++ k)
  | VList [] => (true, str "_list_empty_" ++ k)
  | VTuple [] => (true, str "_tuple_empty_" ++ k)
  | VList l => (false, if is_elements l then elements_name (str "_list_") k (List.length l) else str "_list_" ++ k)
  | VTuple l => (false, if is_elements l then elements_name (str "_tuple_") k (List.length l) else str "_tuple_" ++ k)
  end.

Ltac in_reserved := cbn; tauto.

Lemma good_not : forall k p r, good_key k -> In p reserved -> k <> p ++ r.
Proof. intros k p r [H _] Hp. apply H. exact Hp. Qed.

(** Attribute names and member names determine the key. *)
Inductive shape_a : pystr -> pystr -> Prop :=
| sa_k : forall k, shape_a k k
| sa_b : forall k, shape_a k (str "_bs_" ++ k)
| sa_l : forall k, shape_a k (str "_list_empty_" ++ k)
| sa_t : forall k, shape_a k (str "_tuple_empty_" ++ k).
Inductive shape_i : pystr -> pystr -> Prop :=
| si_k : forall k, shape_i k k
| si_l : forall k, shape_i k (str "_list_" ++ k)
| si_t : forall k, shape_i k (str "_tuple_" ++ k)
| si_le : forall k n, shape_i k (elements_name (str "_list_") k n)
| si_te : forall k n, shape_i k (elements_name (str "_tuple_") k n).

Lemma sname_shape : forall v k,
  (fst (sname v k) = true /\ shape_a k (snd (sname v k))) \/ (fst (sname v k) = false /\ shape_i k (snd (sname v k))).
Proof.
  intros v k. destruct v as [| | | | | | |[|x l]|[|x l]|]; cbn [sname fst snd];
    try (left; split; [reflexivity|constructor]; fail); try (right; split; [reflexivity|constructor]; fail).
  - right. split; [reflexivity|]. destruct (is_elements _); constructor.
  - right. split; [reflexivity|]. destruct (is_elements _); constructor.
Qed.

Lemma shape_a_inj : forall k1 k2 n, good_key k1 -> good_key k2 -> shape_a k1 n -> shape_a k2 n -> k1 = k2.
Proof.
  intros k1 k2 n G1 G2 H1 H2.
  inversion H1; subst; inversion H2; subst; auto;
    try (exfalso; eapply (good_not _ (str "_bs_")); [| |reflexivity]; [eassumption|in_reserved]);
    try (exfalso; match goal with
         | H : good_key (str "_list_empty_" ++ ?k) |- _ =>
             apply (good_not _ (str "_list_") (str "empty_" ++ k) H); [in_reserved|reflexivity]
         | H : good_key (str "_tuple_empty_" ++ ?k) |- _ =>
             apply (good_not _ (str "_tuple_") (str "empty_" ++ k) H); [in_reserved|reflexivity]
         end);
    try (match goal with H : _ ++ _ = _ ++ _ |- _ => apply app_inv_head in H; auto; fail end);
    try (exfalso; match goal with H : _ ++ _ = _ ++ _ |- _ => cbn in H; discriminate end).
Qed.

Lemma elements_not_key : forall pre k1 k2 n, good_key k1 -> pre ++ k1 <> elements_name pre k2 n.
Proof.
  intros pre k1 k2 n [_ [_ H]] E. unfold elements_name in E. apply app_inv_head in E. apply H.
  exists (str_int (Z.of_nat n)), k2. split; [exact E|]. split; [apply str_int_ne|apply str_int_digits].
Qed.

Lemma elements_inj : forall pre k1 k2 n1 n2, elements_name pre k1 n1 = elements_name pre k2 n2 -> k1 = k2.
Proof.
  intros pre k1 k2 n1 n2 E. rewrite <- (strip_count_name pre n1 k1), E. apply strip_count_name.
Qed.

Lemma shape_i_inj : forall k1 k2 n, good_key k1 -> good_key k2 -> shape_i k1 n -> shape_i k2 n -> k1 = k2.
Proof.
  assert (L : forall k r, good_key k -> k <> str "_list_" ++ r) by (intros; apply good_not; [assumption|in_reserved]).
  assert (T : forall k r, good_key k -> k <> str "_tuple_" ++ r) by (intros; apply good_not; [assumption|in_reserved]).
  intros k1 k2 n G1 G2 H1 H2.
  assert (H : forall n1 n2, shape_i k1 n1 -> shape_i k2 n2 -> n1 = n2 -> k1 = k2); [|eapply H; eauto].
  clear H1 H2 n. intros n1 n2 H1 H2.
  destruct H1 as [k1|k1|k1|k1 m1|k1 m1], H2 as [k2|k2|k2|k2 m2|k2 m2]; intros E.
  all: try exact E.
  all: try (exfalso; apply (L _ _ G1 E)).
  all: try (exfalso; apply (T _ _ G1 E)).
  all: try (exfalso; symmetry in E; apply (L _ _ G2 E)).
  all: try (exfalso; symmetry in E; apply (T _ _ G2 E)).
  all: try (exfalso; unfold elements_name in E; cbn in E; discriminate).
  all: try (apply elements_inj in E; exact E).
  all: try (exfalso; exact (elements_not_key _ _ _ _ G1 E)).
  all: try (exfalso; symmetry in E; exact (elements_not_key _ _ _ _ G2 E)).
  all: apply app_inv_head in E; exact E.
Qed.

Lemma sname_inj : forall v1 v2 k1 k2, good_key k1 -> good_key k2 -> sname v1 k1 = sname v2 k2 -> k1 = k2.
Proof.
  intros v1 v2 k1 k2 G1 G2 E.
  destruct (sname_shape v1 k1) as [[A1 B1]|[A1 B1]], (sname_shape v2 k2) as [[A2 B2]|[A2 B2]];
    rewrite E in *; try congruence.
  - eapply shape_a_inj; eassumption.
  - eapply shape_i_inj; eassumption.
Qed.

(** * What one stored entry looks like *)
Definition good_store (v : value) : Prop :=
  forall k, good_key k ->
  exists e v', ename e = sname v k /\ veq v v' /\ reads e (k, v') /\
    (forall g, fresh e g -> write_entry v k g = Ok (add_entry e g)).

Section WithEntries.
  (** Entries of a dictionary with the key and value they read back as. *)
  Definition attrs_of (es : list (entry * (pystr * value))) : list (pystr * attr) :=
    flat_map (fun p => match fst p with inl a => [a] | inr _ => [] end) es.
  Definition items_of (es : list (entry * (pystr * value))) : list (pystr * node) :=
    flat_map (fun p => match fst p with inl _ => [] | inr n => [n] end) es.
  Definition akv (es : list (entry * (pystr * value))) : list (pystr * value) :=
    flat_map (fun p => match fst p with inl _ => [snd p] | inr _ => [] end) es.
  Definition ikv (es : list (entry * (pystr * value))) : list (pystr * value) :=
    flat_map (fun p => match fst p with inl _ => [] | inr _ => [snd p] end) es.

  Lemma kv_perm : forall es, Permutation (map snd es) (akv es ++ ikv es).
  Proof.
    induction es as [|[[a|n] kv] es IH]; cbn; [constructor| |].
    - constructor. exact IH.
    - eapply Permutation_trans; [constructor; exact IH|]. apply Permutation_middle.
  Qed.

  Lemma put_all_attrs : forall es d, Forall (fun p => reads (fst p) (snd p)) es ->
    NoDup (map fst d ++ map fst (akv es)) -> read_attrs (attrs_of es) d = Ok (d ++ akv es).
  Proof.
    induction es as [|[[[n a]|n] kv] es IH]; intros d H Hnd; cbn [attrs_of akv flat_map fst snd app] in *.
    - cbn. rewrite app_nil_r. reflexivity.
    - inversion H as [|? ? H1 H2]; subst. cbn [fst snd reads] in H1. cbn [read_attrs]. rewrite H1. cbn [bind].
      cbn [map] in Hnd. destruct kv as [k v]. cbn [fst snd] in *.
      rewrite put_fresh by (apply NoDup_remove_2 in Hnd; intro K; apply Hnd; apply in_or_app; auto).
      fold (attrs_of es). rewrite IH; [rewrite <- app_assoc; reflexivity|exact H2|].
      rewrite map_app, <- app_assoc. exact Hnd.
    - inversion H; subst. apply IH; assumption.
  Qed.

  Lemma put_all_items : forall es d, Forall (fun p => reads (fst p) (snd p)) es ->
    NoDup (map fst d ++ map fst (ikv es)) -> read_items (items_of es) d = Ok (d ++ ikv es).
  Proof.
    induction es as [|[[n|[n a]] kv] es IH]; intros d H Hnd; cbn [items_of ikv flat_map fst snd app] in *.
    - cbn. rewrite app_nil_r. reflexivity.
    - inversion H; subst. apply IH; assumption.
    - inversion H as [|? ? H1 H2]; subst. cbn [fst snd reads] in H1. cbn [read_items]. rewrite H1. cbn [bind].
      cbn [map] in Hnd. destruct kv as [k v]. cbn [fst snd] in *.
      rewrite put_fresh by (apply NoDup_remove_2 in Hnd; intro K; apply Hnd; apply in_or_app; auto).
      fold (items_of es). rewrite IH; [rewrite <- app_assoc; reflexivity|exact H2|].
      rewrite map_app, <- app_assoc. exact Hnd.
  Qed.

  Lemma read_all : forall es, Forall (fun p => reads (fst p) (snd p)) es -> NoDup (map fst (map snd es)) ->
    group2dict (NGroup (attrs_of es) (items_of es)) [] = Ok (akv es ++ ikv es).
  Proof.
    intros es H Hnd.
    assert (N : NoDup (map fst (akv es) ++ map fst (ikv es))).
    { rewrite <- map_app. eapply Permutation_NoDup; [|exact Hnd]. apply Permutation_map. apply kv_perm. }
    rewrite group2dict_unfold, put_all_attrs; cbn [bind app map]; [|exact H|].
    - rewrite put_all_items; [reflexivity|exact H|exact N].
    - revert N. generalize (map fst (akv es)) (map fst (ikv es)). induction l; intros l' N; constructor.
      + inversion N; subst. intro K. apply H2. apply in_or_app. auto.
      + inversion N; subst. eapply IHl; eassumption.
  Qed.
End WithEntries.

Lemma add_entries : forall es a i,
  fold_left (fun g e => add_entry (fst e) g) es (NGroup a i) = NGroup (a ++ attrs_of es) (i ++ items_of es).
Proof.
  induction es as [|[[n|n] kv] es IH]; intros a i; cbn [fold_left fst add_entry attrs_of items_of flat_map app].
  - rewrite !app_nil_r. reflexivity.
  - rewrite IH. rewrite <- app_assoc. reflexivity.
  - rewrite IH. rewrite <- app_assoc. reflexivity.
Qed.

(** All names in a group. *)
Definition names (g : node) : list (bool * pystr) :=
  match g with
  | NGroup a i => map (fun p => (true, fst p)) a ++ map (fun p => (false, fst p)) i
  | NData _ => []
  end.
Definition is_group (g : node) : Prop := match g with NGroup _ _ => True | NData _ => False end.

Lemma fresh_names : forall e g, is_group g -> ~ In (ename e) (names g) -> fresh e g.
Proof.
  intros e [a i|d] Hg H; [|contradiction]. cbn [names] in H.
  destruct e as [[n x]|[n x]]; cbn [ename fresh] in *; intro K; apply H; apply in_or_app.
  - left. apply in_map_iff in K. destruct K as [[n' y] [E K]]. cbn in E. subst n'.
    apply in_map_iff. exists (n, y). auto.
  - right. apply in_map_iff in K. destruct K as [[n' y] [E K]]. cbn in E. subst n'.
    apply in_map_iff. exists (n, y). auto.
Qed.

Lemma names_add : forall e g x, is_group g -> In x (names (add_entry e g)) <-> In x (names g) \/ x = ename e.
Proof.
  intros e [a i|d] x Hg; [|contradiction].
  destruct e as [[n y]|[n y]]; cbn [add_entry names ename]; rewrite ?map_app, !in_app_iff; cbn [map In fst]; intuition.
Qed.

Lemma is_group_add : forall e g, is_group g -> is_group (add_entry e g).
Proof. intros [[n x]|[n x]] [a i|d]; cbn; auto. Qed.

Lemma dict_stores : forall d g, Forall (fun p => good_store (snd p)) d -> Forall (fun p => good_key (fst p)) d ->
  NoDup (map fst d) -> is_group g -> (forall p, In p d -> ~ In (sname (snd p) (fst p)) (names g)) ->
  exists es,
    dict2group d g = Ok (fold_left (fun g e => add_entry (fst e) g) es g) /\
    Forall (fun p => reads (fst p) (snd p)) es /\
    Forall2 (fun p q => fst p = fst q /\ veq (snd p) (snd q)) d (map snd es).
Proof.
  induction d as [|[k v] d IH]; intros g Hs Hk Hnd Hg Hf.
  - exists []. split; [reflexivity|]. split; constructor.
  - inversion Hs as [|? ? S1 S2]; subst. inversion Hk as [|? ? K1 K2]; subst.
    cbn [map fst] in Hnd. inversion Hnd as [|? ? N1 N2]; subst. cbn [fst snd] in *.
    destruct (S1 k K1) as [e [v' [En [Hv [Hr Hw]]]]].
    assert (F : ~ In (ename e) (names g)).
    { rewrite En. apply (Hf (k, v)). left. reflexivity. }
    destruct (IH (add_entry e g) S2 K2 N2) as [es [E1 [E2 E3]]].
    + apply is_group_add. exact Hg.
    + intros [k2 v2] Hin HK. apply names_add in HK; [|exact Hg]. destruct HK as [HK|HK].
      * apply (Hf (k2, v2)); [right; exact Hin|exact HK].
      * rewrite En in HK. cbn [fst snd] in HK. apply sname_inj in HK.
        -- subst k2. apply N1. apply in_map_iff. exists (k, v2). auto.
        -- rewrite Forall_forall in K2. apply (K2 _ Hin).
        -- exact K1.
    + exists ((e, (k, v')) :: es). split; [|split].
      * cbn [dict2group fold_left fst]. rewrite Hw by (apply fresh_names; assumption). cbn [bind]. exact E1.
      * constructor; assumption.
      * constructor; [split; [reflexivity|exact Hv]|exact E3].
Qed.

Lemma forall2_keys : forall (d d' : list (pystr * value)),
  Forall2 (fun p q => fst p = fst q /\ veq (snd p) (snd q)) d d' -> map fst d = map fst d'.
Proof. induction 1 as [|p q d d' [H1 H2] _ IH]; cbn; [reflexivity|]. rewrite H1, IH. reflexivity. Qed.

(** A storable dictionary in a new group. *)
Lemma dict_new : forall d, Forall (fun p => good_store (snd p)) d -> Forall (fun p => good_key (fst p)) d ->
  NoDup (map fst d) ->
  exists a i d' r, dict2group d (NGroup [] []) = Ok (NGroup a i) /\ group2dict (NGroup a i) [] = Ok r /\
    Forall2 (fun p q => fst p = fst q /\ veq (snd p) (snd q)) d d' /\ Permutation d' r.
Proof.
  intros d Hs Hk Hnd.
  destruct (dict_stores d (NGroup [] []) Hs Hk Hnd I) as [es [E1 [E2 E3]]]; [intros p _ []|].
  exists (attrs_of es), (items_of es), (map snd es), (akv es ++ ikv es).
  rewrite E1, add_entries. split; [reflexivity|]. split; [|split].
  - apply read_all; [exact E2|]. rewrite <- (forall2_keys _ _ E3). exact Hnd.
  - exact E3.
  - apply kv_perm.
Qed.

(** * Induction on values *)
Section ValueInd.
  Variable P : value -> Prop.
  Hypothesis Hnone : P VNone.
  Hypothesis Hbool : forall b, P (VBool b).
  Hypothesis Hint : forall z, P (VInt z).
  Hypothesis Hfloat : forall f, P (VFloat f).
  Hypothesis Hstr : forall s, P (VStr s).
  Hypothesis Hbytes : forall b, P (VBytes b).
  Hypothesis Harr : forall a, P (VArr a).
  Hypothesis Hlist : forall l, Forall P l -> P (VList l).
  Hypothesis Htuple : forall l, Forall P l -> P (VTuple l).
  Hypothesis Hdict : forall d, Forall (fun p => P (snd p)) d -> P (VDict d).
  Fixpoint value_ind' (v : value) : P v :=
    let all := fix all (l : list value) : Forall P l :=
      match l with [] => Forall_nil P | x :: l' => Forall_cons x (value_ind' x) (all l') end in
    match v with
    | VNone => Hnone | VBool b => Hbool b | VInt z => Hint z | VFloat f => Hfloat f
    | VStr s => Hstr s | VBytes b => Hbytes b | VArr a => Harr a
    | VList l => Hlist l (all l)
    | VTuple l => Htuple l (all l)
    | VDict d => Hdict d ((fix alld (d : list (pystr * value)) : Forall (fun p => P (snd p)) d :=
        match d with
        | [] => Forall_nil (fun p => P (snd p))
        | p :: d' => Forall_cons p (value_ind' (snd p)) (alld d')
        end) d)
    end.
End ValueInd.

(** * Lists *)
Lemma has_nul_false : forall s, ~ In 0 s -> has_nul s = false.
Proof.
  intros s H. unfold has_nul. destruct (existsb _ s) eqn:E; [|reflexivity].
  apply existsb_exists in E. destruct E as [x [Hx E]]. exfalso. apply H.
  assert (x = 0) by lia. subst x. exact Hx.
Qed.
Lemma np_str_id : forall s, ~ In 0 s -> np_str s = s.
Proof.
  intros s H. unfold np_str. assert (K : ~ In 0 (rev s)) by (rewrite <- in_rev; exact H).
  destruct (rev s) as [|c r] eqn:E; cbn [drop_nul].
  - rewrite <- (rev_involutive s), E. reflexivity.
  - assert (Hc : c <> 0) by (intro; apply K; left; auto).
    assert (D : drop_nul (c :: r) = c :: r) by (destruct c; [lia|reflexivity|reflexivity]).
    change (match c with 0 => drop_nul r | _ => c :: r end) with (drop_nul (c :: r)).
    rewrite D, <- E. apply rev_involutive.
Qed.

Lemma list_kind_cons : forall v w l, list_kind (v :: w :: l) =
  match scalar_kind v with
  | None => KElements
  | Some a => match list_kind (w :: l) with KElements => KElements | b => join_kind a b end
  end.
Proof. intros. cbn [list_kind]. destruct (scalar_kind v); reflexivity. Qed.

Lemma kind_all : forall K l, l <> [] -> Forall (fun v => scalar_kind v = Some K) l ->
  join_kind K K = K -> K <> KElements -> list_kind l = K.
Proof.
  intros K l Hne H HK HE. induction l as [|v l IH]; [congruence|].
  inversion H as [|? ? H1 H2]; subst. destruct l as [|w l].
  - cbn [list_kind]. rewrite H1. reflexivity.
  - rewrite list_kind_cons, H1, IH by (try discriminate; exact H2). destruct K; congruence.
Qed.

Lemma join_not_elements : forall a b, join_kind a b <> KElements.
Proof. intros a b. destruct a, b; discriminate. Qed.
Lemma scalar_not_elements : forall v, scalar_kind v <> Some KElements.
Proof. intros v. destruct v; cbn; try discriminate. destruct (_ && _); discriminate. Qed.

Lemma kind_elements : forall l, ~ Forall is_scalar l -> list_kind l = KElements.
Proof.
  induction l as [|v l IH]; intros H.
  - reflexivity.
  - assert (D : ~ is_scalar v \/ ~ Forall is_scalar l).
    { destruct v; cbn [is_scalar] in *; try (left; tauto); right; intro K; apply H; constructor; cbn; auto. }
    destruct l as [|w l].
    + destruct D as [D|D]; [|exfalso; apply D; constructor]. cbn [list_kind].
      destruct v; cbn in D |- *; try tauto; reflexivity.
    + rewrite list_kind_cons. destruct D as [D|D].
      * destruct v; cbn in D |- *; try tauto; reflexivity.
      * rewrite (IH D). destruct (scalar_kind v); reflexivity.
Qed.

(** The dataset written for a list of one kind of scalar. *)
Lemma scalars_data : forall l, homogeneous l ->
  is_elements l = false /\
  exists ds, dataset_list ds = Ok l /\
    forall pre k g, ~ In 47 (pre ++ k) -> write_list_dataset pre k (list_kind l) l g = Ok (set_item (pre ++ k) (NData ds) g).
Proof.
  intros l [Hne H].
  assert (NS : forall k, ~ In 47 k -> contains (str "/") k = false) by (intro; apply contains_slash).
  destruct H as [H|[H|[H|H]]].
  - assert (Ek : list_kind l = KBool).
    { apply kind_all; [exact Hne| |reflexivity|discriminate]. eapply Forall_impl; [|exact H]. intros v [b ->]. reflexivity. }
    unfold is_elements. rewrite Ek. split; [reflexivity|]. exists (DBools (map to_bool l)). split.
    + cbn [dataset_list]. rewrite map_map. f_equal. clear -H. induction H as [|v l [b ->] _ IH]; cbn; [reflexivity|]. rewrite IH. reflexivity.
    + intros pre k g Hk. cbn [write_list_dataset]. unfold write_dataset. rewrite NS by exact Hk. reflexivity.
  - assert (Ek : list_kind l = KInt).
    { apply kind_all; [exact Hne| |reflexivity|discriminate]. eapply Forall_impl; [|exact H]. intros v [b [-> Hb]]. cbn [scalar_kind].
      assert (Eb : (- 2 ^ 63 <=? b) && (b <? 2 ^ 63) = true) by lia. rewrite Eb. reflexivity. }
    unfold is_elements. rewrite Ek. split; [reflexivity|]. exists (DInts (map to_int l)). split.
    + cbn [dataset_list]. rewrite map_map. f_equal. clear -H. induction H as [|v l [b [-> _]] _ IH]; cbn; [reflexivity|]. rewrite IH. reflexivity.
    + intros pre k g Hk. cbn [write_list_dataset]. unfold write_dataset. rewrite NS by exact Hk. reflexivity.
  - assert (Ek : list_kind l = KFloat).
    { apply kind_all; [exact Hne| |reflexivity|discriminate]. eapply Forall_impl; [|exact H]. intros v [b ->]. reflexivity. }
    unfold is_elements. rewrite Ek. split; [reflexivity|]. exists (DFloats (map to_float l)). split.
    + cbn [dataset_list]. rewrite map_map. f_equal. clear -H. induction H as [|v l [b ->] _ IH]; cbn; [reflexivity|]. rewrite IH. reflexivity.
    + intros pre k g Hk. cbn [write_list_dataset]. unfold write_dataset. rewrite NS by exact Hk. reflexivity.
  - assert (Ek : list_kind l = KStr).
    { apply kind_all; [exact Hne| |reflexivity|discriminate]. eapply Forall_impl; [|exact H]. intros v [b [-> _]]. reflexivity. }
    unfold is_elements. rewrite Ek. split; [reflexivity|].
    assert (Es : map VStr (map to_str l) = l).
    { rewrite map_map. clear -H. induction H as [|v l [b [-> Hb]] _ IH]; cbn [map to_str]; [reflexivity|]. rewrite IH, np_str_id by exact Hb. reflexivity. }
    exists (DStrs (map to_str l)). split.
    + cbn [dataset_list]. rewrite Es. reflexivity.
    + intros pre k g Hk. cbn [write_list_dataset].
      assert (En : existsb has_nul (map to_str l) = false).
      { clear -H. induction H as [|v l [b [-> Hb]] _ IH]; cbn [map to_str existsb]; [reflexivity|].
        rewrite np_str_id by exact Hb. rewrite has_nul_false by exact Hb. exact IH. }
      rewrite En. unfold write_dataset. rewrite NS by exact Hk. reflexivity.
Qed.

(** Element keys. *)
Definition elem_dict (i : Z) (l : list value) : list (pystr * value) :=
  (fix go (i : Z) (l : list value) := match l with [] => [] | v :: l' => (str_int i, v) :: go (i + 1) l' end) i l.

Definition digit_keys : list pystr := map (fun i => str_int i) [0; 1; 2; 3; 4; 5; 6; 7; 8; 9].

Lemma elem_keys : forall l, (List.length l <= 10)%nat -> map fst (elem_dict 0 l) = firstn (List.length l) digit_keys.
Proof.
  intros l H. do 11 (destruct l as [|? l]; [reflexivity|]). cbn in H. lia.
Qed.

Lemma digit_keys_good : Forall good_key digit_keys.
Proof.
  apply Forall_forall. intros k Hk.
  assert (E : exists c, k = [c] /\ 48 <= c <= 57).
  { cbn in Hk. intuition subst; eexists; (split; [reflexivity|lia]). }
  destruct E as [c [-> Hc]]. split; [|split].
  - intros p Hp r. cbn in Hp. intuition subst; cbn in *; congruence.
  - intros [K|[]]. lia.
  - intros [ds [r [E [Hne Hd]]]]. destruct ds as [|x ds]; [congruence|].
    cbn in E. injection E as _ E. destruct ds; discriminate.
Qed.

Lemma firstn_Forall : forall A (P : A -> Prop) n l, Forall P l -> Forall P (firstn n l).
Proof. intros A P n l H. revert n. induction H; intros [|n]; cbn; constructor; auto. Qed.

Lemma digit_keys_nodup : forall n, NoDup (firstn n digit_keys).
Proof.
  assert (N : NoDup digit_keys).
  { cbn. repeat constructor; cbn; intuition discriminate. }
  intros n. revert N. generalize digit_keys. intros l. revert n. induction l as [|x l IH]; intros [|n] N; cbn; try constructor.
  - inversion N; subst. intro K. apply H1. rewrite <- (firstn_skipn n l). apply in_or_app. auto.
  - inversion N; subst. apply IH. assumption.
Qed.

Lemma sorted_by_keys : forall A (l : list (pystr * A)) n, map fst l = firstn n digit_keys -> sorted l.
Proof.
  intros A l n H.
  assert (G : forall ks (l : list (pystr * A)), map fst l = ks ->
    (fix chain (ks : list pystr) : Prop := match ks with a :: ((b :: _) as t) => leb_str a b = true /\ chain t | _ => True end) ks -> sorted l).
  { clear. induction ks as [|a ks IH]; intros [|p l] E C; cbn in E; try discriminate; [exact I|].
    injection E as E1 E2. destruct l as [|q l]; [exact I|].
    destruct ks as [|b ks]; [discriminate|]. destruct C as [C1 C2]. split.
    - cbn in E2. injection E2 as E2 _. subst. exact C1.
    - apply IH; assumption. }
  apply (G (firstn n digit_keys)); [exact H|].
  do 11 (destruct n as [|n]; [cbn; repeat split; reflexivity|]). cbn. repeat split; reflexivity.
Qed.

Lemma elem_dict_snd : forall l i, map snd (elem_dict i l) = l.
Proof. induction l as [|v l IH]; intros i; cbn; [reflexivity|]. f_equal. apply IH. Qed.

Lemma seq_loop : forall l i sub,
  (fix go (i : Z) (l : list value) (sub : node) {struct l} : res node :=
     match l with
     | [] => Ok sub
     | v' :: l' => let! s := write_entry v' (str_int i) sub in go (i + 1) l' s
     end) i l sub = dict2group (elem_dict i l) sub.
Proof.
  induction l as [|v l IH]; intros i sub; [reflexivity|].
  change (elem_dict i (v :: l)) with ((str_int i, v) :: elem_dict (i + 1) l). cbn [dict2group].
  destruct (write_entry v (str_int i) sub) as [s|e]; cbn [bind]; [apply IH|reflexivity].
Qed.

Lemma dict_loop : forall d sub,
  (fix go (d : list (pystr * value)) (sub : node) {struct d} : res node :=
     match d with
     | [] => Ok sub
     | (k', v') :: d' => let! s := write_entry v' k' sub in go d' s
     end) d sub = dict2group d sub.
Proof.
  induction d as [|[k v] d IH]; intros sub; [reflexivity|]. cbn [dict2group].
  destruct (write_entry v k sub) as [s|e]; cbn [bind]; [apply IH|reflexivity].
Qed.

Lemma forall2_snd : forall (d d' : list (pystr * value)),
  Forall2 (fun p q => fst p = fst q /\ veq (snd p) (snd q)) d d' -> Forall2 veq (map snd d) (map snd d').
Proof. induction 1 as [|p q d d' [H1 H2] _ IH]; cbn; constructor; assumption. Qed.

(** The group holding the elements of a list. *)
Lemma elements_stored : forall l, (List.length l <= 10)%nat -> Forall good_store l ->
  exists a i l' r, dict2group (elem_dict 0 l) (NGroup [] []) = Ok (NGroup a i) /\
    group2dict (NGroup a i) [] = Ok r /\ map snd (sort_items r) = l' /\ Forall2 veq l l'.
Proof.
  intros l Hl Hs.
  assert (Hkeys : map fst (elem_dict 0 l) = firstn (List.length l) digit_keys) by (apply elem_keys; exact Hl).
  destruct (dict_new (elem_dict 0 l)) as [a [i [d' [r [E1 [E2 [E3 E4]]]]]]].
  - apply Forall_forall. intros p Hp. rewrite Forall_forall in Hs. apply Hs.
    rewrite <- (elem_dict_snd l 0). apply in_map. exact Hp.
  - assert (G : Forall good_key (map fst (elem_dict 0 l))).
    { rewrite Hkeys. apply firstn_Forall. apply digit_keys_good. }
    rewrite Forall_forall in G. apply Forall_forall. intros p Hp. apply G. apply in_map. exact Hp.
  - rewrite Hkeys. apply digit_keys_nodup.
  - exists a, i, (map snd d'), r. split; [exact E1|]. split; [exact E2|].
    assert (Kd : map fst d' = firstn (List.length l) digit_keys) by (rewrite <- (forall2_keys _ _ E3); exact Hkeys).
    split.
    + rewrite <- (sort_perm _ _ _ E4) by (rewrite Kd; apply digit_keys_nodup).
      rewrite sort_sorted; [reflexivity|]. eapply sorted_by_keys. exact Kd.
    + rewrite <- (elem_dict_snd l 0). apply forall2_snd. exact E3.
Qed.

Lemma set_attr_fresh : forall k a g, fresh (inl (k, a)) g -> set_attr k a g = add_entry (inl (k, a)) g.
Proof. intros k a [x y|d] H; cbn in *; [|contradiction]. rewrite put_fresh by exact H. reflexivity. Qed.
Lemma set_item_fresh : forall k n g, fresh (inr (k, n)) g -> set_item k n g = add_entry (inr (k, n)) g.
Proof. intros k a [x y|d] H; cbn in *; [|contradiction]. rewrite put_fresh by exact H. reflexivity. Qed.
Lemma require_fresh : forall k n g, ~ In 47 k -> fresh (inr (k, n)) g -> require_group k g = Ok (NGroup [] []).
Proof.
  intros k n [x y|d] Hs H; cbn in H; [|contradiction]. unfold require_group.
  rewrite (proj2 (contains_slash k) Hs). rewrite lookup_none by exact H. reflexivity.
Qed.

Lemma good_prefix : forall k p, good_key k -> In p reserved -> startswith p k = false.
Proof. intros k p G Hp. apply startswith_false. intros r. apply good_not; assumption. Qed.

Lemma read_attr_good : forall k a d, good_key k -> read_attr k a d = Ok (put k (attr_value a) d).
Proof.
  intros k a d G. unfold read_attr.
  rewrite (good_prefix k (str "_sig_") G) by in_reserved.
  assert (L : startswith (str "_list_empty_") k = false).
  { apply startswith_false. intros r. apply (good_not k (str "_list_") (str "empty_" ++ r) G). in_reserved. }
  assert (T : startswith (str "_tuple_empty_") k = false).
  { apply startswith_false. intros r. apply (good_not k (str "_tuple_") (str "empty_" ++ r) G). in_reserved. }
  rewrite L, T.
  rewrite (good_prefix k (str "_bs_") G) by in_reserved.
  rewrite (good_prefix k (str "_datetime_date") G) by in_reserved.
  rewrite (good_prefix k (str "_datetime_time") G) by in_reserved. reflexivity.
Qed.

Lemma sname_list : forall l k, l <> [] ->
  sname (VList l) k = (false, if is_elements l then elements_name (str "_list_") k (List.length l) else str "_list_" ++ k).
Proof. intros [|v l] k H; [congruence|reflexivity]. Qed.
Lemma sname_tuple : forall l k, l <> [] ->
  sname (VTuple l) k = (false, if is_elements l then elements_name (str "_tuple_") k (List.length l) else str "_tuple_" ++ k).
Proof. intros [|v l] k H; [congruence|reflexivity]. Qed.

Definition write_seq (pre k : pystr) (l : list value) (g : node) : res node :=
  match list_kind l with
  | KElements =>
      let name := elements_name pre k (List.length l) in
      let! sub := require_group name g in
      let! sub' := dict2group (elem_dict 0 l) sub in
      Ok (set_item name sub' g)
  | kd => write_list_dataset pre k kd l g
  end.
Lemma write_list_eq : forall l k g, l <> [] -> write_entry (VList l) k g = write_seq (str "_list_") k l g.
Proof.
  intros [|v l] k g H; [congruence|]. unfold write_seq. cbn [write_entry].
  destruct (list_kind (v :: l)); try reflexivity. cbv zeta.
  destruct (require_group _ g) as [sub|e]; cbn [bind]; [|reflexivity].
  rewrite <- seq_loop. reflexivity.
Qed.
Lemma write_tuple_eq : forall l k g, l <> [] -> write_entry (VTuple l) k g = write_seq (str "_tuple_") k l g.
Proof.
  intros [|v l] k g H; [congruence|]. unfold write_seq. cbn [write_entry].
  destruct (list_kind (v :: l)); try reflexivity. cbv zeta.
  destruct (require_group _ g) as [sub|e]; cbn [bind]; [|reflexivity].
  rewrite <- seq_loop. reflexivity.
Qed.

Lemma name_no_slash : forall pre k n, ~ In 47 pre -> ~ In 47 k -> ~ In 47 (elements_name pre k n).
Proof.
  intros pre k n Hp Hk. unfold elements_name. apply no_slash_app; [exact Hp|]. apply no_slash_app.
  - eapply digits_no; [|apply str_int_digits]. reflexivity.
  - apply no_slash_app; [cbn; intuition lia|exact Hk].
Qed.

Lemma storable_good : forall v, storable v -> good_store v.
Proof.
  assert (LS : ~ In 47 (str "_list_")) by (cbn; intuition lia).
  assert (TS : ~ In 47 (str "_tuple_")) by (cbn; intuition lia).
  induction v as [| b | z | f | s | b | a | l IH | l IH | d IH] using value_ind'; intros Hst k G;
    assert (Hsl : ~ In 47 k) by apply G.
  - exists (inl (k, AStr (str "_None_"))), VNone. split; [reflexivity|]. split; [apply veq_refl|]. split.
    + intros d. rewrite read_attr_good by exact G. reflexivity.
    + intros g Hf. cbn [write_entry]. rewrite set_attr_fresh by exact Hf. reflexivity.
  - exists (inl (k, ABool b)), (VBool b). split; [reflexivity|]. split; [apply veq_refl|]. split.
    + intros d. rewrite read_attr_good by exact G. reflexivity.
    + intros g Hf. cbn [write_entry]. rewrite set_attr_fresh by exact Hf. reflexivity.
  - exists (inl (k, AInt z)), (VInt z). split; [reflexivity|]. split; [apply veq_refl|]. split.
    + intros d. rewrite read_attr_good by exact G. reflexivity.
    + intros g Hf. cbn [write_entry]. inversion Hst as [| |z' Hz| | | | | | | | | | |]; subst.
      assert (Ez : (- 2 ^ 63 <=? z) && (z <? 2 ^ 64) = true) by lia. rewrite Ez.
      rewrite set_attr_fresh by exact Hf. reflexivity.
  - exists (inl (k, AFloat f)), (VFloat f). split; [reflexivity|]. split; [apply veq_refl|]. split.
    + intros d. rewrite read_attr_good by exact G. reflexivity.
    + intros g Hf. cbn [write_entry]. rewrite set_attr_fresh by exact Hf. reflexivity.
  - inversion Hst as [| | | |s' Hs Hn| | | | | | | | |]; subst.
    exists (inl (k, AStr s)), (VStr s). split; [reflexivity|]. split; [apply veq_refl|]. split.
    + intros d. rewrite read_attr_good by exact G. cbn [attr_value fst snd].
      destruct (eqb_str s (str "_None_")) eqn:E; [|reflexivity]. apply eqb_str_spec in E. congruence.
    + intros g Hf. cbn [write_entry]. unfold write_str_attr. rewrite has_nul_false by exact Hs.
      rewrite set_attr_fresh by exact Hf. reflexivity.
  - inversion Hst as [| | | | |b' Hb| | | | | | | |]; subst.
    exists (inl (str "_bs_" ++ k, AVoid b)), (VBytes b). split; [reflexivity|]. split; [apply veq_refl|]. split.
    + intros d. reflexivity.
    + intros g Hf. cbn [write_entry].
      assert (E : existsb (Z.eqb 0) b = true) by (apply existsb_exists; exists 0; split; [exact Hb|reflexivity]).
      rewrite E. rewrite set_attr_fresh by exact Hf. reflexivity.
  - exists (inr (k, NData (DArr a))), (VArr a). split; [reflexivity|]. split; [apply veq_refl|]. split.
    + intros d. unfold read_item.
      rewrite (good_prefix k (str "_ragged_shapes_") G) by in_reserved.
      rewrite (good_prefix k (str "_sig_") G) by in_reserved.
      rewrite (good_prefix k (str "_list_") G) by in_reserved.
      rewrite (good_prefix k (str "_tuple_") G) by in_reserved. reflexivity.
    + intros g Hf. cbn [write_entry]. unfold write_dataset. rewrite (proj2 (contains_slash k) Hsl).
      rewrite set_item_fresh by exact Hf. reflexivity.
  - inversion Hst as [| | | | | | | | |l' Hh| |l' Hns Hlen Hall| |]; subst.
    + exists (inl (str "_list_empty_" ++ k, AStr (str "_None_"))), (VList []).
      split; [reflexivity|]. split; [apply veq_refl|]. split.
      * intros d. reflexivity.
      * intros g Hf. cbn [write_entry]. rewrite set_attr_fresh by exact Hf. reflexivity.
    + assert (Hne : l <> []) by apply Hh. destruct (scalars_data l Hh) as [Hel [ds [Hd Hw]]].
      exists (inr (str "_list_" ++ k, NData ds)), (VList l).
      split; [rewrite sname_list, Hel by exact Hne; reflexivity|]. split; [apply veq_refl|]. split.
      * intros d. cbn [fst snd]. unfold read_item. cbn [startswith str app]. 
        change (startswith (str "_ragged_shapes_") (str "_list_" ++ k)) with false.
        change (startswith (str "_sig_") (str "_list_" ++ k)) with false.
        rewrite startswith_app, Hd. cbn [bind]. reflexivity.
      * intros g Hf. rewrite write_list_eq by exact Hne. unfold write_seq.
        specialize (Hw (str "_list_") k g (no_slash_app _ _ LS Hsl)).
        unfold is_elements in Hel. destruct (list_kind l); try discriminate Hel; rewrite Hw, set_item_fresh by exact Hf; reflexivity.
    + assert (Hne : l <> []) by (intros ->; apply Hns; constructor).
      assert (Hk : list_kind l = KElements) by (apply kind_elements; exact Hns).
      assert (Hgs : Forall good_store l).
      { rewrite Forall_forall in *. intros x Hx. apply IH; [exact Hx|]. apply Hall. exact Hx. }
      destruct (elements_stored l Hlen Hgs) as [a [i [l' [r [E1 [E2 [E3 E4]]]]]]].
      exists (inr (elements_name (str "_list_") k (List.length l), NGroup a i)), (VList l').
      split; [rewrite sname_list by exact Hne; unfold is_elements; rewrite Hk; reflexivity|].
      split; [apply veq_list; exact E4|]. split.
      * intros d. cbn [fst snd]. unfold read_item.
        change (startswith (str "_ragged_shapes_") (elements_name (str "_list_") k (List.length l))) with false.
        change (startswith (str "_sig_") (elements_name (str "_list_") k (List.length l))) with false.
        change (startswith (str "_hspy_AxesManager_") (elements_name (str "_list_") k (List.length l))) with false.
        assert (S : startswith (str "_list_") (elements_name (str "_list_") k (List.length l)) = true) by apply startswith_app.
        rewrite S, E2. cbn [bind]. rewrite E3.
        rewrite (strip_count_name (str "_list_")). reflexivity.
      * intros g Hf. rewrite write_list_eq by exact Hne. unfold write_seq. rewrite Hk. cbv zeta.
        rewrite (require_fresh _ (NGroup a i)); [|apply name_no_slash; assumption|exact Hf]. cbn [bind].
        rewrite E1. cbn [bind]. rewrite set_item_fresh by exact Hf. reflexivity.
  - inversion Hst as [| | | | | | | | | |l' Hh| |l' Hns Hlen Hall|]; subst.
    + exists (inl (str "_tuple_empty_" ++ k, AStr (str "_None_"))), (VTuple []).
      split; [reflexivity|]. split; [apply veq_refl|]. split.
      * intros d. reflexivity.
      * intros g Hf. cbn [write_entry]. rewrite set_attr_fresh by exact Hf. reflexivity.
    + assert (Hne : l <> []) by apply Hh. destruct (scalars_data l Hh) as [Hel [ds [Hd Hw]]].
      exists (inr (str "_tuple_" ++ k, NData ds)), (VTuple l).
      split; [rewrite sname_tuple, Hel by exact Hne; reflexivity|]. split; [apply veq_refl|]. split.
      * intros d. cbn [fst snd]. unfold read_item.
        change (startswith (str "_ragged_shapes_") (str "_tuple_" ++ k)) with false.
        change (startswith (str "_sig_") (str "_tuple_" ++ k)) with false.
        change (startswith (str "_list_") (str "_tuple_" ++ k)) with false.
        rewrite startswith_app, Hd. cbn [bind]. reflexivity.
      * intros g Hf. rewrite write_tuple_eq by exact Hne. unfold write_seq.
        specialize (Hw (str "_tuple_") k g (no_slash_app _ _ TS Hsl)).
        unfold is_elements in Hel. destruct (list_kind l); try discriminate Hel; rewrite Hw, set_item_fresh by exact Hf; reflexivity.
    + assert (Hne : l <> []) by (intros ->; apply Hns; constructor).
      assert (Hk : list_kind l = KElements) by (apply kind_elements; exact Hns).
      assert (Hgs : Forall good_store l).
      { rewrite Forall_forall in *. intros x Hx. apply IH; [exact Hx|]. apply Hall. exact Hx. }
      destruct (elements_stored l Hlen Hgs) as [a [i [l' [r [E1 [E2 [E3 E4]]]]]]].
      exists (inr (elements_name (str "_tuple_") k (List.length l), NGroup a i)), (VTuple l').
      split; [rewrite sname_tuple by exact Hne; unfold is_elements; rewrite Hk; reflexivity|].
      split; [apply veq_tuple; exact E4|]. split.
      * intros d. cbn [fst snd]. unfold read_item.
        change (startswith (str "_ragged_shapes_") (elements_name (str "_tuple_") k (List.length l))) with false.
        change (startswith (str "_sig_") (elements_name (str "_tuple_") k (List.length l))) with false.
        change (startswith (str "_hspy_AxesManager_") (elements_name (str "_tuple_") k (List.length l))) with false.
        change (startswith (str "_list_") (elements_name (str "_tuple_") k (List.length l))) with false.
        assert (S : startswith (str "_tuple_") (elements_name (str "_tuple_") k (List.length l)) = true) by apply startswith_app.
        rewrite S, E2. cbn [bind]. rewrite E3.
        rewrite (strip_count_name (str "_tuple_")). reflexivity.
      * intros g Hf. rewrite write_tuple_eq by exact Hne. unfold write_seq. rewrite Hk. cbv zeta.
        rewrite (require_fresh _ (NGroup a i)); [|apply name_no_slash; assumption|exact Hf]. cbn [bind].
        rewrite E1. cbn [bind]. rewrite set_item_fresh by exact Hf. reflexivity.
  - inversion Hst as [| | | | | | | | | | | | |d' Hnd Hk Hall]; subst.
    assert (Hgs : Forall (fun p => good_store (snd p)) d).
    { rewrite Forall_forall in *. intros p Hp. apply IH; [exact Hp|]. apply Hall. exact Hp. }
    destruct (dict_new d Hgs Hk Hnd) as [a [i [d' [r [E1 [E2 [E3 E4]]]]]]].
    exists (inr (k, NGroup a i)), (VDict r). split; [reflexivity|].
    split; [eapply veq_dict; eassumption|]. split.
    + intros d0. cbn [fst snd]. unfold read_item.
      rewrite (good_prefix k (str "_ragged_shapes_") G) by in_reserved.
      rewrite (good_prefix k (str "_sig_") G) by in_reserved.
      rewrite (good_prefix k (str "_hspy_AxesManager_") G) by in_reserved.
      rewrite (good_prefix k (str "_list_") G) by in_reserved.
      rewrite (good_prefix k (str "_tuple_") G) by in_reserved. rewrite E2. reflexivity.
    + intros g Hf. cbn [write_entry]. rewrite (require_fresh _ (NGroup a i)); [|exact Hsl|exact Hf]. cbn [bind].
      rewrite dict_loop, E1. cbn [bind]. rewrite set_item_fresh by exact Hf. reflexivity.
Qed.
