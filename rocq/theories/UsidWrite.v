(** Property C105: writing USID files, and reading them again. *)
From Coq Require Import QArith Permutation.
From Verif Require Import Base Text HierModel HierProps HierProof DistModel RowMajor SfsModel EdaxModel EdaxLine DmImage ImgModel UsidModel UsidProps.
Local Open Scope Z_scope.

(** * Parameters *)
(** Leaves of a tree with the keys that lead to them, in order *)
Fixpoint paths (t : tree) : list (list pystr * Z) :=
  match t with
  | Leaf v => [([], v)]
  | Node l => (fix items l := match l with [] => [] | (k, v) :: r => map (fun pv => (k :: fst pv, snd pv)) (paths v) ++ items r end) l
  end.
(** Keys without hyphens, not empty, and not twice in one dictionary *)
Definition key_ok (k : pystr) : Prop := k <> [] /\ ~ In 45 k.
Inductive clean : tree -> Prop :=
| clean_leaf : forall v, clean (Leaf v)
| clean_node : forall l, NoDup (map fst l) -> Forall (fun kv => key_ok (fst kv)) l -> Forall (fun kv => clean (snd kv)) l -> clean (Node l).
Definition joined (pv : list pystr * Z) : pystr * Z := (join_char 45 (fst pv), snd pv).
Section TreeInd.
  Variable P : tree -> Prop.
  Hypothesis leaf : forall v, P (Leaf v).
  Hypothesis node : forall l, Forall (fun kv => P (snd kv)) l -> P (Node l).
  Fixpoint tree_all (t : tree) : P t :=
    match t with
    | Leaf v => leaf v
    | Node l => node l ((fix all (l : list (pystr * tree)) : Forall (fun kv => P (snd kv)) l := match l return Forall (fun kv => P (snd kv)) l with [] => Forall_nil _ | kv :: r => @Forall_cons _ (fun kv => P (snd kv)) kv r (tree_all (snd kv)) (all r) end) l)
    end.
End TreeInd.
Fixpoint forest (l : list (pystr * tree)) : list (list pystr * Z) := match l with [] => [] | (k, v) :: r => map (fun pv => (k :: fst pv, snd pv)) (paths v) ++ forest r end.
Lemma paths_node : forall l, paths (Node l) = forest l.
Proof. intro l. cbn [paths]. induction l as [|[k v] l IH]; [reflexivity|]. cbn [forest]. rewrite <- IH. reflexivity. Qed.
Lemma paths_ok : forall t, clean t -> NoDup (map fst (paths t)) /\ Forall (fun pv => Forall key_ok (fst pv)) (paths t).
Proof.
  induction t as [v|l IH] using tree_all; intro C; [split; [repeat constructor; intros []|repeat constructor]|]. rewrite paths_node. inversion C as [|? D K CL]; subst. clear C. induction l as [|[k v] l IHl]; [split; constructor|]. cbn [forest map fst] in *. inversion IH as [|? ? I1 I2]; subst. inversion D as [|? ? D1 D2]; subst. inversion K as [|? ? K1 K2]; subst. inversion CL as [|? ? C1 C2]; subst. cbn [fst snd] in *. destruct (I1 C1) as [N1 F1]. destruct (IHl I2 D2 K2 C2) as [N2 F2]. split.
  - rewrite map_app, map_map. cbn [fst]. clear IHl.
    assert (DIS : forall p, In p (map (fun pv => k :: fst pv) (paths v)) -> ~ In p (map fst (forest l))).
    { intros p P Q. apply in_map_iff in P. destruct P as (pv & <- & _). clear - Q D1. induction l as [|[k2 v2] l IH]; [destruct Q|]. cbn [forest map fst] in *. rewrite map_app, map_map in Q. apply in_app_or in Q. destruct Q as [Q|Q]; [|apply IH; [intro X; apply D1; right; exact X|exact Q]]. apply in_map_iff in Q. destruct Q as (x & E & _). cbn [fst] in E. injection E as E _. apply D1. left. exact E. }
    assert (NV : NoDup (map (fun pv => k :: fst pv) (paths v))). { rewrite <- map_map with (f := fst) (g := fun p => k :: p). apply FinFun.Injective_map_NoDup; [intros a b E; injection E as E; exact E|exact N1]. }
    clear - DIS NV N2. induction (map (fun pv => k :: fst pv) (paths v)) as [|p a IH]; [exact N2|]. inversion NV as [|? ? A1 A2]; subst. cbn [app]. constructor; [|apply IH; [intros q Q; apply DIS; right; exact Q|exact A2]]. intro I. apply in_app_or in I. destruct I as [I|I]; [exact (A1 I)|exact (DIS p (or_introl eq_refl) I)].
  - apply Forall_app. split; [|exact F2]. apply Forall_forall. intros pv P. apply in_map_iff in P. destruct P as (x & <- & X). cbn [fst]. constructor; [exact K1|]. rewrite Forall_forall in F1. exact (F1 x X).
Qed.
Lemma dict_of_id : forall A (l acc : list (pystr * A)), NoDup (map fst (acc ++ l)) -> fold_left (fun r kv => put (fst kv) (snd kv) r) l acc = acc ++ l.
Proof.
  intros A l. induction l as [|[k v] l IH]; intros acc N; [rewrite app_nil_r; reflexivity|]. cbn [fold_left fst snd].
  assert (P : put k v acc = acc ++ [(k, v)]). { assert (NI : ~ In k (map fst acc)). { rewrite map_app in N. cbn [map fst] in N. apply NoDup_remove_2 in N. intro X. apply N. apply in_or_app. left. exact X. } clear - NI. induction acc as [|[k2 v2] acc IH]; [reflexivity|]. cbn [put app]. cbn [map fst] in NI. destruct (eqb_str k k2) eqn:E; [apply eqb_str_spec in E; subst; destruct NI; left; reflexivity|]. rewrite IH; [reflexivity|]. intro X. apply NI. right. exact X. }
  rewrite P, IH; [rewrite <- app_assoc; reflexivity|]. rewrite <- app_assoc. exact N.
Qed.
Fixpoint leaves (parent : pystr) (l : list (pystr * tree)) : list (pystr * Z) := match l with [] => [] | (k, v) :: r => flatten_tree (new_key parent k) v ++ leaves parent r end.
Lemma flatten_node : forall parent l, flatten_tree parent (Node l) = dict_of (leaves parent l).
Proof. intros parent l. cbn [flatten_tree]. f_equal. induction l as [|[k v] l IH]; [reflexivity|]. cbn [leaves]. rewrite <- IH. reflexivity. Qed.
(** The key of a path below the keys so far *)
Lemma join_snoc : forall c a b, a <> [] -> b <> [] -> join_char c (a ++ b) = join_char c a ++ c :: join_char c b.
Proof.
  intros c a b N B. induction a as [|x a IH]; [congruence|]. destruct a as [|y a].
  - destruct b as [|z b]; [congruence|]. reflexivity.
  - change (join_char c ((x :: y :: a) ++ b)) with (x ++ c :: join_char c ((y :: a) ++ b)). rewrite IH by discriminate. change (join_char c (x :: y :: a)) with (x ++ c :: join_char c (y :: a)). rewrite <- app_assoc. reflexivity.
Qed.
Lemma join_ne : forall l, l <> [] -> Forall key_ok l -> join_char 45 l <> [].
Proof. intros l N F. destruct F as [|k l [K _] F]; [congruence|]. destruct k as [|c k]; [congruence|]. destruct l; discriminate. Qed.
Lemma joined_inj : forall a b, a <> [] -> b <> [] -> Forall key_ok a -> Forall key_ok b -> join_char 45 a = join_char 45 b -> a = b.
Proof.
  intros a b A B FA FB E. assert (W : forall l, Forall key_ok l -> Forall (fun w => ~ In 45 w) l) by (intros l F; eapply Forall_impl; [|exact F]; intros w [_ H]; exact H). rewrite <- (split_join 45 a A (W a FA)), <- (split_join 45 b B (W b FB)), E. reflexivity.
Qed.
Definition below (parent : list pystr) (pv : list pystr * Z) : pystr * Z := (join_char 45 (parent ++ fst pv), snd pv).
Lemma joined_nodup : forall parent (l : list (list pystr * Z)), Forall key_ok parent -> Forall (fun pv => Forall key_ok (fst pv)) l -> Forall (fun pv => parent ++ fst pv <> []) l -> NoDup (map fst l) -> NoDup (map fst (map (below parent) l)).
Proof.
  intros parent l P F NE N. rewrite map_map. cbn [below fst]. induction l as [|[p v] l IH]; [constructor|]. cbn [map fst] in *. inversion F as [|? ? F1 F2]; subst. inversion NE as [|? ? E1 E2]; subst. inversion N as [|? ? N1 N2]; subst. constructor; [|exact (IH F2 E2 N2)]. intro I. apply in_map_iff in I. destruct I as ([q w] & E & I). cbn [fst] in *. apply N1. apply in_map_iff. exists (q, w). split; [|exact I]. cbn [fst]. rewrite Forall_forall in F2, E2.
  apply joined_inj in E; [exact (app_inv_head _ _ _ E)|exact (E2 _ I)|exact E1|apply Forall_app; split; [exact P|exact (F2 _ I)]|apply Forall_app; split; assumption].
Qed.
Lemma new_key_join : forall parent k, Forall key_ok parent -> new_key (join_char 45 parent) k = join_char 45 (parent ++ [k]).
Proof.
  intros parent k F. destruct parent as [|x p]; [reflexivity|]. rewrite join_snoc by discriminate. unfold new_key. destruct (join_char 45 (x :: p)) eqn:E; [|reflexivity]. exfalso. eapply join_ne; [|exact F|exact E]. discriminate.
Qed.
Lemma forest_ne : forall parent l, Forall (fun pv => parent ++ fst pv <> []) (forest l).
Proof. intros parent l. induction l as [|[k v] l IH]; [constructor|]. cbn [forest]. apply Forall_app. split; [|exact IH]. apply Forall_forall. intros pv P. apply in_map_iff in P. destruct P as (x & <- & _). cbn [fst]. destruct parent; discriminate. Qed.
Lemma flatten_paths : forall t parent, clean t -> Forall key_ok parent -> flatten_tree (join_char 45 parent) t = map (below parent) (paths t).
Proof.
  induction t as [v|l IH] using tree_all; intros parent C P; [cbn [flatten_tree paths map]; unfold below; cbn [fst snd]; rewrite app_nil_r; reflexivity|].
  destruct (paths_ok _ C) as [ND FK]. rewrite paths_node in *. rewrite flatten_node. inversion C as [|? D K CL]; subst. clear C.
  assert (L : leaves (join_char 45 parent) l = map (below parent) (forest l)).
  { clear ND FK. induction l as [|[k v] l IHl]; [reflexivity|]. cbn [leaves forest]. cbn [map fst] in D. inversion IH as [|? ? I1 I2]; subst. inversion D as [|? ? D1 D2]; subst. inversion K as [|? ? K1 K2]; subst. inversion CL as [|? ? C1 C2]; subst. cbn [fst snd] in *. rewrite new_key_join by exact P. rewrite (I1 (parent ++ [k]) C1) by (apply Forall_app; split; [exact P|repeat constructor; apply K1]). rewrite (IHl I2 D2 K2 C2), map_app, map_map. f_equal. apply map_ext. intros [p w]. unfold below. cbn [fst snd]. rewrite <- app_assoc. reflexivity. }
  unfold dict_of. rewrite L. apply (dict_of_id _ _ []). cbn [app]. apply joined_nodup; [exact P|exact FK|apply forest_ne|exact ND].
Qed.
(** Every entry is kept, named by all of the keys above it *)
Theorem C105_flat : forall l, clean (Node l) -> flatten_dict [] l = map joined (paths (Node l)) /\ NoDup (map fst (flatten_dict [] l)).
Proof.
  intros l C. unfold flatten_dict. change (@nil Z) with (join_char 45 []). rewrite flatten_paths by (exact C || constructor). split; [apply map_ext; intros [p v]; reflexivity|]. destruct (paths_ok _ C) as [N F]. apply joined_nodup; [constructor|exact F|rewrite paths_node; apply forest_ne|exact N].
Qed.
Definition original (pv : list pystr * Z) : pystr * Z := joined (str "Original" :: fst pv, snd pv).
Definition parms (metadata original : list (pystr * tree)) : list (pystr * Z) := fold_left (fun r kv => put (fst kv) (snd kv) r) (flatten_dict (str "Original") original) (flatten_dict [] metadata).
Lemma forest_head : forall l p v, In (p, v) (forest l) -> exists k q, p = k :: q /\ In k (map fst l).
Proof. intros l p v I. induction l as [|[k t] l IH]; [destruct I|]. cbn [forest] in I. apply in_app_or in I. destruct I as [I|I]; [|destruct (IH I) as (k' & q & E & K); exists k', q; split; [exact E|right; exact K]]. apply in_map_iff in I. destruct I as ([q w] & E & _). injection E as <- _. exists k, q. split; [reflexivity|left; reflexivity]. Qed.
Lemma original_ok : key_ok (str "Original").
Proof. split; [discriminate|]. intro H. vm_compute in H. repeat (destruct H as [H|H]; [discriminate H|]). exact H. Qed.
Theorem C105_parameters : forall md om, clean (Node md) -> clean (Node om) -> ~ In (str "Original") (map fst md) -> parms md om = map joined (paths (Node md)) ++ map original (paths (Node om)).
Proof.
  intros md om CM CO N. unfold parms. destruct (C105_flat md CM) as [-> _].
  assert (E : flatten_dict (str "Original") om = map original (paths (Node om))).
  { unfold flatten_dict. change (str "Original") with (join_char 45 [str "Original"]). rewrite flatten_paths; [|exact CO|repeat constructor; apply original_ok]. apply map_ext. intros [p v]. reflexivity. }
  rewrite E. apply dict_of_id. destruct (paths_ok _ CM) as [NM FM]. destruct (paths_ok _ CO) as [NO FO]. rewrite !paths_node in *.
  assert (NX : NoDup (map fst (map (below []) (forest md ++ map (fun pv => (str "Original" :: fst pv, snd pv)) (forest om))))).
  { apply joined_nodup; [constructor| | |].
    - apply Forall_app. split; [exact FM|]. apply Forall_forall. intros pv P. apply in_map_iff in P. destruct P as (x & <- & X). cbn [fst]. constructor; [exact original_ok|]. rewrite Forall_forall in FO. exact (FO x X).
    - apply Forall_app. split; [apply forest_ne|]. apply Forall_forall. intros pv P. apply in_map_iff in P. destruct P as (x & <- & X). discriminate.
    - rewrite map_app, map_map. cbn [fst].
      assert (NV : NoDup (map (fun pv => str "Original" :: fst pv) (forest om))). { rewrite <- map_map with (f := fst) (g := fun p => str "Original" :: p). apply FinFun.Injective_map_NoDup; [intros a b H; injection H as H; exact H|exact NO]. }
      assert (DIS : forall p, In p (map fst (forest md)) -> ~ In p (map (fun pv => str "Original" :: fst pv) (forest om))).
      { intros p P Q. apply in_map_iff in P. destruct P as ([q v] & <- & P). apply forest_head in P. destruct P as (k & r & -> & K). apply in_map_iff in Q. destruct Q as (x & X & _). cbn [fst] in X. injection X as X _. subst k. contradiction. }
      clear - DIS NV NM. induction (map fst (forest md)) as [|p a IH]; [exact NV|]. inversion NM as [|? ? A1 A2]; subst. cbn [app]. constructor; [|apply IH; [exact A2|intros q Q; apply DIS; right; exact Q]]. intro I. apply in_app_or in I. destruct I as [I|I]; [exact (A1 I)|exact (DIS p (or_introl eq_refl) I)]. }
  rewrite map_app, map_map in NX. exact NX.
Qed.
(** Keys with hyphens hide one another; empty dictionaries, and the names of groups without name, are lost *)
Theorem C105_hyphen_refuted : exists l, NoDup (map fst l) /\ paths (Node l) = [([str "a-b"], 1); ([str "a"; str "b"], 2)] /\ flatten_dict [] l = [(str "a-b", 2)].
Proof. exists [(str "a-b", Leaf 1); (str "a", Node [(str "b", Leaf 2)])]. split; [constructor; [intros [H|[]]; discriminate H|constructor; [intros []|constructor]]|]. split; vm_compute; reflexivity. Qed.
Theorem C105_original_refuted : exists md om, clean (Node md) /\ clean (Node om) /\ parms md om = [(str "Original-x", 2)] /\ paths (Node md) = [([str "Original"; str "x"], 1)].
Proof.
  exists [(str "Original", Node [(str "x", Leaf 1)])], [(str "x", Leaf 2)].
  assert (KX : key_ok (str "x")) by (split; [discriminate|intros [H|[]]; discriminate H]).
  split; [|split; [|split; vm_compute; reflexivity]].
  - constructor; [constructor; [intros []|constructor]|constructor; [exact original_ok|constructor]|constructor; [|constructor]]. cbn [snd]. constructor; [constructor; [intros []|constructor]|constructor; [exact KX|constructor]|repeat constructor].
  - constructor; [constructor; [intros []|constructor]|constructor; [exact KX|constructor]|repeat constructor].
Qed.

(** * Dimensions *)
(** The text if there is one, without blanks around it, else the default *)
Definition text_or (o : option pystr) (default x : pystr) : Prop := (exists s a b, o = Some s /\ s = a ++ x ++ b /\ blank a /\ blank b /\ trimmed x /\ x <> []) \/ (x = default /\ (o = None \/ exists s, o = Some s /\ blank s)).
Lemma named_text : forall o default x, text_or o default x -> named o default = x.
Proof.
  intros o default x [(s & a & b & -> & -> & A & B & T & N)|[-> [->|(s & -> & S)]]]; unfold named; [rewrite strip_blanks by assumption; destruct x; [congruence|reflexivity]|reflexivity|]. pose proof (strip_blanks s [] [] S (Forall_nil _) I) as E. rewrite !app_nil_r in E. rewrite E. reflexivity.
Qed.
Definition default_name (type : string) (i : nat) : pystr := str type ++ str "_Dim_" ++ str_int (Z.of_nat i).
Definition dimension_of (type : string) (i : nat) (a : saxis) (n : Z) (m : dimension) : Prop :=
  text_or (a_name a) (default_name type i) (m_name m) /\ text_or (a_units a) (str "a. u.") (m_units m) /\ zlen (m_values m) = n /\ forall k, 0 <= k < n -> nth_error (m_values m) (Z.to_nat k) = Some (inject_Z k * a_scale a + a_offset a)%Q.
Lemma text_named : forall o default, text_or o default (named o default).
Proof.
  intros o default. unfold named. destruct o as [s|]; [|right; split; [reflexivity|left; reflexivity]]. destruct (strip s) as [|c t] eqn:E.
  - right. split; [reflexivity|]. right. exists s. split; [reflexivity|]. clear default. assert (L : lstrip s = []). { unfold strip, rstrip in E. apply (f_equal (@rev Z)) in E. rewrite rev_involutive in E. cbn [rev] in E. destruct (lstrip s) as [|x l] eqn:LS; [reflexivity|]. exfalso. assert (X : is_space x = false). { clear - LS. induction s as [|y s IH]; [discriminate LS|]. cbn [lstrip] in LS. destruct (is_space y) eqn:Y; [exact (IH LS)|]. injection LS as -> _. exact Y. } assert (I : In x (rev (x :: l))) by (apply in_rev; rewrite rev_involutive; left; reflexivity). clear - E X I. induction (rev (x :: l)) as [|y r IH]; [destruct I|]. cbn [lstrip] in E. destruct (is_space y) eqn:Y; [|discriminate E]. destruct I as [->|I]; [congruence|exact (IH E I)]. }
    clear E. induction s as [|c s IH]; [constructor|]. cbn [lstrip] in L. destruct (is_space c) eqn:C; [|discriminate L]. constructor; [exact C|exact (IH L)].
  - left. exists s. unfold strip, rstrip in E.
    assert (LS : forall s, exists a, s = a ++ lstrip s /\ blank a /\ (forall x l, lstrip s = x :: l -> is_space x = false)).
    { clear. intro s. induction s as [|c s (a & E & A & F)]; [exists []; repeat split; [constructor|intros x l H; discriminate H]|]. cbn [lstrip]. destruct (is_space c) eqn:C; [exists (c :: a); split; [cbn [app]; rewrite <- E; reflexivity|]; split; [constructor; assumption|exact F]|]. exists []. repeat split; [constructor|]. intros x l H. injection H as -> _. exact C. }
    destruct (LS s) as (a & ES & A & F). destruct (LS (rev (lstrip s))) as (b & EB & B & G).
    assert (R : lstrip s = (c :: t) ++ rev b) by (rewrite <- (rev_involutive (lstrip s)), EB, rev_app_distr, E; reflexivity).
    exists a, (rev b). split; [reflexivity|]. split; [rewrite <- R; exact ES|]. split; [exact A|]. split; [apply blank_rev; exact B|]. split; [|discriminate]. split; [apply (F c (t ++ rev b)); exact R|].
    destruct (rev_last_cons _ (c :: t) 0) as [r RL]; [discriminate|]. apply (G _ r). rewrite <- RL, <- E, rev_involutive. reflexivity.
Qed.
Lemma arange_length : forall n s o, 0 <= n -> zlen (arange n s o) = n.
Proof. intros n s o H. unfold arange, zlen. rewrite map_length, zseq_length. lia. Qed.
Lemma arange_nth : forall n s o k, 0 <= k < n -> nth_error (arange n s o) (Z.to_nat k) = Some (inject_Z k * s + o)%Q.
Proof. intros n s o k H. unfold arange. rewrite nth_error_map, nth_error_zseq by lia. cbn [option_map]. do 3 f_equal. f_equal. lia. Qed.
Definition made (type : string) (i : nat) (a : saxis) (n : Z) : dimension := {| m_name := named (a_name a) (default_name type i); m_units := named (a_units a) (str "a. u."); m_values := arange n (a_scale a) (a_offset a) |}.
Lemma made_ok : forall type i a n, 0 <= n -> dimension_of type i a n (made type i a n).
Proof. intros type i a n H. split; [apply text_named|]. split; [apply text_named|]. split; [apply arange_length; exact H|]. intros k K. apply arange_nth. exact K. Qed.
Lemma dimensions_from_ok : forall type axes i shape, (i + List.length axes <= List.length shape)%nat ->
  exists l, dimensions_from i type axes shape = Ok l /\ List.length l = List.length axes /\ forall j a, nth_error axes j = Some a -> nth_error l j = Some (made type (i + j) a (nth (List.length shape - 1 - (i + j)) shape 0)).
Proof.
  intros type axes. induction axes as [|a axes IH]; intros i shape H; cbn [dimensions_from]; [exists []; repeat split; intros [|j] a X; discriminate X|]. cbn [List.length] in H. replace (List.length shape <? S i)%nat with false by (symmetry; apply Nat.ltb_ge; lia). destruct (IH (S i) shape) as (l & E & L & N); [lia|]. rewrite E. cbn [bind]. eexists. split; [reflexivity|]. split; [cbn [List.length]; rewrite L; reflexivity|]. intros [|j] b X; cbn [nth_error] in *; [injection X as <-; rewrite Nat.add_0_r; reflexivity|]. rewrite (N j b X). replace (S i + j)%nat with (i + S j)%nat by lia. reflexivity.
Qed.
Lemma nth_error_rev : forall A (l : list A) k x, nth_error l k = Some x -> nth_error (rev l) (List.length l - 1 - k) = Some x.
Proof.
  intros A l. induction l as [|y l IH] using rev_ind; intros k x H; [destruct k; discriminate H|]. rewrite rev_app_distr, app_length. cbn [rev app List.length]. destruct (Nat.eq_dec k (List.length l)) as [->|N].
  - rewrite nth_error_app2, Nat.sub_diag in H by lia. cbn [nth_error] in H. injection H as ->. replace (List.length l + 1 - 1 - List.length l)%nat with O by lia. reflexivity.
  - assert (K : (k < List.length (l ++ [y]))%nat) by (apply nth_error_Some; congruence). rewrite app_length in K. cbn [List.length] in K. rewrite nth_error_app1 in H by lia. replace (List.length l + 1 - 1 - k)%nat with (S (List.length l - 1 - k)) by lia. cbn [nth_error]. apply IH. exact H.
Qed.
Fixpoint made_all (type : string) (axes : list saxis) (shape : list Z) : list dimension :=
  match axes, shape with a :: ax, n :: sh => made type (List.length ax) a n :: made_all type ax sh | _, _ => [] end.
Lemma made_all_nth : forall type axes shape k a n, nth_error axes k = Some a -> nth_error shape k = Some n -> List.length axes = List.length shape -> nth_error (made_all type axes shape) k = Some (made type (List.length axes - 1 - k) a n).
Proof.
  intros type axes. induction axes as [|b axes IH]; intros [|m shape] k a n A N L; try discriminate L; [destruct k; discriminate A|]. cbn [made_all]. destruct k as [|k]; cbn [nth_error] in *; [injection A as ->; injection N as ->; cbn [List.length]; replace (S (List.length axes) - 1 - 0)%nat with (List.length axes) by lia; reflexivity|]. rewrite (IH shape k a n A N) by (cbn [List.length] in L; lia). cbn [List.length]. do 2 f_equal. lia.
Qed.
Lemma made_all_length : forall type axes shape, List.length axes = List.length shape -> List.length (made_all type axes shape) = List.length axes.
Proof. intros type axes. induction axes as [|b axes IH]; intros [|m shape] L; try discriminate L; [reflexivity|]. cbn [made_all List.length]. rewrite IH; [reflexivity|]. cbn [List.length] in L. lia. Qed.
Lemma nth_ext_error : forall A (a b : list A), List.length a = List.length b -> (forall k x, nth_error b k = Some x -> nth_error a k = Some x) -> a = b.
Proof.
  intros A a. induction a as [|x a IH]; intros [|y b] L H; try discriminate L; [reflexivity|]. pose proof (H O y eq_refl) as E. injection E as ->. f_equal. apply IH; [cbn [List.length] in L; lia|]. intros k z Z. exact (H (S k) z Z).
Qed.
Definition arbitrary : dimension := {| m_name := str "Arb"; m_units := str "a. u."; m_values := [0%Q] |}.
Lemma axes_dimensions : forall spec axes shape, List.length axes = List.length shape ->
  axes_to_dimensions (rev axes) shape spec = Ok match axes with [] => [arbitrary] | _ => made_all (if spec then "Spec" else "Pos")%string axes shape end.
Proof.
  intros spec axes shape L. unfold axes_to_dimensions. set (type := if spec then "Spec"%string else "Pos"%string). destruct (dimensions_from_ok type (rev axes) 0 shape) as (l & E & LL & N); [rewrite rev_length; lia|]. rewrite E. cbn [bind].
  destruct axes as [|a0 axes']; [cbn [rev List.length] in LL; destruct l; [reflexivity|discriminate LL]|]. set (axes := a0 :: axes') in *. assert (RL : rev l = made_all type axes shape).
  { apply nth_ext_error; [rewrite rev_length, LL, rev_length, made_all_length by exact L; reflexivity|]. intros k x X. assert (K : (k < List.length axes)%nat) by (rewrite <- (made_all_length type axes shape L); apply nth_error_Some; congruence). destruct (nth_error axes k) as [a|] eqn:A; [|apply nth_error_None in A; lia]. destruct (nth_error shape k) as [n|] eqn:S; [|apply nth_error_None in S; lia]. rewrite (made_all_nth type axes shape k a n A S L) in X. injection X as <-.
    pose proof (nth_error_rev _ _ _ _ A) as AR. pose proof (N _ _ AR) as NL. apply nth_error_rev in NL. rewrite LL, rev_length in NL. replace (List.length axes - 1 - (List.length axes - 1 - k))%nat with k in NL by lia. rewrite NL. do 2 f_equal. apply nth_error_nth. rewrite Nat.add_0_l. replace (List.length shape - 1 - (List.length axes - 1 - k))%nat with k by lia. exact S. }
  rewrite RL. destruct l as [|x l]; [cbn [List.length] in LL; rewrite rev_length in LL; discriminate LL|reflexivity].
Qed.
(** A signal whose navigation axes come first *)
Definition placed (axes nav sig : list saxis) : Prop := axes = nav ++ sig /\ Forall (fun a => a_navigate a = true) nav /\ Forall (fun a => a_navigate a = false) sig.
Definition dims_of (type : string) (axes : list saxis) (shape : list Z) (l : list dimension) : Prop :=
  match axes with [] => l = [arbitrary] | _ => List.length l = List.length axes /\ forall k a n, nth_error axes k = Some a -> nth_error shape k = Some n -> exists m, nth_error l k = Some m /\ dimension_of type (List.length axes - 1 - k) a n m end.
Lemma filter_all : forall A (f : A -> bool) l, Forall (fun x => f x = true) l -> filter f l = l.
Proof. intros A f l H. induction H as [|x l X _ IH]; [reflexivity|]. cbn [filter]. rewrite X, IH. reflexivity. Qed.
Lemma filter_none : forall A (f : A -> bool) l, Forall (fun x => f x = false) l -> filter f l = [].
Proof. intros A f l H. induction H as [|x l X _ IH]; [reflexivity|]. cbn [filter]. rewrite X. exact IH. Qed.
Definition all_dims (type : string) (axes : list saxis) (shape : list Z) : list dimension := match axes with [] => [arbitrary] | _ => made_all type axes shape end.
Lemma writer_made : forall axes nav sig shn shs flat md om, placed axes nav sig -> List.length nav = List.length shn -> List.length sig = List.length shs ->
  usid_writer axes (shn ++ shs) flat md om = Ok {| w_rows := prodZ shn; w_cols := prodZ shs; w_flat := flat; w_pos := all_dims "Pos" nav shn; w_spec := all_dims "Spec" sig shs; w_parms := parms md om |}.
Proof.
  intros axes nav sig shn shs flat md om (-> & FN & FS) LN LS. unfold usid_writer.
  assert (NF : Forall (fun a => negb (a_navigate a) = false) nav) by (eapply Forall_impl; [|exact FN]; intros a ->; reflexivity).
  assert (SF : Forall (fun a => negb (a_navigate a) = true) sig) by (eapply Forall_impl; [|exact FS]; intros a ->; reflexivity).
  rewrite !filter_app, (filter_all _ _ _ FN), (filter_none _ a_navigate _ FS), (filter_none _ _ _ NF), (filter_all _ _ _ SF), app_nil_r. cbn [app]. rewrite !rev_length. rewrite LN, firstn_app_at, skipn_app_at. fold (parms md om).
  destruct nav as [|a nav].
  - destruct shn; [|discriminate LN]. cbn [List.length Nat.eqb negb andb app rev]. pose proof (axes_dimensions true sig shs LS) as E. cbn [axes_to_dimensions dimensions_from bind]. rewrite E. reflexivity.
  - destruct sig as [|b sig].
    + destruct shs; [|discriminate LS]. rewrite app_nil_r. cbn [List.length Nat.eqb]. destruct shn as [|n shn]; [discriminate LN|]. cbn [List.length Nat.eqb negb andb]. rewrite (axes_dimensions false (a :: nav) (n :: shn) LN). reflexivity.
    + destruct shn as [|n shn]; [discriminate LN|]. cbn [List.length Nat.eqb negb andb]. rewrite (axes_dimensions false (a :: nav) (n :: shn) LN), (axes_dimensions true (b :: sig) shs LS). reflexivity.
Qed.
Lemma all_dims_of : forall type axes shape, List.length axes = List.length shape -> Forall (fun n => 0 <= n) shape -> dims_of type axes shape (all_dims type axes shape).
Proof.
  intros type axes shape L P. unfold dims_of, all_dims. destruct axes as [|a axes]; [reflexivity|]. split; [apply made_all_length; exact L|]. intros k b n B N. eexists. split; [apply made_all_nth; eassumption|]. apply made_ok. rewrite Forall_forall in P. apply P. eapply nth_error_In. exact N.
Qed.
Theorem C105_dimensions : forall axes nav sig shn shs flat md om, placed axes nav sig -> List.length nav = List.length shn -> List.length sig = List.length shs -> Forall (fun n => 0 <= n) (shn ++ shs) ->
  exists w, usid_writer axes (shn ++ shs) flat md om = Ok w /\ w_rows w = prodZ shn /\ w_cols w = prodZ shs /\ w_parms w = parms md om /\ dims_of "Pos" nav shn (w_pos w) /\ dims_of "Spec" sig shs (w_spec w) /\ w_flat w = flat.
Proof.
  intros axes nav sig shn shs flat md om P LN LS F. rewrite (writer_made _ _ _ _ _ flat md om P LN LS). apply Forall_app in F. destruct F as [F1 F2]. eexists. split; [reflexivity|]. cbn [w_rows w_cols w_parms w_pos w_spec w_flat]. repeat split; apply all_dims_of; assumption.
Qed.
Lemma in_shape_length : forall s i, in_shape s i -> List.length s = List.length i.
Proof. intros s i H. induction H; [reflexivity|]. cbn [List.length]. congruence. Qed.
(** Each element is in the row of its position and the column of its place in the spectrum *)
Theorem C105_elements : forall shn shs i j, in_shape shn i -> in_shape shs j -> row_major (shn ++ shs) (i ++ j) = row_major [prodZ shn; prodZ shs] [row_major shn i; row_major shs j] /\ in_shape [prodZ shn; prodZ shs] [row_major shn i; row_major shs j].
Proof.
  intros shn shs i j I J. split; [|repeat constructor; apply row_major_range; assumption]. rewrite row_major_app by (apply in_shape_length; exact I). cbn [row_major]. unfold prodZ at 2. cbn [fold_right]. fold (prodZ shs). unfold prodZ. cbn [fold_right]. ring.
Qed.
Theorem C105_few : forall axes nav sig shape flat md om, placed axes nav sig -> nav <> [] -> sig <> [] -> (List.length shape < List.length axes)%nat -> usid_writer axes shape flat md om = Err IndexError.
Proof.
  intros axes nav sig shape flat md om (-> & FN & FS) NN NS L. unfold usid_writer.
  assert (NF : Forall (fun a => negb (a_navigate a) = false) nav) by (eapply Forall_impl; [|exact FN]; intros a ->; reflexivity).
  assert (SF : Forall (fun a => negb (a_navigate a) = true) sig) by (eapply Forall_impl; [|exact FS]; intros a ->; reflexivity).
  rewrite !filter_app, (filter_all _ _ _ FN), (filter_none _ a_navigate _ FS), (filter_none _ _ _ NF), (filter_all _ _ _ SF), app_nil_r. cbn [app]. rewrite !rev_length. rewrite app_length in L.
  assert (BAD : forall type axes i sh, (i <= List.length sh < i + List.length axes)%nat -> dimensions_from i type axes sh = Err IndexError).
  { intros type ax. induction ax as [|a ax IH]; intros i sh H; cbn [List.length] in H; [lia|]. cbn [dimensions_from]. destruct (List.length sh <? S i)%nat eqn:E; [reflexivity|]. apply Nat.ltb_ge in E. rewrite IH by lia. reflexivity. }
  destruct nav as [|a nav]; [congruence|]. destruct sig as [|b sig]; [congruence|]. set (N := a :: nav) in *. set (S := b :: sig) in *. replace (negb (List.length N =? 0)%nat && negb (List.length S =? 0)%nat) with true by reflexivity. unfold axes_to_dimensions at 1.
  destruct (le_lt_dec (List.length N) (List.length shape)) as [LE|LT].
  - destruct (dimensions_from_ok "Pos" (rev N) 0 (firstn (List.length N) shape)) as (l & E & _); [rewrite rev_length, firstn_length; lia|]. rewrite E. cbn [bind]. assert (E2 : axes_to_dimensions (rev S) (skipn (List.length N) shape) true = Err IndexError) by (unfold axes_to_dimensions; rewrite BAD; [reflexivity|rewrite skipn_length, rev_length; lia]). rewrite E2. destruct l; reflexivity.
  - rewrite BAD; [reflexivity|]. rewrite firstn_length, rev_length. lia.
Qed.

(** * Reading again *)
(** Entries of an index at the dimensions that are not of one point *)
Fixpoint kept (shape idx : list Z) : list Z := match shape, idx with n :: s, i :: r => if n =? 1 then kept s r else i :: kept s r | _, _ => [] end.
Lemma expand_kept : forall s e, in_shape s e -> expand s (kept s e) = e.
Proof. intros s e H. induction H as [|n i s e I H IH]; [reflexivity|]. cbn [kept expand]. destruct (n =? 1) eqn:E; rewrite IH; [|reflexivity]. f_equal. lia. Qed.
(** A dataset in a file holds what was written; its labels may be stored in any order *)
Record holds (w : written_usid) (d : dataset) (nd : ndim) : Prop := {
  h_pos : exists l, Permutation (w_pos w) l /\ d_pos d = map m_name l /\ d_pos_units d = map m_units l;
  h_spec : exists l, Permutation (w_spec w) l /\ d_spec d = map m_name l /\ d_spec_units d = map m_units l;
  h_pos_values : forall m, In m (w_pos w) -> d_pos_values d (m_name m) = m_values m;
  h_spec_values : forall m, In m (w_spec w) -> d_spec_values d (m_name m) = m_values m;
  h_nd : d_nd d = Some nd; h_labels : n_labels nd = map m_name (w_pos w) ++ map m_name (w_spec w);
  h_shape : n_shape nd = map (fun m => zlen (m_values m)) (w_pos w) ++ map (fun m => zlen (m_values m)) (w_spec w);
  h_fields : d_fields d = None;
  h_at : forall i, n_at nd [] i = nth (Z.to_nat (row_major (n_shape nd) i)) (w_flat w) 0 }.
(** Axes with name and units, of different names *)
Definition labelled (axes : list saxis) (names units : list pystr) : Prop :=
  map a_name axes = map Some names /\ map a_units axes = map Some units /\ NoDup names /\ Forall (fun s => trimmed s /\ s <> []) names /\ Forall (fun s => trimmed s /\ s <> []) units.
Definition same_axis (a : saxis) (n : Z) (u : uaxis) : Prop := a_name a = Some (u_name u) /\ a_units a = Some (u_units u) /\ u_size u = n /\ (u_scale u == a_scale a)%Q /\ (u_offset u == a_offset a)%Q.
Definition not_one (an : saxis * Z) : bool := negb (snd an =? 1).
Lemma labelled_dims : forall type axes names units shape, labelled axes names units -> List.length axes = List.length shape ->
  map m_name (made_all type axes shape) = names /\ map m_units (made_all type axes shape) = units.
Proof.
  intros type axes. induction axes as [|a axes IH]; intros names units shape (N & U & D & FN & FU) L; destruct shape as [|n shape]; try discriminate L.
  - destruct names; [|discriminate N]. destruct units; [|discriminate U]. split; reflexivity.
  - destruct names as [|x names]; [discriminate N|]. destruct units as [|y units]; [discriminate U|]. cbn [map] in N, U. injection N as N1 N2. injection U as U1 U2. inversion D; subst. inversion FN as [|? ? [T1 T2] FN2]; subst. inversion FU as [|? ? [V1 V2] FU2]; subst. destruct (IH names units shape) as [E1 E2]; [repeat split; assumption|cbn [List.length] in L; lia|]. cbn [made_all map]. cbn [made m_name m_units]. rewrite E1, E2, N1, U1. unfold named. rewrite !strip_trimmed by assumption. destruct x; [congruence|]. destruct y; [congruence|]. split; reflexivity.
Qed.
Lemma made_sizes : forall type axes shape, List.length axes = List.length shape -> Forall (fun n => 0 <= n) shape -> map (fun m => zlen (m_values m)) (made_all type axes shape) = shape.
Proof. intros type axes. induction axes as [|a axes IH]; intros [|n shape] L F; try discriminate L; [reflexivity|]. inversion F; subst. cbn [made_all map]. rewrite IH by (assumption || (cbn [List.length] in L; lia)). unfold made. cbn [m_values]. rewrite arange_length by assumption. reflexivity. Qed.
Lemma forall2_cons : forall A B (P : A -> B -> Prop) x a l, Forall2 P (x :: a) l -> exists y b, l = y :: b /\ P x y /\ Forall2 P a b.
Proof. intros A B P x a l H. inversion H as [|? y ? b Y F]; subst. exists y, b. split; [reflexivity|]. split; assumption. Qed.
Section Again.
  Variable slope : list Q -> res Q.
  (** The slope of a uniform axis is found *)
  Definition slope_ok : Prop := forall n s o, 2 <= n -> exists q, slope (arange n s o) = Ok q /\ (q == s)%Q.
  Lemma axes_again : forall type axes names units shape values labels uns l, slope_ok -> labelled axes names units -> List.length axes = List.length shape -> Forall (fun n => 1 <= n) shape ->
    (forall m, In m (made_all type axes shape) -> values (m_name m) = m_values m) -> (exists ms, Permutation (made_all type axes shape) ms /\ labels = map m_name ms /\ uns = map m_units ms) ->
    axes_of slope labels uns values names l -> Forall2 (fun an u => same_axis (fst an) (snd an) u) (filter not_one (combine axes shape)) l.
  Proof.
    intros type axes names units shape values labels uns l SO LB LEN POS VAL (ms & PM & -> & ->) AX.
    destruct (labelled_dims type axes names units shape LB LEN) as [DN DU].
    assert (ND : NoDup (map m_name ms)). { eapply Permutation_NoDup; [apply Permutation_map; exact PM|]. rewrite DN. apply LB. }
    assert (ALL : forall m, In m (made_all type axes shape) -> forall i u, nth_error (map m_name ms) i = Some (m_name m) -> nth_error (map m_units ms) i = Some u -> u = m_units m).
    { intros m M i u I1 I2. assert (MM : In m ms) by (eapply Permutation_in; eassumption). apply In_nth_error in MM. destruct MM as [j J].
      assert (i = j). { rewrite NoDup_nth_error in ND. apply ND; [rewrite map_length; rewrite <- (map_length m_name); apply nth_error_Some; congruence|]. rewrite I1. rewrite nth_error_map, J. reflexivity. } subst j. rewrite nth_error_map, J in I2. injection I2 as <-. reflexivity. }
    unfold axes_of in AX. rewrite <- DN in AX. clear PM ND DN DU. destruct LB as (N & U & _ & FN & FU). revert names units shape l N U FN FU LEN POS VAL ALL AX.
    induction axes as [|a axes IH]; intros names units shape l N U FN FU LEN POS VAL ALL AX; destruct shape as [|n shape]; try discriminate LEN; [inversion AX; constructor|].
    destruct names as [|x names]; [discriminate N|]. destruct units as [|y units]; [discriminate U|]. cbn [map] in N, U. injection N as N1 N2. injection U as U1 U2. inversion FN as [|? ? [T1 T2] FN2]; subst. inversion FU as [|? ? [V1 V2] FU2]; subst. inversion POS as [|? ? P1 P2]; subst. cbn [made_all map] in *.
    set (m := made type (List.length axes) a n) in *. assert (VM := VAL m (or_introl eq_refl)). cbn [combine filter]. unfold not_one at 1. cbn [snd]. cbn [filter] in AX. unfold long at 1 in AX. rewrite VM in AX. assert (ML : zlen (m_values m) = n) by (apply arange_length; lia). rewrite ML in AX.
    assert (REST : forall l, Forall2 (fun n a => exists i u, nth_error (map m_name ms) i = Some n /\ nth_error (map m_units ms) i = Some u /\ axis_for slope n u (values n) a) (filter (long values) (map m_name (made_all type axes shape))) l -> Forall2 (fun an u => same_axis (fst an) (snd an) u) (filter not_one (combine axes shape)) l).
    { intros l' H. apply (IH names units shape l' N2 U2 FN2 FU2); [cbn [List.length] in LEN; lia|exact P2|intros k K; apply VAL; right; exact K|intros k K; apply ALL; right; exact K|exact H]. }
    destruct (n =? 1) eqn:E; cbn [negb] in *; [apply REST; exact AX|]. apply forall2_cons in AX. destruct AX as (u & l' & -> & (i & v & I1 & I2 & AF) & F). constructor; [|apply REST; exact F]. cbn [fst snd]. pose proof (ALL m (or_introl eq_refl) i v I1 I2) as EV. subst v. rewrite VM in AF. destruct AF as (A1 & A2 & A3 & A4 & _). rewrite ML in A3. change (m_values m) with (arange n (a_scale a) (a_offset a)) in A4. destruct (SO n (a_scale a) (a_offset a)) as (q & SQ & QE); [lia|]. destruct (A4 q SQ) as [S1 S2].
    assert (HD : hd_error (arange n (a_scale a) (a_offset a)) = Some (inject_Z 0 * a_scale a + a_offset a)%Q). { pose proof (arange_nth n (a_scale a) (a_offset a) 0 ltac:(lia)) as H. destruct (arange n (a_scale a) (a_offset a)); [discriminate H|exact H]. }
    rewrite HD in S2. injection S2 as S2. unfold same_axis. rewrite A1, A2, <- S2. unfold m, made. cbn [m_name m_units]. rewrite N1, U1. unfold named. rewrite !strip_trimmed by assumption. destruct x; [congruence|]. destruct y; [congruence|]. repeat split; [exact A3|rewrite S1; exact QE|]. change (inject_Z 0) with 0%Q. ring.
  Qed.
  Lemma long_readable : forall type ignore axes shape values, slope_ok -> List.length axes = List.length shape -> Forall (fun n => 1 <= n) shape -> (forall m, In m (made_all type axes shape) -> values (m_name m) = m_values m) ->
    forall n, In n (map m_name (made_all type axes shape)) -> long values n = true -> readable slope ignore (values n).
  Proof.
    intros type ignore axes shape values SO LEN POS VAL n I L. apply in_map_iff in I. destruct I as (m & <- & M). rewrite (VAL m M) in *. unfold long in L. rewrite (VAL m M) in L. assert (Z1 : exists i a k, m = made type i a k /\ 1 <= k).
    { clear VAL L. revert shape LEN POS M. induction axes as [|a axes IH]; intros [|k shape] LEN POS M; try discriminate LEN; [destruct M|]. inversion POS; subst. cbn [made_all] in M. destruct M as [<-|M]; [exists (List.length axes), a, k; split; [reflexivity|assumption]|]. apply (IH shape); [cbn [List.length] in LEN; lia|assumption|exact M]. }
    destruct Z1 as (i & a & k & -> & K). cbn [made m_values] in *. rewrite arange_length in L by lia. split; [|left; destruct (SO k (a_scale a) (a_offset a)) as (q & SQ & _); [lia|]; exists q; exact SQ]. intro X. pose proof (arange_length k (a_scale a) (a_offset a) ltac:(lia)) as E. rewrite X in E. unfold zlen in E. cbn in E. lia.
  Qed.
  Lemma arb_none : forall labels uns values l, values (str "Arb") = [0%Q] -> axes_of slope labels uns values [str "Arb"] l -> l = [].
  Proof. intros labels uns values l V A. unfold axes_of in A. cbn [filter] in A. unfold long in A. rewrite V in A. inversion A. reflexivity. Qed.
  Theorem C105_again : forall ignore axes nav sig shn shs flat md om w d nd nn un ns us, slope_ok -> placed axes nav sig -> List.length nav = List.length shn -> List.length sig = List.length shs -> Forall (fun n => 1 <= n) (shn ++ shs) ->
    labelled nav nn un -> labelled sig ns us -> usid_writer axes (shn ++ shs) flat md om = Ok w -> holds w d nd ->
    exists g, signals_of slope ignore d = Ok [g] /\ Forall2 (fun an u => same_axis (fst an) (snd an) u) (filter not_one (combine axes (shn ++ shs))) (s_uaxes g) /\ s_shape g = map u_size (s_uaxes g) /\
      forall i, in_shape (shn ++ shs) i -> s_at g (kept (shn ++ shs) i) = nth (Z.to_nat (row_major (shn ++ shs) i)) flat 0.
  Proof.
    intros ignore axes nav sig shn shs flat md om w d nd nn un ns us SO PL LN LS POS LBN LBS W H. rewrite (writer_made _ _ _ _ _ flat md om PL LN LS) in W. injection W as <-. destruct H as [(lp & PP & DP & UP) (ls & PS & DS & US) VP VS HN HL HS HF HA]. cbn [w_pos w_spec w_flat] in *. apply Forall_app in POS. destruct POS as [POSN POSS].
    assert (NNp : NoDup (map m_name (all_dims "Pos" nav shn))) by (destruct nav; [repeat constructor; intros []|unfold all_dims; rewrite (proj1 (labelled_dims "Pos" _ nn un shn LBN LN)); apply LBN]).
    assert (NNs : NoDup (map m_name (all_dims "Spec" sig shs))) by (destruct sig; [repeat constructor; intros []|unfold all_dims; rewrite (proj1 (labelled_dims "Spec" _ ns us shs LBS LS)); apply LBS]).
    assert (FINE : fine slope ignore d nd (map m_name (all_dims "Pos" nav shn)) (map m_name (all_dims "Spec" sig shs))).
    { split; [exact HN|exact HL|rewrite DP; apply Permutation_map; exact PP|rewrite DS; apply Permutation_map; exact PS|rewrite DP; eapply Permutation_NoDup; [apply Permutation_map; exact PP|exact NNp]|rewrite DS; eapply Permutation_NoDup; [apply Permutation_map; exact PS|exact NNs]|rewrite DP, UP, !map_length; reflexivity|rewrite DS, US, !map_length; reflexivity| | |].
      - rewrite HS, !map_map. f_equal; apply map_ext_in; intros m M; [rewrite (VP m M)|rewrite (VS m M)]; reflexivity.
      - intros n I L. rewrite DP in I. apply (Permutation_in _ (Permutation_sym (Permutation_map m_name PP))) in I. destruct nav as [|a nav]; [destruct I as [<-|[]]; unfold long in L; change (str "Arb") with (m_name arbitrary) in L; rewrite (VP arbitrary (or_introl eq_refl)) in L; discriminate L|]. exact (long_readable "Pos" ignore (a :: nav) shn _ SO LN POSN VP n I L).
      - intros n I L. rewrite DS in I. apply (Permutation_in _ (Permutation_sym (Permutation_map m_name PS))) in I. destruct sig as [|a sig]; [destruct I as [<-|[]]; unfold long in L; change (str "Arb") with (m_name arbitrary) in L; rewrite (VS arbitrary (or_introl eq_refl)) in L; discriminate L|]. exact (long_readable "Spec" ignore (a :: sig) shs _ SO LS POSS VS n I L). }
    destruct (C104_signals slope ignore d nd _ _ FINE) as (l & pa & sa & E & XP & XS & F). unfold fields_of in F. rewrite HF in F. inversion F as [|? g ? l' (G1 & G2 & _ & _ & _ & G3) F2]; subst. inversion F2; subst. exists g. split; [exact E|].
    assert (AXP : Forall2 (fun an u => same_axis (fst an) (snd an) u) (filter not_one (combine nav shn)) pa).
    { destruct nav as [|a nav]; [cbn [all_dims map] in XP; rewrite (arb_none _ _ _ _ (VP arbitrary (or_introl eq_refl)) XP); constructor|]. pose proof (proj1 (labelled_dims "Pos" _ nn un shn LBN LN)) as NM. unfold all_dims in XP, PP. rewrite NM in XP. eapply (axes_again "Pos"); [exact SO|exact LBN|exact LN|exact POSN|exact VP|exists lp; split; [exact PP|split; [exact DP|exact UP]]|exact XP]. }
    assert (AXS : Forall2 (fun an u => same_axis (fst an) (snd an) u) (filter not_one (combine sig shs)) sa).
    { destruct sig as [|a sig]; [cbn [all_dims map] in XS; rewrite (arb_none _ _ _ _ (VS arbitrary (or_introl eq_refl)) XS); constructor|]. pose proof (proj1 (labelled_dims "Spec" _ ns us shs LBS LS)) as NM. unfold all_dims in XS, PS. rewrite NM in XS. eapply (axes_again "Spec"); [exact SO|exact LBS|exact LS|exact POSS|exact VS|exists ls; split; [exact PS|split; [exact DS|exact US]]|exact XS]. }
    split; [|split; [exact G2|]].
    - rewrite G1. destruct PL as (-> & _ & _). assert (CA : forall (a b : list saxis) (c e : list Z), List.length a = List.length c -> combine (a ++ b) (c ++ e) = combine a c ++ combine b e). { clear. intro a. induction a as [|x a IH]; intros b [|y c] e L; try discriminate L; [reflexivity|]. cbn [app combine]. rewrite IH; [reflexivity|]. cbn [List.length] in L. lia. } rewrite (CA _ _ _ _ LN), filter_app. apply Forall2_app; assumption.
    - intros i I. rewrite G3. cbn [fst snd]. rewrite HA.
      assert (POSN0 : Forall (fun n => 0 <= n) shn) by (eapply Forall_impl; [|exact POSN]; cbn; lia). assert (POSS0 : Forall (fun n => 0 <= n) shs) by (eapply Forall_impl; [|exact POSS]; cbn; lia).
      assert (SH : (nav = [] /\ map (fun m => zlen (m_values m)) (all_dims "Pos" nav shn) = 1 :: shn) \/ map (fun m => zlen (m_values m)) (all_dims "Pos" nav shn) = shn).
      { destruct nav as [|a nav]; [left; destruct shn; [|discriminate LN]; split; reflexivity|right; unfold all_dims; apply made_sizes; assumption]. }
      assert (SS : (sig = [] /\ map (fun m => zlen (m_values m)) (all_dims "Spec" sig shs) = shs ++ [1]) \/ map (fun m => zlen (m_values m)) (all_dims "Spec" sig shs) = shs).
      { destruct sig as [|a sig]; [left; destruct shs; [|discriminate LS]; split; reflexivity|right; unfold all_dims; apply made_sizes; assumption]. }
      assert (APP : forall s k, expand (s ++ [1]) k = expand s k ++ [0] \/ (List.length k < List.length (squeezed s))%nat).
      { clear. intro s. induction s as [|n s IH]; intro k; [left; reflexivity|]. cbn [app expand squeezed filter]. unfold squeezed in IH. destruct (n =? 1); cbn [negb]; [destruct (IH k) as [E|E]; [left; rewrite E; reflexivity|right; exact E]|]. destruct k as [|x k]; [right; cbn [List.length]; lia|]. destruct (IH k) as [E|E]; [left; rewrite E; reflexivity|right; cbn [List.length]; lia]. }
      assert (KL : forall s e, in_shape s e -> List.length (kept s e) = List.length (squeezed s)). { clear. intros s e H. induction H as [|n i s e I H IH]; [reflexivity|]. cbn [kept]. unfold squeezed in *. cbn [filter]. destruct (n =? 1); cbn [negb]; [exact IH|]. cbn [List.length]. rewrite IH. reflexivity. }
      assert (KEY : row_major (n_shape nd) (expand (n_shape nd) (kept (shn ++ shs) i)) = row_major (shn ++ shs) i).
      { assert (TAIL : row_major (shn ++ map (fun m => zlen (m_values m)) (all_dims "Spec" sig shs)) (expand (shn ++ map (fun m => zlen (m_values m)) (all_dims "Spec" sig shs)) (kept (shn ++ shs) i)) = row_major (shn ++ shs) i).
        { destruct SS as [[_ SS]|SS]; rewrite SS; [|rewrite (expand_kept _ _ I); reflexivity]. rewrite app_assoc. destruct (APP (shn ++ shs) (kept (shn ++ shs) i)) as [EE|EE]; [|rewrite (KL _ _ I) in EE; lia]. rewrite EE, (expand_kept _ _ I), row_major_app by (apply in_shape_length; exact I). unfold prodZ. cbn [fold_right row_major]. lia. }
        rewrite HS. destruct SH as [[_ SH]|SH]; rewrite SH; [|exact TAIL]. cbn [app expand Z.eqb Pos.eqb row_major]. rewrite TAIL. lia. }
      rewrite KEY. reflexivity.
  Qed.
End Again.

(** * Examples *)
Definition simple_slope (v : list Q) : res Q := match v with a :: b :: _ => Ok (b - a)%Q | _ => Err ValueError end.
Example simple_slope_ok : slope_ok simple_slope.
Proof.
  intros n s o N. unfold arange. destruct (Z.to_nat n) as [|[|k]] eqn:E; [lia|lia|]. cbn [zseq map simple_slope]. eexists. split; [reflexivity|]. change (inject_Z (0 + 1)) with 1%Q. change (inject_Z 0) with 0%Q. ring.
Qed.
Definition ax (name units : string) (s o : Q) (nav : bool) : saxis := {| a_name := Some (str name); a_units := Some (str units); a_scale := s; a_offset := o; a_navigate := nav |}.
Definition ex_nav : list saxis := [ax "y" "nm" 2 1 true; ax "x" "nm" 3 0 true].
Definition ex_sig : list saxis := [ax "bias" "V" (1 # 2) (-1) false].
Definition ex_flat : list Z := zseq 0 12.
Definition ex_md : list (pystr * tree) := [(str "General", Node [(str "title", Leaf 5); (str "deep", Node [(str "er", Leaf 6)])]); (str "k", Leaf 7)].
Example ex_clean : clean (Node ex_md).
Proof.
  assert (K : forall k : string, str k <> [] -> forallb (fun c => negb (c =? 45)) (str k) = true -> key_ok (str k)) by (intros k N F; split; [exact N|]; intro I; rewrite forallb_forall in F; specialize (F 45 I); discriminate F).
  assert (ND : forall (a b : pystr), a <> b -> NoDup [a; b]) by (intros a b N; constructor; [intros [X|[]]; congruence|constructor; [intros []|constructor]]).
  assert (N1 : forall a : pystr, NoDup [a]) by (intro a; constructor; [intros []|constructor]).
  constructor; [apply ND; discriminate|repeat constructor; apply K; (discriminate || reflexivity)|]. constructor; [|constructor; [constructor|constructor]]. cbn [snd]. constructor; [apply ND; discriminate|repeat constructor; apply K; (discriminate || reflexivity)|]. constructor; [constructor|]. constructor; [|constructor]. cbn [snd]. constructor; [apply N1|repeat constructor; apply K; (discriminate || reflexivity)|repeat constructor].
Qed.
Example ex_parms : parms ex_md [(str "a", Leaf 1)] = [(str "General-title", 5); (str "General-deep-er", 6); (str "k", 7); (str "Original-a", 1)].
Proof. vm_compute. reflexivity. Qed.
Example ex_placed : placed (ex_nav ++ ex_sig) ex_nav ex_sig. Proof. split; [reflexivity|]. split; repeat constructor. Qed.
Example ex_labelled : labelled ex_nav [str "y"; str "x"] [str "nm"; str "nm"] /\ labelled ex_sig [str "bias"] [str "V"].
Proof.
  split; (split; [reflexivity|]; split; [reflexivity|]; split; [|split; repeat constructor; try discriminate]).
  - constructor; [intros [X|[]]; discriminate X|constructor; [intros []|constructor]].
  - constructor; [intros []|constructor].
Qed.
Definition ex_written : written_usid := {| w_rows := 4; w_cols := 3; w_flat := ex_flat; w_pos := made_all "Pos" ex_nav [4; 1]; w_spec := made_all "Spec" ex_sig [3]; w_parms := parms ex_md [] |}.
Example ex_writes : usid_writer (ex_nav ++ ex_sig) ([4; 1] ++ [3]) ex_flat ex_md [] = Ok ex_written. Proof. vm_compute. reflexivity. Qed.
Definition values_in (l : list dimension) (n : pystr) : list Q := match find (fun m => eqb_str (m_name m) n) l with Some m => m_values m | None => [] end.
Definition ex_nd : ndim := {| n_shape := [4; 1; 3]; n_labels := map str ["y"; "x"; "bias"]%string; n_at := fun _ i => nth (Z.to_nat (row_major [4; 1; 3] i)) ex_flat 0 |}.
Definition ex_dataset : dataset := {| d_pos := map str ["x"; "y"]%string; d_pos_units := map str ["nm"; "nm"]%string; d_pos_values := values_in (w_pos ex_written); d_spec := [str "bias"]; d_spec_units := [str "V"]; d_spec_values := values_in (w_spec ex_written);
  d_nd := Some ex_nd; d_descriptor := str "Unknown Quantity (Unknown Units)"; d_fields := None; d_path := str "/Measurement_000/Channel_000/Raw_Data"; d_group := (str "/Measurement_000/Channel_000", []); d_outer := (str "/Measurement_000", [(str "k", 7)]) |}.
Example ex_holds : holds ex_written ex_dataset ex_nd.
Proof.
  split; try reflexivity.
  - exists (rev (w_pos ex_written)). split; [apply Permutation_rev|split; vm_compute; reflexivity].
  - exists (w_spec ex_written). split; [apply Permutation_refl|split; vm_compute; reflexivity].
  - intros m [<-|[<-|[]]]; vm_compute; reflexivity.
  - intros m [<-|[]]; vm_compute; reflexivity.
Qed.
Example ex_read : exists g, signals_of simple_slope true ex_dataset = Ok [g] /\ s_shape g = [4; 3] /\ map u_name (s_uaxes g) = [str "y"; str "bias"] /\ s_at g [2; 1] = 7 /\ s_quantity g = str "Unknown Quantity" /\ s_units g = str "Unknown Units" /\ s_title g = str "Raw_Data" /\ s_parameters g = [].
Proof. eexists. split; [vm_compute; reflexivity|]. repeat split. Qed.
Example ex_described : exists a q b u e, str " Current density (A)  " = described 40 41 a q b u e /\ q = str "Current density" /\ u = str "A" /\ blank a /\ blank b /\ blank e /\ trimmed q /\ plain_text u.
Proof. exists (str " "), (str "Current density"), (str " "), (str "A"), (str "  "). split; [reflexivity|]. repeat split; try (repeat constructor; fail). constructor; [|constructor]. intro H. vm_compute in H. repeat (destruct H as [H|H]; [discriminate H|]). exact H. Qed.

Print Assumptions C104_round.
Print Assumptions C104_square.
Print Assumptions C104_no_units.
Print Assumptions C104_both_refuted.
Print Assumptions C104_signals.
Print Assumptions C104_uneven.
Print Assumptions C104_channel.
Print Assumptions C104_measurement_refuted.
Print Assumptions C104_title.
Print Assumptions C104_file.
Print Assumptions C104_path.
Print Assumptions C104_no_path.
Print Assumptions C105_flat.
Print Assumptions C105_parameters.
Print Assumptions C105_hyphen_refuted.
Print Assumptions C105_original_refuted.
Print Assumptions C105_dimensions.
Print Assumptions C105_elements.
Print Assumptions C105_few.
Print Assumptions C105_again.
