(** Property C42, continued: XmlToDict. *)
From Verif Require Import Base Text HierModel HierProof Dict SfsModel NpyModel XmlModel XmlProps.

(** * Specification *)
(** Values listed for a key, in order *)
Definition values (t : pystr) (l : list (pystr * val)) : list val := map snd (filter (fun p => eqb_str t (fst p)) l).
(** Text or attribute [s] is at the path below an element; [Child t n] is the n-th child
    with tag [t]. *)
Definition tagged (t : pystr) (l : list xml) : list xml := filter (fun c => eqb_str t (x_tag c)) l.
Inductive holds : xml -> list step -> pystr -> Prop :=
| holds_text : forall e, strip (x_text e) <> [] -> holds e [Text] (strip (x_text e))
| holds_attr : forall e k v, In (k, v) (x_attrs e) -> holds e [Attr k] v
| holds_child : forall e t n c p s, nth_error (tagged t (x_children e)) n = Some c -> holds c p s -> holds e (Child t n :: p) s.
(** Where it should be in the dictionary: repeated tags give lists, and attributes get a
    prefix beside children. *)
Inductive dstep := Key (k : pystr) | Idx (n : nat).
Fixpoint dget (v : val) (p : list dstep) : option val :=
  match p, v with
  | [], _ => Some v
  | Key k :: p', VDict d => match lookup k d with Some x => dget x p' | None => None end
  | Idx n :: p', VList l => match nth_error l n with Some x => dget x p' | None => None end
  | _, _ => None
  end.
Fixpoint place (o : options) (e : xml) (p : list step) : list dstep :=
  match p with
  | [] => []
  | Text :: _ => match x_attrs e, x_children e with [], [] => [] | _, _ => [Key (text_key o)] end
  | Attr k :: _ => [Key (match x_children e with [] => k | _ => attr_pre o ++ k end)]
  | Child t n :: p' =>
      match nth_error (tagged t (x_children e)) n with
      | Some c => Key t :: match tagged t (x_children e) with [_] => place o c p' | _ => Idx n :: place o c p' end
      | None => []
      end
  end.
(** Keys of one element do not collide. *)
Inductive tidy (o : options) : xml -> Prop :=
| tidy_leaf : forall tag attrs text tail, NoDup (map fst attrs) -> ~ In (text_key o) (map fst attrs) -> tidy o (Elem tag attrs text tail [])
| tidy_node : forall tag attrs text tail children, NoDup (map fst attrs) -> children <> [] ->
    (forall k, In k (map fst attrs) -> ~ In (attr_pre o ++ k) (map x_tag children) /\ attr_pre o ++ k <> text_key o) ->
    ~ In (text_key o) (map x_tag children) -> Forall (tidy o) children -> tidy o (Elem tag attrs text tail children).
(** The literal, or the literal read again if it was a text *)
Definition literal_of (o : options) (s : pystr) (l : leaf) : Prop :=
  l = literal o s \/ exists s', literal o s = LText s' /\ l = literal o s'.

(** * Lemmas *)
Lemma xml_ind2 : forall P : xml -> Prop, (forall tag attrs text tail children, Forall P children -> P (Elem tag attrs text tail children)) -> forall e, P e.
Proof. intros P H. fix IH 1. intros [tag attrs text tail children]. apply H. induction children as [|c l IHl]; constructor; [apply IH|exact IHl]. Qed.

Definition entries_of (o : options) (c : xml) : res (list (pystr * val)) := let! v := dictionarize o c in items_of v.
Definition node_value (o : options) (attrs : list (pystr * pystr)) (text : pystr) (children : list xml) (pairs : list (pystr * val)) : val :=
  add_text o attrs text children
    (fold_left (fun v a => set_key ((match children with [] => [] | _ => attr_pre o end) ++ fst a) (eval_text o (snd a)) v) attrs
       (match children with
        | [] => match attrs with [] => VNone | _ => VDict [] end
        | _ => VDict (map (fun p => (fst p, one_or_list o (snd p))) (group pairs))
        end)).
Lemma dictionarize_eq : forall o tag attrs text tail children,
  dictionarize o (Elem tag attrs text tail children) =
  let! its := mapM (entries_of o) children in
  let v := node_value o attrs text children (List.concat its) in
  if existsb (eqb_str tag) (flatten o) then Ok v else Ok (VDict [(tag, v)]).
Proof.
  intros o tag attrs text tail children. cbn [dictionarize].
  assert (E : forall l, (fix go (l : list xml) : res (list (pystr * val)) :=
            match l with
            | [] => Ok []
            | c :: l' => let! v := dictionarize o c in let! i := items_of v in let! r := go l' in Ok (i ++ r)
            end) l = let! its := mapM (entries_of o) l in Ok (List.concat its)).
  { induction l as [|c l IH]; [reflexivity|]. cbn [mapM]. unfold entries_of at 1. destruct (dictionarize o c) as [v|]; [|reflexivity]. cbn [bind]. destruct (items_of v) as [i|]; [|reflexivity]. cbn [bind].
    rewrite IH. destruct (mapM (entries_of o) l); reflexivity. }
  rewrite E. destruct (mapM (entries_of o) children) as [its|]; reflexivity.
Qed.

Lemma lookup_append : forall t k v d, lookup t (append k v d) = if eqb_str t k then Some (match lookup t d with Some l => l ++ [v] | None => [v] end) else lookup t d.
Proof.
  induction d as [|[k' l] d IH]; cbn [append lookup].
  - destruct (eqb_str t k); reflexivity.
  - destruct (eqb_str k k') eqn:E; cbn [lookup].
    + apply eqb_str_spec in E. subst k'. destruct (eqb_str t k); reflexivity.
    + rewrite IH. destruct (eqb_str t k') eqn:E1; [|reflexivity]. apply eqb_str_spec in E1. subst k'.
      destruct (eqb_str t k) eqn:E2; [apply eqb_str_spec in E2; subst; rewrite eqb_str_refl in E; discriminate|reflexivity].
Qed.
Lemma lookup_fold : forall t l d, lookup t (fold_left (fun d p => append (fst p) (snd p) d) l d) =
  match lookup t d, values t l with None, [] => None | None, vs => Some vs | Some a, vs => Some (a ++ vs) end.
Proof.
  induction l as [|[k v] l IH]; intros d; cbn [fold_left].
  - unfold values. cbn. destruct (lookup t d) as [a|]; [rewrite app_nil_r|]; reflexivity.
  - rewrite IH, lookup_append. cbn [fst snd]. unfold values. cbn [filter fst]. destruct (eqb_str t k) eqn:E; cbn [map snd]; [|reflexivity].
    destruct (lookup t d) as [a|]; [rewrite <- app_assoc|]; reflexivity.
Qed.
Lemma lookup_group : forall t l, lookup t (group l) = match values t l with [] => None | vs => Some vs end.
Proof. intros t l. unfold group. rewrite lookup_fold. reflexivity. Qed.
Lemma lookup_map_snd : forall A B (f : A -> B) t (l : list (pystr * A)), lookup t (map (fun p => (fst p, f (snd p))) l) = option_map f (lookup t l).
Proof. induction l as [|[k v] l IH]; [reflexivity|]. cbn [map lookup fst snd]. destruct (eqb_str t k); [reflexivity|exact IH]. Qed.
Lemma lookup_put : forall A k (v : A) t d, lookup t (put k v d) = if eqb_str t k then Some v else lookup t d.
Proof.
  induction d as [|[k' v'] d IH]; cbn [put lookup]; [reflexivity|]. destruct (eqb_str k k') eqn:E; cbn [lookup].
  - apply eqb_str_spec in E. subst. destruct (eqb_str t k'); reflexivity.
  - rewrite IH. destruct (eqb_str t k') eqn:E1; [|reflexivity]. apply eqb_str_spec in E1. subst. destruct (eqb_str k' k) eqn:E2; [apply eqb_str_spec in E2; subst; rewrite eqb_str_refl in E; discriminate|reflexivity].
Qed.
(** Attributes *)
Lemma fold_set : forall o pre attrs d, exists d', fold_left (fun v a => set_key (pre ++ fst a) (eval_text o (snd a)) v) attrs (VDict d) = VDict d' /\
  (forall t, ~ In t (map (fun a => pre ++ fst a) attrs) -> lookup t d' = lookup t d) /\
  (forall k v, NoDup (map fst attrs) -> In (k, v) attrs -> lookup (pre ++ k) d' = Some (eval_text o v)).
Proof.
  induction attrs as [|[k0 v0] attrs IH]; intros d; cbn [fold_left].
  - exists d. split; [reflexivity|]. split; [reflexivity|intros ? ? _ []].
  - cbn [set_key fst snd]. destruct (IH (put (pre ++ k0) (eval_text o v0) d)) as [d' [E [H1 H2]]]. exists d'. split; [exact E|]. split.
    + intros t Ht. cbn [map fst In] in Ht. rewrite H1 by tauto. rewrite lookup_put. destruct (eqb_str t (pre ++ k0)) eqn:Et; [apply eqb_str_spec in Et; subst; tauto|reflexivity].
    + intros k v Hn [Ein|Hin]; cbn [map fst] in Hn; inversion Hn; subst.
      * injection Ein as -> ->. rewrite H1; [rewrite lookup_put, eqb_str_refl; reflexivity|]. intro K. apply in_map_iff in K. destruct K as [[k' v'] [Ek Hk]]. cbn [fst] in Ek. apply app_inv_head in Ek. subst k'.
        apply H3. apply in_map_iff. exists (k, v'). split; [reflexivity|exact Hk].
      * apply H2; assumption.
Qed.

(** * One element *)
(** Every entry of the children is kept: once as it is, several times as a list in order. *)
Theorem C42_children : forall o tag tail children its, children <> [] -> existsb (eqb_str tag) (flatten o) = false ->
  Forall2 (fun c i => dictionarize o c = Ok (VDict i)) children its ->
  exists d, dictionarize o (Elem tag [] [] tail children) = Ok (VDict [(tag, VDict d)]) /\
    forall t, lookup t d = match values t (List.concat its) with [] => None | [v] => Some (eval o v) | vs => Some (VList vs) end.
Proof.
  intros o tag tail children its Hne Hf H.
  assert (M : mapM (entries_of o) children = Ok its).
  { clear Hne. induction H as [|c i l its Hc _ IH]; [reflexivity|]. cbn [mapM]. unfold entries_of at 1. rewrite Hc. cbn [bind items_of]. rewrite IH. reflexivity. }
  rewrite dictionarize_eq, M. cbn [bind]. rewrite Hf. unfold node_value. cbn [add_text strip lstrip rstrip rev fold_left]. destruct children as [|c0 l0]; [congruence|].
  eexists. split; [reflexivity|]. intro t. rewrite lookup_map_snd, lookup_group. destruct (values t (List.concat its)) as [|v [|w vs]]; reflexivity.
Qed.
(** An element whose tag is to be flattened gives its own entries. *)
Theorem C42_flatten : forall o tag attrs text tail children v, existsb (eqb_str tag) (flatten o) = true ->
  dictionarize o (Elem tag attrs text tail children) = Ok v ->
  forall tag', existsb (eqb_str tag') (flatten o) = false -> dictionarize o (Elem tag' attrs text tail children) = Ok (VDict [(tag', v)]).
Proof.
  intros o tag attrs text tail children v Hf H tag' Hf'. rewrite dictionarize_eq in *. destruct (mapM (entries_of _) children) as [its|]; [|discriminate]. cbn [bind] in *. rewrite Hf in H. rewrite Hf'. congruence.
Qed.

(** * Paths *)
Lemma dictionarize_total : forall o e, flatten o = [] -> exists v, dictionarize o e = Ok (VDict [(x_tag e, v)]).
Proof.
  intros o e Hf. induction e as [tag attrs text tail children IH] using xml_ind2. rewrite dictionarize_eq.
  assert (M : exists its, mapM (entries_of o) children = Ok its).
  { induction IH as [|c l [v Hc] _ [its IHl]]; [exists []; reflexivity|]. exists ([(x_tag c, v)] :: its). cbn [mapM]. unfold entries_of at 1. rewrite Hc. cbn [bind items_of]. rewrite IHl. reflexivity. }
  destruct M as [its ->]. cbn [bind]. rewrite Hf. cbn [existsb x_tag]. eexists. reflexivity.
Qed.
Definition inner (o : options) (e : xml) : val := match dictionarize o e with Ok (VDict [(_, v)]) => v | _ => VNone end.
Lemma inner_ok : forall o e, flatten o = [] -> dictionarize o e = Ok (VDict [(x_tag e, inner o e)]).
Proof. intros o e H. destruct (dictionarize_total o e H) as [v Hv]. unfold inner. rewrite Hv. reflexivity. Qed.
Lemma inner_eq : forall o tag attrs text tail children, flatten o = [] ->
  inner o (Elem tag attrs text tail children) = node_value o attrs text children (map (fun c => (x_tag c, inner o c)) children).
Proof.
  intros o tag attrs text tail children H. unfold inner at 1. rewrite dictionarize_eq.
  assert (M : mapM (entries_of o) children = Ok (map (fun c => [(x_tag c, inner o c)]) children)).
  { induction children as [|c l IH]; [reflexivity|]. cbn [mapM map]. unfold entries_of at 1. rewrite (inner_ok o c H). cbn [bind items_of]. rewrite IH. reflexivity. }
  rewrite M. cbn [bind]. rewrite H. cbn [existsb]. f_equal. clear. induction children as [|c l IH]; [reflexivity|]. cbn [map List.concat app]. f_equal. exact IH.
Qed.
Lemma values_tagged : forall o t l, values t (map (fun c => (x_tag c, inner o c)) l) = map (inner o) (tagged t l).
Proof. intros o t l. unfold values, tagged. induction l as [|c l IH]; [reflexivity|]. cbn [map filter fst]. destruct (eqb_str t (x_tag c)); cbn [map snd]; rewrite IH; reflexivity. Qed.

Lemma strip_cases : forall o attrs text children v, text_mode o = First ->
  add_text o attrs text children v =
  match strip text with [] => v | t => match attrs, children with [], [] => eval_text o t | _, _ => set_key (text_key o) (eval_text o t) v end end.
Proof. intros o attrs text children v H. unfold add_text. rewrite H. destruct (strip text); [reflexivity|]. destruct attrs, children; reflexivity. Qed.
Lemma dget_eval : forall o v p x, p <> [] -> dget v p = Some x -> dget (eval o v) p = Some x.
Proof. intros o v [|s p] x H E; [congruence|]. destruct v as [|[s'|n]|d|l]; cbn [eval]; auto; destruct s; discriminate. Qed.

Theorem C42_dictionary : forall o e p s, flatten o = [] -> text_mode o = First -> tidy o e -> holds e p s ->
  exists v l, dictionarize o e = Ok (VDict [(x_tag e, v)]) /\ dget v (place o e p) = Some (VLeaf l) /\ literal_of o s l.
Proof.
  intros o e p s Hf Hm Ht H.
  assert (K : exists l, dget (inner o e) (place o e p) = Some (VLeaf l) /\ literal_of o s l /\ (place o e p = [] -> l = literal o s));
    [|destruct K as [l [K1 [K2 _]]]; exists (inner o e), l; split; [apply inner_ok; exact Hf|]; split; assumption].
  induction H as [e Hs|e k v Hin|e t n c p s Hn Hh IH].
  - destruct e as [tag attrs text tail children]. cbn [x_text x_attrs x_children place] in *. rewrite inner_eq by exact Hf. unfold node_value. rewrite (strip_cases o _ _ _ _ Hm).
    destruct (strip text) as [|c0 t0] eqn:Es; [congruence|]. exists (literal o (c0 :: t0)).
    assert (G : forall d, dget (set_key (text_key o) (eval_text o (c0 :: t0)) (VDict d)) [Key (text_key o)] = Some (VLeaf (literal o (c0 :: t0)))).
    { intro d. cbn [set_key dget]. rewrite lookup_put, eqb_str_refl. reflexivity. }
    split; [|split; [left; reflexivity|reflexivity]].
    destruct attrs as [|a attrs], children as [|c l].
    + reflexivity.
    + apply G.
    + destruct (fold_set o [] (a :: attrs) []) as [d' [-> _]]. apply G.
    + destruct (fold_set o (attr_pre o) (a :: attrs) (map (fun p => (fst p, one_or_list o (snd p))) (group (map (fun c1 => (x_tag c1, inner o c1)) (c :: l))))) as [d' [-> _]]. apply G.
  - destruct e as [tag attrs text tail children]. cbn [x_text x_attrs x_children place] in *. rewrite inner_eq by exact Hf. unfold node_value. rewrite (strip_cases o _ _ _ _ Hm).
    exists (literal o v). split; [|split; [left; reflexivity|reflexivity]].
    assert (Hin' : In k (map fst attrs)) by (apply in_map_iff; exists (k, v); split; [reflexivity|exact Hin]).
    destruct attrs as [|a attrs]; [destruct Hin|].
    assert (G : forall key d (t : pystr), key <> text_key o -> lookup key d = Some (eval_text o v) ->
       dget (match t with [] => VDict d | t => match a :: attrs, children with [], [] => eval_text o t | _, _ => set_key (text_key o) (eval_text o t) (VDict d) end end) [Key key] = Some (VLeaf (literal o v))).
    { intros key d t Hk Hl. destruct t as [|c0 t0]; [cbn [dget]; rewrite Hl; reflexivity|]. cbn [set_key dget]. rewrite lookup_put. destruct (eqb_str key (text_key o)) eqn:E; [apply eqb_str_spec in E; congruence|]. rewrite Hl. reflexivity. }
    inversion Ht as [? ? ? ? Hnd Hno|? ? ? ? ? Hnd Hne Hk Hno Hch]; subst.
    + destruct (fold_set o [] (a :: attrs) []) as [d' [Ed [_ H2]]]. rewrite Ed. assert (G' := G k d' (strip text) ltac:(intro E; subst; contradiction) (H2 k v Hnd Hin)). destruct (strip text); exact G'.
    + destruct children as [|c l]; [congruence|].
      destruct (fold_set o (attr_pre o) (a :: attrs) (map (fun p => (fst p, one_or_list o (snd p))) (group (map (fun c1 => (x_tag c1, inner o c1)) (c :: l))))) as [d' [Ed [_ H2]]]. rewrite Ed.
      assert (G' := G (attr_pre o ++ k) d' (strip text) (proj2 (Hk k Hin')) (H2 k v Hnd Hin)). destruct (strip text); exact G'.
  - destruct e as [tag attrs text tail children]. cbn [x_text x_attrs x_children place] in *. rewrite Hn.
    assert (Hc : In c children /\ x_tag c = t). { apply nth_error_In in Hn. unfold tagged in Hn. apply filter_In in Hn. destruct Hn as [H1 H2]. apply eqb_str_spec in H2. auto. }
    destruct Hc as [Hc1 Hc2].
    inversion Ht as [|? ? ? ? ? Hnd Hne Hk Hno Hch]; subst tag0 attrs0 text0 tail0; [subst; destruct Hc1|]. subst children0.
    assert (Tc : tidy o c) by (rewrite Forall_forall in Hch; apply Hch; exact Hc1). destruct (IH Tc) as [l [D1 [D2 D3]]].
    rewrite inner_eq by exact Hf. unfold node_value. rewrite (strip_cases o _ _ _ _ Hm). destruct children as [|c0 l0]; [congruence|].
    set (cs := c0 :: l0) in *. set (pairs := map (fun c1 => (x_tag c1, inner o c1)) cs).
    destruct (fold_set o (attr_pre o) attrs (map (fun p => (fst p, one_or_list o (snd p))) (group pairs))) as [d' [Ed [H1 _]]]. fold pairs.
    assert (Ht_in : In t (map x_tag cs)) by (subst t; apply in_map; exact Hc1).
    assert (Lt : lookup t d' = Some (one_or_list o (map (inner o) (tagged t cs)))).
    { rewrite H1. - rewrite lookup_map_snd, lookup_group. unfold pairs. rewrite values_tagged. destruct (tagged t cs) as [|x xs] eqn:Et; [destruct n; discriminate|reflexivity].
      - intro K. apply in_map_iff in K. destruct K as [[k' v'] [E Hin]]. cbn [fst] in E. destruct (Hk k') as [A _]; [apply in_map_iff; exists (k', v'); split; [reflexivity|exact Hin]|]. apply A. rewrite E. exact Ht_in. }
    set (key_path := match tagged t cs with [_] => place o c p | _ => Idx n :: place o c p end).
    assert (G : exists l', dget (one_or_list o (map (inner o) (tagged t cs))) key_path = Some (VLeaf l') /\ literal_of o s l').
    { unfold key_path. destruct (tagged t cs) as [|x [|y xs]] eqn:Et; [destruct n; discriminate| |].
      - destruct n as [|n]; [|destruct n; discriminate]. injection Hn as ->. cbn [map one_or_list]. destruct (place o c p) as [|q qs] eqn:Ep.
        + cbn [dget] in *. injection D1 as D1. rewrite D1. specialize (D3 eq_refl). subst l. cbn [eval]. destruct (literal o s) as [s'|m] eqn:El; cbn [eval].
          * exists (literal o s'). split; [reflexivity|]. right. exists s'. auto.
          * exists (LOther m). split; [reflexivity|]. left. auto.
        + exists l. split; [|exact D2]. apply dget_eval; [discriminate|exact D1].
      - exists l. split; [|exact D2]. cbn [one_or_list dget]. change (one_or_list o (map (inner o) (x :: y :: xs))) with (VList (map (inner o) (x :: y :: xs))). cbn [dget]. rewrite nth_error_map, Hn. cbn [option_map]. exact D1. }
    destruct G as [l' [G1 G2]]. exists l'. split; [|split; [exact G2|discriminate]].
    assert (Q : forall d2, lookup t d2 = Some (one_or_list o (map (inner o) (tagged t cs))) -> dget (VDict d2) (Key t :: key_path) = Some (VLeaf l')) by (intros d2 Hd; cbn [dget]; rewrite Hd; exact G1).
    unfold cs in Ed |- *. rewrite Ed. destruct (strip text) as [|z zs]; [apply Q; exact Lt|].
    assert (Q2 : dget (set_key (text_key o) (eval_text o (z :: zs)) (VDict d')) (Key t :: key_path) = Some (VLeaf l')).
    { cbn [set_key]. apply Q. rewrite lookup_put. destruct (eqb_str t (text_key o)) eqn:E; [apply eqb_str_spec in E; exfalso; apply Hno; rewrite <- E; exact Ht_in|exact Lt]. }
    destruct attrs; exact Q2.
Qed.

(** Without a loss of texts that look like literals twice over *)
Theorem C42_once : forall o e p s, flatten o = [] -> text_mode o = First -> tidy o e -> holds e p s ->
  (forall s', literal o s = LText s' -> literal o s' = LText s') ->
  exists v, dictionarize o e = Ok (VDict [(x_tag e, v)]) /\ dget v (place o e p) = Some (VLeaf (literal o s)).
Proof.
  intros o e p s Hf Hm Ht H Hl. destruct (C42_dictionary o e p s Hf Hm Ht H) as [v [l [E1 [E2 [->|[s' [E3 ->]]]]]]]; exists v; split; auto.
  rewrite E2, E3, (Hl s' E3). reflexivity.
Qed.
(** Texts between children *)
Theorem C42_between : forall o tag text tail children its, children <> [] -> existsb (eqb_str tag) (flatten o) = false ->
  mapM (entries_of o) children = Ok its -> strip text <> [] -> (exists c, In c children /\ strip (x_tail c) <> []) ->
  exists d, dictionarize o (Elem tag [] text tail children) = Ok (VDict [(tag, VDict d)]) /\
    let pieces := strip text :: map (fun c => strip (x_tail c)) children in
    match text_mode o with
    | Cat => lookup (str "#interchild_text") d = Some (VLeaf (LText (List.concat pieces)))
    | Lst => lookup (str "#interchild_text") d = Some (VList (map (fun s => VLeaf (LText s)) pieces))
    | First => lookup (text_key o) d = Some (VLeaf (literal o (strip text)))
    | Skip => forall t, lookup t d <> None -> In t (map fst (List.concat its))
    end.
Proof.
  intros o tag text tail children its Hne Hf Hi Ht [c [Hc1 Hc2]]. rewrite dictionarize_eq, Hi. cbn [bind]. rewrite Hf. unfold node_value. cbn [fold_left].
  assert (Ex : existsb (fun s => negb (eqb_str s [])) (map (fun c => strip (x_tail c)) children) = true).
  { apply existsb_exists. exists (strip (x_tail c)). split; [apply (in_map (fun c => strip (x_tail c))); exact Hc1|]. destruct (eqb_str (strip (x_tail c)) []) eqn:E; [apply eqb_str_spec in E; congruence|reflexivity]. }
  unfold add_text. destruct (strip text) as [|z zs] eqn:Es; [congruence|]. destruct children as [|c0 l0]; [congruence|]. rewrite Ex.
  destruct (text_mode o); cbn [set_key]; eexists; (split; [reflexivity|]); cbn zeta; try (rewrite lookup_put, eqb_str_refl; reflexivity).
  intros t H. rewrite lookup_map_snd, lookup_group in H. destruct (values t (List.concat its)) as [|v vs] eqn:Ev; [cbn in H; congruence|].
  unfold values in Ev. destruct (filter (fun p => eqb_str t (fst p)) (List.concat its)) as [|q qs] eqn:Eq; [discriminate|].
  assert (Q : In q (q :: qs)) by (left; reflexivity). rewrite <- Eq in Q. apply filter_In in Q. destruct Q as [Q1 Q2]. apply eqb_str_spec in Q2. subst t. apply in_map. exact Q1.
Qed.

(** * Refutations *)
(** A small part of literal_eval: single digits, and quoted texts without escapes *)
Definition small_literal (s : pystr) : leaf :=
  match s with
  | [c] => if is_digit c then LOther (c - 48) else LText s
  | 39 :: r => match rev r with 39 :: q => LText (rev q) | _ => LText s end
  | _ => LText s
  end.
Definition defaults : options := {| literal := small_literal; attr_pre := str "@"; text_key := str "#value"; flatten := []; text_mode := First |}.
(** A quoted number is a text when its element is repeated, but a number when it is not. *)
Theorem C42_twice_refuted :
  let b := el "b" "'5'" [] in
  dictionarize defaults (el "a" "" [b; b]) = Ok (VDict [(str "a", VDict [(str "b", VList [VLeaf (LText (str "5")); VLeaf (LText (str "5"))])])]) /\
  dictionarize defaults (el "a" "" [b]) = Ok (VDict [(str "a", VDict [(str "b", VLeaf (LOther 5))])]).
Proof. split; vm_compute; reflexivity. Qed.
(** With an empty prefix, as the TriVista reader has it, an attribute replaces a child. *)
Theorem C42_prefix_refuted :
  dictionarize {| literal := small_literal; attr_pre := []; text_key := str "#value"; flatten := []; text_mode := First |}
    (Elem (str "a") [(str "b", str "x")] [] [] [el "b" "y" []]) = Ok (VDict [(str "a", VDict [(str "b", VLeaf (LText (str "x")))])]).
Proof. vm_compute; reflexivity. Qed.
(** An empty element that is to be flattened, or one with text only, stops the conversion. *)
Theorem C42_flatten_refuted : forall text,
  dictionarize {| literal := small_literal; attr_pre := str "XmlClass"; text_key := str "#value"; flatten := [str "ClassInstance"]; text_mode := First |}
    (el "a" "" [Elem (str "ClassInstance") [] text [] []]) = Err AttributeError.
Proof.
  intro text. cbn [el dictionarize]. unfold add_text. cbn. destruct (strip text) as [|z zs] eqn:E; unfold rstrip; cbn; rewrite ?E; reflexivity.
Qed.
(** Text between children is lost without text before the first one. *)
Theorem C42_between_refuted :
  dictionarize {| literal := small_literal; attr_pre := str "@"; text_key := str "#value"; flatten := []; text_mode := Cat |}
    (el "a" "" [Elem (str "b") [] (str "1") (str "lost") []]) = Ok (VDict [(str "a", VDict [(str "b", VLeaf (LOther 1))])]).
Proof. vm_compute; reflexivity. Qed.

(** * Examples *)
Definition tree_ex : xml :=
  Elem (str "a") [(str "k", str "v")] (str " 7 ") [] [el "b" "1" []; Elem (str "c") [(str "k", str "w")] (str "text") [] []; el "b" "2" []].
Example C42_dictionary_example : tidy defaults tree_ex /\ holds tree_ex [Child (str "b") 1; Text] (str "2") /\
  place defaults tree_ex [Child (str "b") 1; Text] = [Key (str "b"); Idx 1] /\
  dictionarize defaults tree_ex = Ok (VDict [(str "a", VDict [(str "b", VList [VLeaf (LOther 1); VLeaf (LOther 2)]);
     (str "c", VDict [(str "k", VLeaf (LText (str "w"))); (str "#value", VLeaf (LText (str "text")))]); (str "@k", VLeaf (LText (str "v"))); (str "#value", VLeaf (LOther 7))])]).
Proof.
  split; [|split; [|split; vm_compute; reflexivity]].
  - apply tidy_node; [repeat constructor; intros []|discriminate| | |].
    + intros k [<-|[]]. split; [cbn; intuition discriminate|discriminate].
    + cbn. intuition discriminate.
    + repeat constructor; cbn; intuition discriminate.
  - apply (holds_child _ _ _ (el "b" "2" [])); [reflexivity|]. apply (holds_text (el "b" "2" [])). discriminate.
Qed.
Example C42_between_example : exists its, mapM (entries_of defaults) [Elem (str "b") [] (str "1") (str "y") []] = Ok its.
Proof. eexists. vm_compute. reflexivity. Qed.

Print Assumptions C42_children.
Print Assumptions C42_flatten.
Print Assumptions C42_dictionary.
Print Assumptions C42_once.
Print Assumptions C42_between.
Print Assumptions C42_twice_refuted.
Print Assumptions C42_prefix_refuted.
Print Assumptions C42_flatten_refuted.
Print Assumptions C42_between_refuted.
