(** Metadata in Nexus files: writing and reading back. *)
From Coq Require Import QArith.
From Verif Require Import Base Text HierModel DistModel RplModel SfsModel HierProps HierProof Dict LogText NxModel.
Local Open Scope Z_scope.

Definition k_attrs : pystr := str "attrs".
Definition k_value : pystr := str "value".
(** * Values which come back as they were *)
Definition leaf (m : meta) : Prop :=
  match m with
  | MText s => clean s = s
  | MNum _ => True
  | MTexts l => (2 <= List.length l)%nat
  | MArr _ l => (2 <= List.length l)%nat
  | _ => False
  end.
Definition no_nxdata (t : dict) : Prop := lookup (str "NX_class") t <> Some (MText (str "NXdata")).
(** notes on a value or a group: not empty *)
Definition notes (t : dict) : Prop := t <> [] /\ NoDup (map fst t) /\ no_nxdata t /\ forall k v, In (k, v) t -> leaf v.
Definition key_ok (k : pystr) : Prop := k <> k_attrs /\ ~ exists r, k = str "keys" ++ r.
Definition is_dict (m : meta) : Prop := exists d, m = MDict d.
Inductive plain : meta -> Prop :=
| plain_leaf : forall m, leaf m -> plain m
| plain_noted : forall v t, leaf v -> notes t -> plain (MDict [(k_value, v); (k_attrs, MDict t)])
| plain_dict : forall att d,
    (att = [] \/ exists t, att = [(k_attrs, MDict t)] /\ notes t /\ forall k v, In (k, v) t -> key_ok k) ->
    NoDup (map fst d) -> (forall k v, In (k, v) d -> key_ok k) -> (forall k v, In (k, v) d -> plain v) ->
    (forall v, d = [(k_value, v)] -> is_dict v) -> plain (MDict (att ++ d)).

(** * What should come back: without the keys to skip, and without the arrays if they are not wanted *)
Definition big (m : meta) : bool := match m with MTexts _ | MArr _ _ => true | _ => false end.
Definition noted_shape (d : dict) : bool := match d with [(k1, _); (k2, _)] => eqb_str k1 k_value && eqb_str k2 k_attrs | _ => false end.
Fixpoint kept (skip : list pystr) (light : bool) (m : meta) : option meta :=
  match m with
  | MDict d =>
      if noted_shape d then Some (MDict (filter (fun kv => negb (light && big (snd kv))) d))
      else Some (MDict ((fix go (d : dict) : dict :=
             match d with
             | [] => []
             | (k, v) :: d =>
                 if eqb_str k k_attrs then (k, v) :: go d
                 else if in_list k skip then go d
                 else match kept skip light v with Some x => (k, x) :: go d | None => go d end
             end) d))
  | _ => if light && big m then None else Some m
  end.
Fixpoint kept_dict (skip : list pystr) (light : bool) (d : dict) : dict :=
  match d with
  | [] => []
  | (k, v) :: d =>
      if eqb_str k k_attrs then (k, v) :: kept_dict skip light d
      else if in_list k skip then kept_dict skip light d
      else match kept skip light v with Some x => (k, x) :: kept_dict skip light d | None => kept_dict skip light d end
  end.

(** * What is in the file *)
Definition cont (m : meta) : content :=
  match m with MText s => CText true s | MTexts l => CTexts true l | MNum q => CNum q | MArr sh l => CArr sh l | _ => CNum 0 end.
Definition conts (t : dict) : attributes := map (fun kv => (fst kv, cont (snd kv))) t.
Definition attrs_part (d : dict) : attributes := match d with (k, MDict t) :: _ => if eqb_str k k_attrs then conts t else [] | _ => [] end.
Fixpoint shape_node (full : bool) (skip : list pystr) (m : meta) : node :=
  match m with
  | MDict d =>
      if noted_shape d then match d with [(_, v); (_, MDict t)] => Data (if full then conts t else []) (cont v) | _ => Data [] (CNum 0) end
      else Group (if full then attrs_part d else [])
             ((fix go (d : dict) : members :=
                 match d with
                 | [] => []
                 | (k, v) :: d => if eqb_str k k_attrs || in_list k skip then go d else (k, (None, shape_node full skip v)) :: go d
                 end) d)
  | _ => Data [] (cont m)
  end.
Fixpoint shape_items (full : bool) (skip : list pystr) (d : dict) : members :=
  match d with
  | [] => []
  | (k, v) :: d => if eqb_str k k_attrs || in_list k skip then shape_items full skip d else (k, (None, shape_node full skip v)) :: shape_items full skip d
  end.
Lemma kept_eq : forall skip light d, noted_shape d = false -> kept skip light (MDict d) = Some (MDict (kept_dict skip light d)).
Proof.
  intros skip light d H. cbn [kept]. rewrite H. do 2 f_equal. clear H. induction d as [|[k v] d IH]; [reflexivity|]. cbn [kept_dict]. rewrite IH. reflexivity.
Qed.
Lemma shape_eq : forall full skip d, noted_shape d = false -> shape_node full skip (MDict d) = Group (if full then attrs_part d else []) (shape_items full skip d).
Proof.
  intros full skip d H. cbn [shape_node]. rewrite H. f_equal. clear H. induction d as [|[k v] d IH]; [reflexivity|]. cbn [shape_items]. rewrite IH. reflexivity.
Qed.
Lemma key_ne : forall k, key_ok k -> eqb_str k k_attrs = false.
Proof. intros k [H _]. apply eqb_str_neq. exact H. Qed.
Lemma key_fix : forall k, key_ok k -> fix_key k = k.
Proof.
  intros k [_ H]. unfold fix_key. destruct (startswith (str "keys") k) eqn:E; [|reflexivity]. apply starts_spec in E. destruct H. exact E.
Qed.
Lemma put_new : forall A k (v : A) l, lookup k l = None -> put k v l = l ++ [(k, v)].
Proof.
  induction l as [|[k' w] l IH]; intros H; [reflexivity|]. cbn [lookup] in H. cbn [put app]. destruct (eqb_str k k'); [discriminate|]. rewrite IH by exact H. reflexivity.
Qed.
Lemma lookup_notin : forall A k (l : list (pystr * A)), ~ In k (map fst l) -> lookup k l = None.
Proof.
  intros A k l H. destruct (lookup k l) as [v|] eqn:E; [|reflexivity]. apply lookup_some_in in E. destruct H. apply (in_map fst) in E. exact E.
Qed.
Lemma put_mid : forall A k (v w : A) a b, lookup k a = None -> put k v (a ++ (k, w) :: b) = a ++ (k, v) :: b.
Proof.
  induction a as [|[k' x] a IH]; intros b H; cbn [app put].
  - rewrite eqb_str_refl. reflexivity.
  - cbn [lookup] in H. destruct (eqb_str k k'); [discriminate|]. rewrite IH by exact H. reflexivity.
Qed.
Lemma noted_att : forall att d, (att = [] \/ exists t, att = [(k_attrs, MDict t)]) -> (forall k v, In (k, v) d -> key_ok k) -> noted_shape (att ++ d) = false.
Proof.
  intros att d [->|(t & ->)] H; cbn [app].
  - destruct d as [|[k v] [|[k' v'] [|]]]; try reflexivity. cbn [noted_shape]. rewrite (key_ne k') by (eapply H; right; left; reflexivity). apply andb_false_r.
  - destruct d as [|[k v] [|]]; reflexivity.
Qed.
Lemma not_skipped : forall d, plain (MDict d) -> skipped d = false.
Proof.
  intros d H. inversion H as [m L|v t L N E|att d' A ND K P V E]; subst; [destruct L| |].
  - unfold skipped. assert (X : lookup (str "attrs") [(k_value, v); (k_attrs, MDict t)] = Some (MDict t)) by reflexivity. rewrite X.
    destruct N as (_ & _ & N & _). unfold no_nxdata in N. destruct (lookup (str "NX_class") t) as [m|]; [|reflexivity]. destruct m; try reflexivity.
    cbn [is_text]. apply eqb_str_neq. intros ->. apply N. reflexivity.
  - unfold skipped. destruct A as [->|(t & -> & N & _)]; cbn [app].
    + rewrite lookup_notin; [reflexivity|]. intros I. apply in_map_iff in I. destruct I as ([k v] & Ek & I). cbn in Ek. subst k. destruct (K _ _ I) as [X _]. apply X. reflexivity.
    + assert (X : lookup (str "attrs") ((k_attrs, MDict t) :: d') = Some (MDict t)) by reflexivity. rewrite X.
      destruct N as (_ & _ & N & _). unfold no_nxdata in N. destruct (lookup (str "NX_class") t) as [m|]; [|reflexivity]. destruct m; try reflexivity.
      cbn [is_text]. apply eqb_str_neq. intros ->. apply N. reflexivity.
Qed.

(** * Writing *)
Lemma write_leaf_ok : forall m k items, leaf m -> lookup k items = None -> write_leaf k m items = Ok (items ++ [(k, (None, Data [] (cont m)))]).
Proof.
  intros m k items L H. unfold write_leaf, create, put_node. destruct m; try contradiction L; rewrite ?H; cbn [cont]; rewrite ?put_new by exact H; try reflexivity;
    (destruct l; [cbn in L; lia|]); reflexivity.
Qed.
Lemma write_dict_eq : forall skip d items,
  (fix go (d : list (pystr * meta)) (items : members) : res members :=
      match d with [] => Ok items | (k, v) :: d => let! items := write_entry skip k v items in go d items end) d items = write_groups skip d items.
Proof. intros skip. induction d as [|[k v] d IH]; intros items; [reflexivity|]. cbn [write_groups]. destruct (write_entry skip k v items); [apply IH|reflexivity]. Qed.
Lemma write_entry_leaf : forall skip k m items, leaf m -> write_entry skip k m items = if eqb_str k (str "attrs") || in_list k skip then Ok items else write_leaf k m items.
Proof. intros skip k m items L. destruct m; try contradiction L; reflexivity. Qed.
Lemma write_entry_dict : forall skip k d items,
  write_entry skip k (MDict d) items =
  if eqb_str k (str "attrs") || in_list k skip then Ok items
  else if skipped d then Ok items
  else match as_value d with
       | Some (MDicts _) => Err NotImplementedError
       | Some x => write_leaf k x items
       | None => let! g := require_group k items in
                 let! new := write_groups skip d (snd g) in
                 Ok (put_node k (Group (fst g) new) items)
       end.
Proof.
  intros skip k d items. cbn [write_entry]. destruct (eqb_str k (str "attrs") || in_list k skip); [reflexivity|]. destruct (skipped d); [reflexivity|].
  destruct (as_value d); [reflexivity|]. destruct (require_group k items) as [g|]; [|reflexivity]. cbn [bind]. rewrite write_dict_eq. reflexivity.
Qed.
Lemma as_value_none : forall att d, (att = [] \/ exists t, att = [(k_attrs, MDict t)]) -> NoDup (map fst d) -> (forall k v, In (k, v) d -> key_ok k) ->
  (forall v, d = [(k_value, v)] -> is_dict v) -> as_value (att ++ d) = None.
Proof.
  intros att d A ND K V. assert (L : lookup (str "value") (att ++ d) = lookup (str "value") d) by (destruct A as [->|(t & ->)]; reflexivity).
  assert (F : forallb (fun kv => in_list (fst kv) [str "attrs"; str "value"]) (att ++ d) = forallb (fun kv => in_list (fst kv) [str "attrs"; str "value"]) d)
    by (destruct A as [->|(t & ->)]; reflexivity).
  unfold as_value. rewrite L, F. destruct (lookup (str "value") d) as [m|] eqn:E; [|reflexivity].
  assert (X : forallb (fun kv => in_list (fst kv) [str "attrs"; str "value"]) d = true -> d = [(k_value, m)]).
  { intros G. rewrite forallb_forall in G. assert (S : forall k v, In (k, v) d -> k = k_value).
    { intros k v I. specialize (G _ I). unfold in_list in G. cbn [fst existsb] in G. rewrite orb_false_r in G. apply orb_true_iff in G. destruct G as [G|G]; apply eqb_str_spec in G; [|exact G].
      destruct (K _ _ I) as [N _]. destruct N. exact G. }
    destruct d as [|[k v] d]; [discriminate|]. assert (Ek : k = k_value) by (eapply S; left; reflexivity). subst k. cbn [lookup] in E. change (eqb_str (str "value") k_value) with true in E. injection E as ->.
    destruct d as [|[k' v'] d]; [reflexivity|]. assert (Ek : k' = k_value) by (eapply S; right; left; reflexivity). subst k'. inversion ND as [|? ? N _]; subst. destruct N. left. reflexivity. }
  destruct m; try reflexivity; (match goal with |- (if ?b then _ else _) = _ => destruct b; [|reflexivity] end); destruct (V _ (X eq_refl)) as [e Y]; discriminate.
Qed.
Lemma shape_keys : forall full skip d k, In k (map fst (shape_items full skip d)) -> In k (map fst d) /\ k <> k_attrs /\ in_list k skip = false.
Proof.
  induction d as [|[k v] d IH]; intros k' H; [destruct H|]. cbn [shape_items] in H. destruct (eqb_str k k_attrs || in_list k skip) eqn:E.
  - destruct (IH _ H) as (A & B & C). repeat split; [right|..]; assumption.
  - cbn [map fst] in H. apply orb_false_iff in E. destruct E as [E1 E2]. destruct H as [<-|H].
    + repeat split; [left; reflexivity|apply eqb_str_neq; exact E1|exact E2].
    + destruct (IH _ H) as (A & B & C). repeat split; [right|..]; assumption.
Qed.
Lemma write_items : forall skip d items,
  (forall k v, In (k, v) d -> forall items, eqb_str k k_attrs || in_list k skip = false -> lookup k items = None -> write_entry skip k v items = Ok (items ++ [(k, (None, shape_node false skip v))])) ->
  NoDup (map fst d) -> (forall k, In k (map fst d) -> k <> k_attrs -> in_list k skip = false -> lookup k items = None) ->
  write_groups skip d items = Ok (items ++ shape_items false skip d).
Proof.
  intros skip. induction d as [|[k v] d IH]; intros items W ND F; [cbn [write_groups shape_items]; rewrite app_nil_r; reflexivity|].
  inversion ND as [|? ? N1 N2]; subst. cbn [write_groups shape_items]. destruct (eqb_str k k_attrs || in_list k skip) eqn:E.
  - assert (X : write_entry skip k v items = Ok items).
    { destruct v; cbn [write_entry]; change (str "attrs") with k_attrs; rewrite E; reflexivity. }
    rewrite X. cbn [bind]. apply IH; [intros; apply W; [right; assumption|assumption..]|exact N2|intros; apply F; [right; assumption|assumption..]].
  - pose proof E as E'. apply orb_false_iff in E'. destruct E' as [E1 E2]. rewrite (W k v (or_introl eq_refl) items E) by (apply F; [left; reflexivity|apply eqb_str_neq; exact E1|exact E2]).
    cbn [bind]. rewrite IH; [rewrite <- app_assoc; reflexivity|intros; apply W; [right; assumption|assumption..]|exact N2|].
    intros k' I N S. rewrite lookup_app. rewrite (F k') by (try (right; assumption); assumption). cbn [lookup]. rewrite (proj2 (eqb_str_neq k' k)); [reflexivity|].
    intros ->. exact (N1 I).
Qed.
Lemma write_plain : forall skip m, plain m -> forall k items, eqb_str k k_attrs || in_list k skip = false -> lookup k items = None ->
  write_entry skip k m items = Ok (items ++ [(k, (None, shape_node false skip m))]).
Proof.
  intros skip m P. induction P as [m L|v t L N|att d A ND K P IH V]; intros k items E H.
  - rewrite write_entry_leaf by exact L. change (str "attrs") with k_attrs. rewrite E, write_leaf_ok by assumption. destruct m; try contradiction L; reflexivity.
  - rewrite write_entry_dict. change (str "attrs") with k_attrs. rewrite E, not_skipped by (constructor; assumption).
    assert (X : as_value [(k_value, v); (k_attrs, MDict t)] = Some v) by (destruct v; try contradiction L; reflexivity). rewrite X.
    assert (Y : shape_node false skip (MDict [(k_value, v); (k_attrs, MDict t)]) = Data [] (cont v)) by reflexivity. rewrite Y.
    destruct v; try contradiction L; apply write_leaf_ok; assumption.
  - assert (A' : att = [] \/ exists t, att = [(k_attrs, MDict t)]) by (destruct A as [A|(t & A & _)]; eauto).
    rewrite write_entry_dict. change (str "attrs") with k_attrs. rewrite E, not_skipped by (constructor; assumption). rewrite as_value_none by assumption.
    unfold require_group. rewrite H. cbn [bind fst snd]. rewrite shape_eq by (apply noted_att; assumption).
    rewrite write_items; [cbn [bind app]; unfold put_node; rewrite put_new by exact H; reflexivity| | |reflexivity].
    + intros k' v' I items' E' H'. apply in_app_iff in I. destruct I as [I|I]; [|apply (IH _ _ I); assumption].
      destruct A' as [->|(t & ->)]; [destruct I|]. destruct I as [I|[]]. injection I as <- <-. rewrite eqb_str_refl in E'. discriminate.
    + destruct A' as [->|(t & ->)]; [exact ND|]. cbn [app map fst]. constructor; [|exact ND]. intros I. apply in_map_iff in I. destruct I as ([k' v'] & Ek & I). cbn in Ek. subst k'.
      destruct (K _ _ I) as [X _]. apply X. reflexivity.
Qed.

(** * Notes *)
Lemma attr_values : forall t a, (forall k v, In (k, v) t -> leaf v) -> NoDup (map fst t) -> (forall k, In k (map fst t) -> lookup k a = None) -> write_attr_values t a = Ok (a ++ conts t).
Proof.
  induction t as [|[k v] t IH]; intros a L ND F; [cbn [write_attr_values conts map]; rewrite app_nil_r; reflexivity|]. inversion ND as [|? ? N1 N2]; subst. cbn [write_attr_values].
  assert (X : to_file v = Ok (cont v)) by (assert (Y : leaf v) by (eapply L; left; reflexivity); destruct v; try contradiction Y; reflexivity). rewrite X. cbn [bind].
  rewrite put_new by (apply F; left; reflexivity). rewrite IH; [rewrite <- app_assoc; reflexivity|intros; eapply L; right; eassumption|exact N2|].
  intros k' I. rewrite lookup_app, F by (right; exact I). cbn [lookup]. rewrite (proj2 (eqb_str_neq k' k)); [reflexivity|]. intros ->. exact (N1 I).
Qed.
Lemma write_attrs_cons : forall skip k v d n,
  write_attrs skip (MDict ((k, v) :: d)) n =
  (let! n :=
     if eqb_str k (str "attrs") then
       let! v := dict_of v in
       let! a := write_attr_values v (attrs_of n) in
       Ok (match n with Group _ items => Group a items | Data _ c => Data a c end)
     else
       match v with
       | MDict e =>
           if skipped e || in_list k skip then Ok n
           else match n with
                | Group a items =>
                    match lookup k items with
                    | None => Err KeyError
                    | Some (link, sub) => let! sub := write_attrs skip v sub in Ok (Group a (put k (link, sub) items))
                    end
                | Data _ _ => Err ValueError
                end
       | _ => Ok n
       end in
   write_attrs skip (MDict d) n).
Proof. intros. reflexivity. Qed.
Lemma shape_leaf : forall f g skip m, leaf m -> shape_node f skip m = shape_node g skip m.
Proof. intros f g skip m L. destruct m; try contradiction L; reflexivity. Qed.
Lemma attrs_items : forall skip d a before,
  (forall k v, In (k, v) d -> k <> k_attrs) -> (forall k v, In (k, v) d -> plain v) ->
  (forall k v, In (k, v) d -> write_attrs skip v (shape_node false skip v) = Ok (shape_node true skip v)) ->
  NoDup (map fst d) -> (forall k, In k (map fst d) -> lookup k before = None) ->
  write_attrs skip (MDict d) (Group a (before ++ shape_items false skip d)) = Ok (Group a (before ++ shape_items true skip d)).
Proof.
  intros skip. induction d as [|[k v] d IH]; intros a before K P W ND F; [reflexivity|]. inversion ND as [|? ? N1 N2]; subst.
  assert (E : eqb_str k k_attrs = false) by (apply eqb_str_neq; eapply K; left; reflexivity).
  rewrite write_attrs_cons. change (str "attrs") with k_attrs. rewrite E. cbn [shape_items]. rewrite E. cbn [orb].
  assert (Rest : forall before, (forall k', In k' (map fst d) -> lookup k' before = None) -> write_attrs skip (MDict d) (Group a (before ++ shape_items false skip d)) = Ok (Group a (before ++ shape_items true skip d))).
  { intros b Fb. apply IH; [intros; eapply K; right; eassumption|intros; eapply P; right; eassumption|intros; eapply W; right; eassumption|exact N2|exact Fb]. }
  assert (Step : forall x, before ++ (k, x) :: shape_items false skip d = (before ++ [(k, x)]) ++ shape_items false skip d) by (intros x; rewrite <- app_assoc; reflexivity).
  assert (Step' : forall x, before ++ (k, x) :: shape_items true skip d = (before ++ [(k, x)]) ++ shape_items true skip d) by (intros x; rewrite <- app_assoc; reflexivity).
  assert (Fresh : forall x k', In k' (map fst d) -> lookup k' (before ++ [(k, x)]) = None).
  { intros x k' I. rewrite lookup_app, F by (right; exact I). cbn [lookup]. rewrite (proj2 (eqb_str_neq k' k)); [reflexivity|]. intros ->. exact (N1 I). }
  pose proof (P k v (or_introl eq_refl)) as Pv.
  destruct (in_list k skip) eqn:S.
  - assert (X : match v with
                | MDict e =>
                    if skipped e || true then Ok (Group a (before ++ shape_items false skip d))
                    else match lookup k (before ++ shape_items false skip d) with
                         | Some (link, sub) => let! sub := write_attrs skip v sub in Ok (Group a (put k (link, sub) (before ++ shape_items false skip d)))
                         | None => Err KeyError
                         end
                | _ => Ok (Group a (before ++ shape_items false skip d))
                end = Ok (Group a (before ++ shape_items false skip d))) by (destruct v; try reflexivity; rewrite orb_true_r; reflexivity).
    rewrite X. cbn [bind]. apply Rest. intros k' I. apply F. right. exact I.
  - assert (Look : lookup k (before ++ (k, (None, shape_node false skip v)) :: shape_items false skip d) = Some (None, shape_node false skip v)).
    { rewrite lookup_app, F by (left; reflexivity). cbn [lookup]. rewrite eqb_str_refl. reflexivity. }
    destruct v as [|s|l|q|sh l|l|e];
      try (cbn [bind]; rewrite (shape_leaf true false) by (inversion Pv; assumption); rewrite Step, Step'; apply Rest, Fresh).
    rewrite (not_skipped _ Pv). cbn [orb]. rewrite Look. rewrite (W k _ (or_introl eq_refl)). cbn [bind].
    rewrite put_mid by (apply F; left; reflexivity). rewrite Step, Step'. apply Rest, Fresh.
Qed.
Lemma attrs_plain : forall skip m, plain m -> write_attrs skip m (shape_node false skip m) = Ok (shape_node true skip m).
Proof.
  intros skip m P. induction P as [m L|v t L N|att d A ND K P IH V].
  - destruct m; try contradiction L; reflexivity.
  - assert (Y : forall f, shape_node f skip (MDict [(k_value, v); (k_attrs, MDict t)]) = Data (if f then conts t else []) (cont v)) by reflexivity. rewrite !Y.
    rewrite write_attrs_cons. change (eqb_str k_value (str "attrs")) with false.
    assert (X : match v with MDict e => if skipped e || in_list k_value skip then Ok (Data [] (cont v)) else Err ValueError | _ => Ok (Data [] (cont v)) end = Ok (Data [] (cont v)))
      by (destruct v; try contradiction L; reflexivity).
    rewrite X. cbn [bind]. rewrite write_attrs_cons. change (eqb_str k_attrs (str "attrs")) with true. cbn [dict_of bind attrs_of].
    destruct N as (N1 & N2 & N3 & N4). rewrite attr_values; [reflexivity|exact N4|exact N2|reflexivity].
  - assert (A' : att = [] \/ exists t, att = [(k_attrs, MDict t)]) by (destruct A as [A|(t & A & _)]; eauto).
    rewrite !shape_eq by (apply noted_att; assumption).
    assert (D : forall a, write_attrs skip (MDict d) (Group a (shape_items false skip d)) = Ok (Group a (shape_items true skip d))).
    { intros a. apply (attrs_items skip d a []); try assumption; [|reflexivity]. intros k v I. apply (K _ _ I). }
    destruct A as [->|(t & -> & (N1 & N2 & N3 & N4) & Kt)]; cbn [app].
    + rewrite D. f_equal. f_equal. destruct d as [|[k v] d]; [reflexivity|]. cbn [attrs_part]. rewrite (key_ne k) by (eapply K; left; reflexivity). destruct v; reflexivity.
    + rewrite write_attrs_cons. change (eqb_str k_attrs (str "attrs")) with true. cbn [dict_of bind attrs_of]. rewrite attr_values; [|exact N4|exact N2|reflexivity].
      cbn [bind app]. replace (shape_items false skip ((k_attrs, MDict t) :: d)) with (shape_items false skip d) by reflexivity. rewrite D. reflexivity.
Qed.

(** * Reading *)
Definition load_item (light : bool) (k : pystr) (item : node) (t : dict) : res dict :=
  match item with
  | Data b c => load_data light (fix_key k) b c t
  | Group b _ => if is_nxdata b then Ok t else let! d := load_tree light item in Ok (put (fix_key k) (MDict d) t)
  end.
Fixpoint load_items (light : bool) (items : members) (t : dict) : res dict :=
  match items with [] => Ok t | (k, (_, n)) :: items => let! t := load_item light k n t in load_items light items t end.
Lemma load_eq : forall light a items, load_tree light (Group a items) = load_items light items (match a with [] => [] | _ => [(str "attrs", MDict (put_attrs true a []))] end).
Proof.
  intros light a items.
  assert (E : forall items t, (fix go (items : members) (t : dict) : res dict :=
         match items with
         | [] => Ok t
         | (key, (_, item)) :: items =>
             let! t :=
               match item with
               | Data b c => load_data light (fix_key key) b c t
               | Group b _ => if is_nxdata b then Ok t else let! d := load_tree light item in Ok (put (fix_key key) (MDict d) t)
               end in
             go items t
         end) items t = load_items light items t).
  { clear. induction items as [|[k [link n]] items IH]; intros t; [reflexivity|]. cbn [load_items]. unfold load_item.
    match goal with |- bind ?x _ = bind ?x _ => destruct x end; [apply IH|reflexivity]. }
  rewrite <- E. reflexivity.
Qed.
Lemma cont_attr : forall v, leaf v -> parse_attr (cont v) = v.
Proof. intros v L. destruct v; try contradiction L; cbn in *; [rewrite L; reflexivity| |reflexivity|]; (destruct l as [|? [|]]; [cbn in L; lia|cbn in L; lia|]); [reflexivity|]. destruct shape as [|[|[| |]|] [|]]; reflexivity. Qed.
Lemma cont_data : forall v, leaf v -> parse_data (cont v) = Ok v.
Proof. intros v L. destruct v; try contradiction L; cbn in *; [rewrite L; reflexivity| |reflexivity|]; (destruct l as [|? [|]]; [cbn in L; lia|cbn in L; lia|]); reflexivity. Qed.
Lemma cont_big : forall v, leaf v -> ((size (cont v) <? 2) && (List.length (shape_of (cont v)) =? 0)%nat) = negb (big v).
Proof. intros v L. destruct v; try contradiction L; cbn [cont size shape_of big]; try reflexivity; unfold zlen; (destruct l as [|? [|]]; [cbn in L; lia|cbn in L; lia|]); destruct (Z.of_nat _ <? 2) eqn:E; try reflexivity; cbn [List.length] in E; lia. Qed.
Lemma put_attrs_ok : forall b t d, (forall k v, In (k, v) t -> leaf v) -> (b = true -> forall k v, In (k, v) t -> key_ok k) -> NoDup (map fst t) -> (forall k, In k (map fst t) -> lookup k d = None) ->
  put_attrs b (conts t) d = d ++ t.
Proof.
  intros b. induction t as [|[k v] t IH]; intros d L K ND F; [cbn [put_attrs conts map]; rewrite app_nil_r; reflexivity|]. inversion ND as [|? ? N1 N2]; subst. cbn [conts map fst snd put_attrs].
  assert (X : (if b then fix_key k else k) = k) by (destruct b; [apply key_fix; eapply K; [reflexivity|left; reflexivity]|reflexivity]). rewrite X.
  rewrite cont_attr by (eapply L; left; reflexivity). rewrite put_new by (apply F; left; reflexivity). change (map (fun kv => (fst kv, cont (snd kv))) t) with (conts t).
  rewrite IH; [rewrite <- app_assoc; reflexivity|intros; eapply L; right; eassumption|intros; eapply K; [assumption|right; eassumption]|exact N2|].
  intros k' I. rewrite lookup_app, F by (right; exact I). cbn [lookup]. rewrite (proj2 (eqb_str_neq k' k)); [reflexivity|]. intros ->. exact (N1 I).
Qed.
Definition entry_of (k : pystr) (o : option meta) : dict := match o with Some x => [(k, x)] | None => [] end.
Lemma load_leaf : forall light skip k v t, leaf v -> key_ok k -> lookup k t = None -> load_data light k [] (cont v) t = Ok (t ++ entry_of k (kept skip light v)).
Proof.
  intros light skip k v t L K F. unfold load_data. rewrite cont_big, cont_data by exact L. cbn [bind].
  assert (X : kept skip light v = if light && big v then None else Some v) by (destruct v; try contradiction L; reflexivity). rewrite X.
  destruct light, (big v); cbn [negb orb andb entry_of]; rewrite ?put_new by exact F; rewrite ?app_nil_r; reflexivity.
Qed.
Lemma load_items_ok : forall light skip d t,
  (forall k v, In (k, v) d -> key_ok k) ->
  (forall k v, In (k, v) d -> forall t, key_ok k -> lookup k t = None -> load_item light k (shape_node true skip v) t = Ok (t ++ entry_of k (kept skip light v))) ->
  NoDup (map fst d) -> (forall k, In k (map fst d) -> lookup k t = None) ->
  load_items light (shape_items true skip d) t = Ok (t ++ kept_dict skip light d).
Proof.
  intros light skip. induction d as [|[k v] d IH]; intros t K W ND F; [cbn [shape_items load_items kept_dict]; rewrite app_nil_r; reflexivity|]. inversion ND as [|? ? N1 N2]; subst.
  assert (Kk : key_ok k) by (eapply K; left; reflexivity). cbn [shape_items kept_dict]. rewrite (key_ne k Kk). cbn [orb]. destruct (in_list k skip).
  - apply IH; [intros; eapply K; right; eassumption|intros; eapply W; [right; eassumption|assumption..]|exact N2|intros; apply F; right; assumption].
  - cbn [load_items]. rewrite (W k v (or_introl eq_refl) t Kk (F k (or_introl eq_refl))). cbn [bind].
    rewrite IH; [destruct (kept skip light v); cbn [entry_of]; rewrite <- app_assoc; reflexivity|intros; eapply K; right; eassumption|intros; eapply W; [right; eassumption|assumption..]|exact N2|].
    intros k' I. rewrite lookup_app, F by (right; exact I). destruct (kept skip light v); cbn [entry_of lookup]; [|reflexivity]. rewrite (proj2 (eqb_str_neq k' k)); [reflexivity|]. intros ->. exact (N1 I).
Qed.
Lemma nx_conts : forall t, no_nxdata t -> (forall k v, In (k, v) t -> leaf v) -> is_nxdata (conts t) = false.
Proof.
  intros t N L. unfold is_nxdata, no_nxdata in *. assert (E : lookup (str "NX_class") (conts t) = match lookup (str "NX_class") t with Some m => Some (cont m) | None => None end).
  { clear. induction t as [|[k v] t IH]; [reflexivity|]. cbn [conts map fst snd lookup]. destruct (eqb_str (str "NX_class") k); [reflexivity|exact IH]. }
  rewrite E. destruct (lookup (str "NX_class") t) as [m|] eqn:F; [|reflexivity]. apply lookup_some_in in F. specialize (L _ _ F). destruct m; try contradiction L; try reflexivity.
  cbn [cont]. apply eqb_str_neq. intros ->. apply N. reflexivity.
Qed.
Lemma load_plain : forall light skip m, plain m -> forall k t, key_ok k -> lookup k t = None -> load_item light k (shape_node true skip m) t = Ok (t ++ entry_of k (kept skip light m)).
Proof.
  intros light skip m P. induction P as [m L|v t0 L N|att d A ND K P IH V]; intros k t Kk F.
  - assert (X : shape_node true skip m = Data [] (cont m)) by (destruct m; try contradiction L; reflexivity). rewrite X. cbn [load_item]. rewrite (key_fix k Kk). apply load_leaf; assumption.
  - assert (Y : shape_node true skip (MDict [(k_value, v); (k_attrs, MDict t0)]) = Data (conts t0) (cont v)) by reflexivity. rewrite Y. cbn [load_item]. rewrite (key_fix k Kk).
    destruct N as (N1 & N2 & N3 & N4). unfold load_data. rewrite cont_big, cont_data by exact L. cbn [bind]. destruct (conts t0) as [|c cs] eqn:E; [destruct t0; [congruence|discriminate]|]. rewrite <- E.
    unfold sub_dict at 1. rewrite F. cbn [bind].
    assert (X : kept skip light (MDict [(k_value, v); (k_attrs, MDict t0)]) = Some (MDict (if negb light || negb (big v) then [(k_value, v); (k_attrs, MDict t0)] else [(k_attrs, MDict t0)]))).
    { cbn [kept noted_shape]. change (eqb_str k_value k_value && eqb_str k_attrs k_attrs) with true. cbn [filter snd big]. rewrite andb_false_r. destruct light, (big v); reflexivity. }
    rewrite X. cbn [entry_of]. destruct (negb light || negb (big v)); cbn [bind].
    + change (put (str "value") v []) with [(k_value, v)]. change (sub_dict (str "attrs") [(k_value, v)]) with (@Ok dict []). cbn [bind]. rewrite put_attrs_ok; [|exact N4|discriminate|exact N2|reflexivity].
      rewrite put_new by exact F. reflexivity.
    + change (sub_dict (str "attrs") []) with (@Ok dict []). cbn [bind]. rewrite put_attrs_ok; [|exact N4|discriminate|exact N2|reflexivity]. rewrite put_new by exact F. reflexivity.
  - assert (A' : att = [] \/ exists t, att = [(k_attrs, MDict t)]) by (destruct A as [A|(u & A & _)]; eauto).
    rewrite shape_eq by (apply noted_att; assumption). rewrite kept_eq by (apply noted_att; assumption). replace (if true then attrs_part (att ++ d) else []) with (attrs_part (att ++ d)) by reflexivity.
    cbn [entry_of load_item]. rewrite (key_fix k Kk), load_eq.
    assert (B : is_nxdata (attrs_part (att ++ d)) = false /\ (match attrs_part (att ++ d) with [] => [] | _ => [(str "attrs", MDict (put_attrs true (attrs_part (att ++ d)) []))] end) = att /\ shape_items true skip (att ++ d) = shape_items true skip d /\ kept_dict skip light (att ++ d) = att ++ kept_dict skip light d).
    { destruct A as [->|(u & -> & (N1 & N2 & N3 & N4) & Ku)]; cbn [app].
      - assert (X : attrs_part d = []) by (destruct d as [|[k' v] d]; [reflexivity|]; cbn [attrs_part]; rewrite (key_ne k') by (eapply K; left; reflexivity); destruct v; reflexivity). rewrite X. auto.
      - change (attrs_part ((k_attrs, MDict u) :: d)) with (conts u). split; [apply nx_conts; assumption|]. rewrite put_attrs_ok; [|exact N4|intros _; exact Ku|exact N2|reflexivity].
        destruct u as [|x u]; [congruence|]. repeat split; reflexivity. }
    destruct B as (B1 & B2 & B3 & B4). rewrite B1. match goal with |- context [load_items _ _ ?x] => replace x with att by (symmetry; exact B2) end. rewrite B3. rewrite load_items_ok; [|exact K| |exact ND|].
    + cbn [bind]. rewrite B4, put_new by exact F. reflexivity.
    + intros k' v' I t' Hk' Hl. apply (IH _ _ I); assumption.
    + intros k' I. destruct A' as [->|(u & ->)]; [reflexivity|]. cbn [lookup]. rewrite (proj2 (eqb_str_neq k' k_attrs)); [reflexivity|].
      apply in_map_iff in I. destruct I as ([k'' v''] & Ek & I). cbn in Ek. subst k''. apply (K _ _ I).
Qed.
Lemma collection_shape : forall skip d, NoDup (map fst d) -> (forall k v, In (k, v) d -> key_ok k) -> (forall k v, In (k, v) d -> plain v) ->
  collection skip d = Ok (Group [(str "NX_class", text_attr "NXcollection")] (shape_items true skip d)).
Proof.
  intros skip d ND K P. unfold collection. rewrite write_items; [|intros; apply write_plain; [eapply P; eassumption|assumption..]|exact ND|reflexivity]. cbn [bind app].
  apply (attrs_items skip d _ []); [intros k v I; apply (K _ _ I)|exact P|intros k v I; apply attrs_plain; exact (P _ _ I)|exact ND|reflexivity].
Qed.
(** What is written comes back, without what is to be left out, and with a note on the group. *)
Theorem C120_round_trip : forall skip light d, NoDup (map fst d) -> (forall k v, In (k, v) d -> key_ok k) -> (forall k v, In (k, v) d -> plain v) ->
  exists n, collection skip d = Ok n /\ load_tree light n = Ok ((k_attrs, MDict [(str "NX_class", MText (str "NXcollection"))]) :: kept_dict skip light d).
Proof.
  intros skip light d ND K P. rewrite collection_shape by assumption. eexists. split; [reflexivity|]. rewrite load_eq.
  rewrite load_items_ok; [reflexivity|exact K| |exact ND|].
  - intros k v I t Kk F. apply load_plain; [exact (P _ _ I)|exact Kk|exact F].
  - intros k I. apply in_map_iff in I. destruct I as ([k' v'] & Ek & I). cbn in Ek. subst k'. cbn [lookup]. rewrite (proj2 (eqb_str_neq k (str "attrs"))); [reflexivity|]. apply (K _ _ I).
Qed.
Lemma kept_all : forall m, plain m -> kept [] false m = Some m.
Proof.
  intros m P. induction P as [m L|v t L N|att d A ND K P IH V].
  - destruct m; try contradiction L; reflexivity.
  - reflexivity.
  - assert (A' : att = [] \/ exists t, att = [(k_attrs, MDict t)]) by (destruct A as [A|(u & A & _)]; eauto).
    rewrite kept_eq by (apply noted_att; assumption). do 2 f_equal. assert (E : kept_dict [] false d = d).
    { clear -IH K. induction d as [|[k v] d IHd]; [reflexivity|]. cbn [kept_dict in_list existsb]. rewrite (key_ne k) by (eapply K; left; reflexivity).
      rewrite (IH k v (or_introl eq_refl)), IHd; [reflexivity|intros; eapply K; right; eassumption|intros; eapply IH; right; eassumption]. }
    destruct A' as [->|(u & ->)]; cbn [app]; [exact E|]. cbn [kept_dict]. rewrite eqb_str_refl, E. reflexivity.
Qed.
(** With nothing left out, it is the same. *)
Theorem C120_all : forall d, (forall k v, In (k, v) d -> key_ok k) -> (forall k v, In (k, v) d -> plain v) -> kept_dict [] false d = d.
Proof.
  induction d as [|[k v] d IHd]; intros K P; [reflexivity|]. cbn [kept_dict in_list existsb]. rewrite (key_ne k) by (eapply K; left; reflexivity).
  rewrite kept_all by (eapply P; left; reflexivity). rewrite IHd; [reflexivity|intros; eapply K; right; eassumption|intros; eapply P; right; eassumption].
Qed.
Print Assumptions C120_round_trip.
Print Assumptions C120_all.
