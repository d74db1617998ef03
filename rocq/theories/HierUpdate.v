(** Property C44: metadata saved again over an existing group. *)
From Coq Require Import Permutation.
From Verif Require Import Base Text HierModel HierSpec HierProof HierProps.

(** * Specification *)
(** Values that take the place of one another *)
Definition single (v : value) : Prop := match v with VNone | VBool _ | VInt _ | VFloat _ | VStr _ => True | _ => False end.
Inductive same_form : value -> value -> Prop :=
| f_single : forall a b, single a -> single b -> same_form a b
| f_bytes : forall a b, same_form (VBytes a) (VBytes b)
| f_array : forall a b, same_form (VArr a) (VArr b)
| f_dict_array : forall d b, same_form (VDict d) (VArr b)
| f_no_list : same_form (VList []) (VList [])
| f_no_tuple : same_form (VTuple []) (VTuple [])
| f_list : forall a b, homogeneous a -> homogeneous b -> same_form (VList a) (VList b)
| f_tuple : forall a b, homogeneous a -> homogeneous b -> same_form (VTuple a) (VTuple b).
(** A dictionary can be saved over another *)
Inductive fits : value -> value -> Prop :=
| fit_form : forall a b, same_form a b -> fits a b
| fit_dict : forall d1 d2, (forall k a b, lookup k d1 = Some a -> lookup k d2 = Some b -> fits a b) -> fits (VDict d1) (VDict d2).
(** The later values, and the earlier ones where there are no later ones *)
Inductive merged : value -> value -> value -> Prop :=
| m_form : forall a b, same_form a b -> merged a b b
| m_dict : forall d1 d2 d, NoDup (map fst d) ->
    (forall k, lookup k d1 = None -> lookup k d = lookup k d2) ->
    (forall k, lookup k d2 = None -> lookup k d = lookup k d1) ->
    (forall k a b, lookup k d1 = Some a -> lookup k d2 = Some b -> exists c, lookup k d = Some c /\ merged a b c) ->
    merged (VDict d1) (VDict d2) (VDict d).

(** * Merging *)
Fixpoint over (v2 v1 : value) {struct v2} : value :=
  match v2 with
  | VDict d2 =>
      match v1 with
      | VDict d1 =>
          VDict ((fix go (d2 acc : list (pystr * value)) {struct d2} :=
                    match d2 with
                    | [] => acc
                    | (k, v) :: d2' => go d2' (put k (match lookup k acc with Some old => over v old | None => v end) acc)
                    end) d2 d1)
      | _ => v2
      end
  | _ => v2
  end.
Definition over_at (k : pystr) (v : value) (d : list (pystr * value)) : list (pystr * value) :=
  put k (match lookup k d with Some old => over v old | None => v end) d.
Definition over_all (d2 d1 : list (pystr * value)) : list (pystr * value) := fold_left (fun d p => over_at (fst p) (snd p) d) d2 d1.
Lemma over_dict : forall d2 d1, over (VDict d2) (VDict d1) = VDict (over_all d2 d1).
Proof.
  intros d2 d1. cbn [over]. f_equal. revert d1. induction d2 as [|[k v] d2 IH]; intro d1; [reflexivity|]. unfold over_all. cbn [fold_left fst snd]. fold (over_all d2 (over_at k v d1)). rewrite <- IH. reflexivity.
Qed.

(** * Entries *)
Definition put_entry (e : entry) (g : node) : node := match e with inl (n, a) => set_attr n a g | inr (n, i) => set_item n i g end.
Definition W (p : pystr * value) (e : entry) : Prop := ename e = sname (snd p) (fst p) /\ forall g, fresh e g -> write_entry (snd p) (fst p) g = Ok (add_entry e g).
Definition attr_list (es : list entry) : list (pystr * attr) := flat_map (fun e => match e with inl a => [a] | inr _ => [] end) es.
Definition item_list (es : list entry) : list (pystr * node) := flat_map (fun e => match e with inl _ => [] | inr n => [n] end) es.
Definition group_of (es : list entry) : node := NGroup (attr_list es) (item_list es).
Definition proper (d : list (pystr * value)) : Prop := NoDup (map fst d) /\ Forall (fun p => good_key (fst p)) d /\ Forall (fun p => storable (snd p)) d.

Lemma group_snoc : forall es e, group_of (es ++ [e]) = add_entry e (group_of es).
Proof. intros es e. unfold group_of, attr_list, item_list. rewrite !flat_map_app. destruct e as [a|n]; cbn [flat_map app add_entry]; rewrite ?app_nil_r; reflexivity. Qed.
Lemma in_names : forall es x, In x (names (group_of es)) <-> In x (map ename es).
Proof.
  intros es x. induction es as [|e es IH] using rev_ind; [reflexivity|]. rewrite group_snoc, names_add by exact I. rewrite map_app, in_app_iff, IH. cbn [map In]. intuition.
Qed.
Lemma dict2group_app : forall a b g, dict2group (a ++ b) g = let! g' := dict2group a g in dict2group b g'.
Proof. induction a as [|[k v] a IH]; intros b g; [reflexivity|]. cbn [app dict2group]. destruct (write_entry v k g); cbn [bind]; [apply IH|reflexivity]. Qed.
Lemma W_names : forall d es, Forall2 W d es -> map ename es = map (fun p => sname (snd p) (fst p)) d.
Proof. induction 1 as [|p e d es [H _] _ IH]; [reflexivity|]. cbn [map]. rewrite H, IH. reflexivity. Qed.
Lemma snames_nodup : forall d, NoDup (map fst d) -> Forall (fun p => good_key (fst p)) d -> NoDup (map (fun p : pystr * value => sname (snd p) (fst p)) d).
Proof.
  induction d as [|[k v] d IH]; intros N G; [constructor|]. inversion N as [|? ? N1 N2]; subst. inversion G as [|? ? G1 G2]; subst. cbn [map fst snd] in *. constructor; [|apply IH; assumption].
  intro K. apply in_map_iff in K. destruct K as [[k2 v2] [E K]]. cbn [fst snd] in E. rewrite Forall_forall in G2. apply sname_inj in E; [|apply (G2 _ K)|exact G1]. subst k2. apply N1, in_map_iff. exists (k, v2). split; [reflexivity|exact K].
Qed.
Lemma W_run : forall d es, Forall2 W d es -> NoDup (map fst d) -> Forall (fun p => good_key (fst p)) d -> dict2group d empty_group = Ok (group_of es).
Proof.
  intros d es H. assert (Q : NoDup (map ename es) -> dict2group d empty_group = Ok (group_of es)).
  { revert es H. induction d as [|p d IH] using rev_ind; intros es H N.
    - inversion H. reflexivity.
    - apply Forall2_app_inv_l in H. destruct H as [ea [eb [Ha [Hb ->]]]]. inversion Hb as [|? e ? eb' We Hb']; subst. inversion Hb'; subst.
      rewrite map_app in N. cbn [map] in N. apply NoDup_remove in N. rewrite app_nil_r in N. destruct N as [N1 N2].
      rewrite dict2group_app, (IH ea Ha N1). cbn [bind]. destruct p as [k v]. cbn [dict2group]. destruct We as [We1 We2]. cbn [fst snd] in *.
      rewrite We2; [cbn [bind]; rewrite group_snoc; reflexivity|]. apply fresh_names; [exact I|]. rewrite in_names. exact N2. }
  intros N G. apply Q. rewrite (W_names _ _ H). apply snames_nodup; assumption.
Qed.
Lemma W_exists : forall d, Forall (fun p => good_key (fst p)) d -> Forall (fun p => storable (snd p)) d -> exists es, Forall2 W d es.
Proof.
  induction d as [|[k v] d IH]; intros G S; [exists []; constructor|]. inversion G as [|? ? G1 G2]; subst. inversion S as [|? ? S1 S2]; subst. destruct (IH G2 S2) as [es H].
  destruct (storable_good v S1 k G1) as [e [v' [E [_ [_ Hw]]]]]. exists (e :: es). constructor; [split; assumption|exact H].
Qed.
(** * Replacing an entry *)
Lemma put_mid : forall A k (v w : A) a b, ~ In k (map fst a) -> put k v (a ++ (k, w) :: b) = a ++ (k, v) :: b.
Proof.
  induction a as [|[k2 v2] a IH]; intros b H; cbn [app put]; [rewrite eqb_str_refl; reflexivity|]. cbn [map fst In] in H.
  assert (E : eqb_str k k2 = false) by (destruct (eqb_str k k2) eqn:E; [apply eqb_str_spec in E; subst; tauto|reflexivity]). rewrite E, IH by tauto. reflexivity.
Qed.
Lemma lookup_mid : forall A k (w : A) a b, ~ In k (map fst a) -> lookup k (a ++ (k, w) :: b) = Some w.
Proof.
  induction a as [|[k2 v2] a IH]; intros b H; cbn [app lookup]; [rewrite eqb_str_refl; reflexivity|]. cbn [map fst In] in H.
  assert (E : eqb_str k k2 = false) by (destruct (eqb_str k k2) eqn:E; [apply eqb_str_spec in E; subst; tauto|reflexivity]). rewrite E. apply IH. tauto.
Qed.
Lemma lookup_split : forall A k (w : A) d, lookup k d = Some w -> exists a b, d = a ++ (k, w) :: b /\ ~ In k (map fst a).
Proof.
  induction d as [|[k2 v2] d IH]; intro H; [discriminate|]. cbn [lookup] in H. destruct (eqb_str k k2) eqn:E.
  - apply eqb_str_spec in E. subst k2. assert (v2 = w) by congruence. subst v2. exists [], d. split; [reflexivity|intros []].
  - destruct (IH H) as [a [b [-> N]]]. exists ((k2, v2) :: a), b. split; [reflexivity|]. cbn [map fst In]. intros [K|K]; [subst k2; rewrite eqb_str_refl in E; discriminate|contradiction].
Qed.
Lemma attr_names : forall es n, In n (map fst (attr_list es)) -> In (true, n) (map ename es).
Proof. intros es n H. apply in_names. unfold group_of. cbn [names]. apply in_or_app. left. apply in_map_iff in H. destruct H as [p [<- H]]. apply in_map_iff. exists p. split; [reflexivity|exact H]. Qed.
Lemma item_names : forall es n, In n (map fst (item_list es)) -> In (false, n) (map ename es).
Proof. intros es n H. apply in_names. unfold group_of. cbn [names]. apply in_or_app. right. apply in_map_iff in H. destruct H as [p [<- H]]. apply in_map_iff. exists p. split; [reflexivity|exact H]. Qed.
Lemma put_entry_mid : forall ea e1 e2 eb, ename e1 = ename e2 -> NoDup (map ename (ea ++ e1 :: eb)) -> put_entry e2 (group_of (ea ++ e1 :: eb)) = group_of (ea ++ e2 :: eb).
Proof.
  intros ea e1 e2 eb E N. rewrite map_app in N. cbn [map] in N. apply NoDup_remove in N. destruct N as [_ N].
  unfold group_of, attr_list, item_list. rewrite !flat_map_app. cbn [flat_map]. destruct e1 as [[n1 x1]|[n1 x1]], e2 as [[n2 x2]|[n2 x2]]; cbn [ename] in E; try discriminate; injection E as ->; cbn [put_entry set_attr set_item app].
  - rewrite put_mid; [reflexivity|]. intro K. apply attr_names in K. apply N, in_or_app. left. exact K.
  - rewrite put_mid; [reflexivity|]. intro K. apply item_names in K. apply N, in_or_app. left. exact K.
Qed.
Lemma plain_write : forall v1 v2 k, same_form v1 v2 -> storable v2 -> good_key k ->
  sname v1 k = sname v2 k /\ exists e, ename e = sname v2 k /\ forall g, is_group g -> write_entry v2 k g = Ok (put_entry e g).
Proof.
  intros v1 v2 k F S G. assert (Sl : contains (str "/") k = false) by (apply contains_slash, G).
  inversion F as [a b Ha Hb|a b|a b|d b| | |a b Ha Hb|a b Ha Hb]; subst.
  - split; [destruct v1; try contradiction; destruct v2; try contradiction; reflexivity|].
    destruct v2; try contradiction; inversion S; subst; cbn [sname].
    + exists (inl (k, AStr (str "_None_"))). split; reflexivity.
    + exists (inl (k, ABool b)). split; reflexivity.
    + exists (inl (k, AInt z)). split; [reflexivity|]. intros g _. cbn [write_entry]. assert (Ez : (- 2 ^ 63 <=? z) && (z <? 2 ^ 64) = true) by lia. rewrite Ez. reflexivity.
    + exists (inl (k, AFloat f)). split; reflexivity.
    + exists (inl (k, AStr s)). split; [reflexivity|]. intros g _. cbn [write_entry]. unfold write_str_attr. rewrite has_nul_false by assumption. reflexivity.
  - split; [reflexivity|]. inversion S as [| | | | |b' Hb| | | | | | | |]; subst. exists (inl (str "_bs_" ++ k, AVoid b)). split; [reflexivity|]. intros g _. cbn [write_entry].
    assert (E : existsb (Z.eqb 0) b = true) by (apply existsb_exists; exists 0; split; [exact Hb|reflexivity]). rewrite E. reflexivity.
  - split; [reflexivity|]. exists (inr (k, NData (DArr b))). split; [reflexivity|]. intros g _. cbn [write_entry]. unfold write_dataset. rewrite Sl. reflexivity.
  - split; [reflexivity|]. exists (inr (k, NData (DArr b))). split; [reflexivity|]. intros g _. cbn [write_entry]. unfold write_dataset. rewrite Sl. reflexivity.
  - split; [reflexivity|]. exists (inl (str "_list_empty_" ++ k, AStr (str "_None_"))). split; reflexivity.
  - split; [reflexivity|]. exists (inl (str "_tuple_empty_" ++ k, AStr (str "_None_"))). split; reflexivity.
  - destruct (scalars_data a Ha) as [E1 _]. destruct (scalars_data b Hb) as [E2 [ds [_ Hw]]]. rewrite !sname_list by (apply Ha || apply Hb). rewrite E1, E2. split; [reflexivity|].
    exists (inr (str "_list_" ++ k, NData ds)). split; [reflexivity|]. intros g _. rewrite write_list_eq by apply Hb. unfold write_seq. unfold is_elements in E2. cbn [put_entry].
    rewrite <- (Hw (str "_list_") k g) by (apply no_slash_app; [cbn; intuition lia|apply G]). destruct (list_kind b); try reflexivity. discriminate.
  - destruct (scalars_data a Ha) as [E1 _]. destruct (scalars_data b Hb) as [E2 [ds [_ Hw]]]. rewrite !sname_tuple by (apply Ha || apply Hb). rewrite E1, E2. split; [reflexivity|].
    exists (inr (str "_tuple_" ++ k, NData ds)). split; [reflexivity|]. intros g _. rewrite write_tuple_eq by apply Hb. unfold write_seq. unfold is_elements in E2. cbn [put_entry].
    rewrite <- (Hw (str "_tuple_") k g) by (apply no_slash_app; [cbn; intuition lia|apply G]). destruct (list_kind b); try reflexivity. discriminate.
Qed.

(** * Shape of the merged dictionary *)
Lemma over_form : forall a b, same_form a b -> over b a = b.
Proof. intros a b H. destruct b; try reflexivity. inversion H; subst; try reflexivity; contradiction. Qed.
Lemma lookup_over_at : forall k v d k', lookup k' (over_at k v d) = if eqb_str k' k then Some (match lookup k d with Some old => over v old | None => v end) else lookup k' d.
Proof. intros. unfold over_at. rewrite lookup_put. reflexivity. Qed.
Lemma lookup_over_all : forall d2 d1 k, NoDup (map fst d2) ->
  lookup k (over_all d2 d1) = match lookup k d2 with None => lookup k d1 | Some b => Some (match lookup k d1 with Some a => over b a | None => b end) end.
Proof.
  induction d2 as [|[k2 v2] d2 IH]; intros d1 k N; [reflexivity|]. inversion N as [|? ? N1 N2]; subst. unfold over_all. cbn [fold_left fst snd]. fold (over_all d2 (over_at k2 v2 d1)). rewrite IH by exact N2. cbn [lookup]. rewrite !lookup_over_at.
  destruct (eqb_str k k2) eqn:E; [|reflexivity]. apply eqb_str_spec in E. subst k2. rewrite lookup_none by exact N1. reflexivity.
Qed.
Lemma over_all_nodup : forall d2 d1, NoDup (map fst d1) -> NoDup (map fst (over_all d2 d1)).
Proof. induction d2 as [|[k v] d2 IH]; intros d1 N; [exact N|]. unfold over_all. cbn [fold_left fst snd]. apply IH. unfold over_at. apply put_nodup. exact N. Qed.
Lemma lookup_none_key : forall A k (d : list (pystr * A)), lookup k d = None -> ~ In k (map fst d).
Proof.
  induction d as [|[k2 v] d IH]; intros H K; [contradiction|]. cbn [lookup] in H. destruct (eqb_str k k2) eqn:E; [discriminate|]. destruct K as [K|K]; [cbn [fst] in K; subst k2; rewrite eqb_str_refl in E; discriminate|apply (IH H K)].
Qed.
Lemma lookup_in : forall A k (v : A) d, lookup k d = Some v -> In (k, v) d.
Proof. intros A k v d H. apply lookup_split in H. destruct H as [a [b [-> _]]]. apply in_or_app. right. left. reflexivity. Qed.
Lemma in_lookup : forall A k (v : A) d, NoDup (map fst d) -> In (k, v) d -> lookup k d = Some v.
Proof.
  induction d as [|[k2 v2] d IH]; intros N H; [contradiction|]. inversion N as [|? ? N1 N2]; subst. destruct H as [H|H].
  - assert (k2 = k /\ v2 = v) as [-> ->] by (split; congruence). cbn [lookup]. rewrite eqb_str_refl. reflexivity.
  - cbn [lookup]. destruct (eqb_str k k2) eqn:E; [|apply IH; assumption]. apply eqb_str_spec in E. subst k2. exfalso. apply N1, in_map_iff. exists (k, v). split; [reflexivity|exact H].
Qed.
Lemma storable_proper : forall d, storable (VDict d) -> proper d.
Proof. intros d H. inversion H; subst. repeat split; assumption. Qed.
Lemma proper_storable : forall d, proper d -> storable (VDict d).
Proof. intros d [A [B C]]. constructor; assumption. Qed.
Lemma proper_lookup : forall d, NoDup (map fst d) -> (forall k v, lookup k d = Some v -> good_key k /\ storable v) -> proper d.
Proof. intros d N H. split; [exact N|]. split; apply Forall_forall; intros [k v] K; apply (H k v), in_lookup; assumption. Qed.
Lemma lookup_proper : forall d k v, proper d -> lookup k d = Some v -> good_key k /\ storable v.
Proof. intros d k v [_ [G S]] H. apply lookup_in in H. rewrite Forall_forall in G, S. split; [apply (G _ H)|apply (S _ H)]. Qed.

Lemma fits_storable : forall v2 v1, storable v1 -> storable v2 -> fits v1 v2 -> storable (over v2 v1) /\ merged v1 v2 (over v2 v1).
Proof.
  induction v2 as [| | | | | | | | |d2 IH] using value_ind'; intros v1 S1 S2 F; inversion F as [a' b' Hf|d1 d2' Hf]; subst;
    try (rewrite over_form by exact Hf; split; [exact S2|constructor; exact Hf]).
  rewrite over_dict. apply storable_proper in S1. apply storable_proper in S2.
  assert (Q : forall k a b, lookup k d1 = Some a -> lookup k d2 = Some b -> storable (over b a) /\ merged a b (over b a)).
  { intros k a b Ha Hb. rewrite Forall_forall in IH. apply (IH _ (lookup_in _ _ _ _ Hb)); [apply (lookup_proper _ _ _ S1 Ha)|apply (lookup_proper _ _ _ S2 Hb)|apply (Hf k a b Ha Hb)]. }
  pose proof (proj1 S1) as N1. pose proof (proj1 S2) as N2. split.
  - apply proper_storable, proper_lookup; [apply over_all_nodup, N1|]. intros k v H. rewrite lookup_over_all in H by exact N2. destruct (lookup k d2) as [b|] eqn:Eb.
    + assert (Ev : v = match lookup k d1 with Some a => over b a | None => b end) by congruence. destruct (lookup_proper _ _ _ S2 Eb) as [Gk Sb]. split; [exact Gk|]. subst v. destruct (lookup k d1) as [a|] eqn:Ea; [apply (Q k a b Ea Eb)|exact Sb].
    + apply (lookup_proper _ _ _ S1 H).
  - constructor.
    + apply over_all_nodup, N1.
    + intros k H. rewrite lookup_over_all, H by exact N2. destruct (lookup k d2); reflexivity.
    + intros k H. rewrite lookup_over_all, H by exact N2. reflexivity.
    + intros k a b Ha Hb. exists (over b a). split; [rewrite lookup_over_all, Ha, Hb by exact N2; reflexivity|apply (Q k a b Ha Hb)].
Qed.

(** * Writing over a group *)
Definition fits_at (k : pystr) (v : value) (d : list (pystr * value)) : Prop := match lookup k d with Some a => fits a v | None => True end.
Lemma write_dict : forall d k g, write_entry (VDict d) k g = let! sub := require_group k g in let! sub' := dict2group d sub in Ok (set_item k sub' g).
Proof. intros d k g. cbn [write_entry]. destruct (require_group k g) as [sub|]; cbn [bind]; [|reflexivity]. rewrite dict_loop. reflexivity. Qed.
Lemma W_dict_intro : forall k d sub, good_key k -> is_group sub -> dict2group d empty_group = Ok sub -> W (k, VDict d) (inr (k, sub)).
Proof.
  intros k d sub G Hg E. split; [reflexivity|]. intros g F. cbn [fst snd]. rewrite write_dict, (require_fresh k sub g); [|apply G|exact F]. cbn [bind]. unfold empty_group in E. rewrite E. cbn [bind]. rewrite set_item_fresh by exact F. reflexivity.
Qed.
Lemma W_dict : forall k d e, good_key k -> proper d -> W (k, VDict d) e -> exists es, e = inr (k, group_of es) /\ Forall2 W d es.
Proof.
  intros k d e G [N [Gd Sd]] [E H]. destruct (W_exists d Gd Sd) as [es He]. exists es. split; [|exact He]. pose proof (W_run d es He N Gd) as R.
  cbn [fst snd sname] in *. destruct e as [[n x]|[n x]]; cbn [ename] in E; [discriminate|]. assert (n = k) by congruence. subst n.
  assert (F : fresh (inr (k, x)) empty_group) by (cbn; tauto). specialize (H _ F).
  assert (F' : fresh (inr (k, group_of es)) empty_group) by (cbn; tauto).
  pose proof (proj2 (W_dict_intro k d (group_of es) G I R) _ F') as H2. cbn [fst snd] in H2. rewrite H2 in H. cbn [add_entry empty_group app] in H. congruence.
Qed.
Lemma group_lookup : forall ea k sub eb, NoDup (map ename (ea ++ inr (k, sub) :: eb)) -> lookup k (item_list (ea ++ inr (k, sub) :: eb)) = Some sub.
Proof.
  intros ea k sub eb N. rewrite map_app in N. cbn [map] in N. apply NoDup_remove in N. destruct N as [_ N]. unfold item_list. rewrite flat_map_app. cbn [flat_map app]. apply lookup_mid.
  intro K. apply item_names in K. apply N, in_or_app. left. exact K.
Qed.

Definition writes_over (v2 : value) : Prop := forall d1 k g, storable v2 -> proper d1 -> good_key k -> dict2group d1 empty_group = Ok g -> fits_at k v2 d1 ->
  write_entry v2 k g = dict2group (over_at k v2 d1) empty_group.
Lemma over_at_proper : forall k v d, proper d -> good_key k -> storable v -> fits_at k v d -> proper (over_at k v d).
Proof.
  intros k v d P G S F. apply proper_lookup; [unfold over_at; apply put_nodup, P|]. intros k' v' H. rewrite lookup_over_at in H. destruct (eqb_str k' k) eqn:E; [|apply (lookup_proper _ _ _ P H)].
  apply eqb_str_spec in E. subst k'. split; [exact G|]. unfold fits_at in F. destruct (lookup k d) as [a|] eqn:Ea.
  - assert (v' = over v a) by congruence. subst v'. apply fits_storable; [apply (lookup_proper _ _ _ P Ea)|exact S|exact F].
  - assert (v' = v) by congruence. subst v'. exact S.
Qed.
Lemma proper_run : forall d, proper d -> exists g, dict2group d empty_group = Ok g.
Proof. intros d [N [G S]]. destruct (W_exists d G S) as [es H]. exists (group_of es). apply W_run; assumption. Qed.
Lemma dict_over : forall d2 d1 g, Forall (fun p => writes_over (snd p)) d2 -> proper d2 -> proper d1 -> dict2group d1 empty_group = Ok g ->
  (forall k a b, lookup k d1 = Some a -> lookup k d2 = Some b -> fits a b) -> dict2group d2 g = dict2group (over_all d2 d1) empty_group.
Proof.
  induction d2 as [|[k v] d2 IH]; intros d1 g Hw P2 P1 R F; [symmetry; exact R|]. inversion Hw as [|? ? Hw1 Hw2]; subst. destruct P2 as [N2 [G2 S2]].
  inversion N2 as [|? ? Nk N2']; subst. inversion G2 as [|? ? Gk G2']; subst. inversion S2 as [|? ? Sv S2']; subst. cbn [fst snd] in *.
  assert (Fk : fits_at k v d1). { unfold fits_at. destruct (lookup k d1) as [a|] eqn:Ea; [|exact I]. apply (F k a v Ea). cbn [lookup]. rewrite eqb_str_refl. reflexivity. }
  cbn [dict2group]. rewrite (Hw1 d1 k g Sv P1 Gk R Fk). pose proof (over_at_proper k v d1 P1 Gk Sv Fk) as P'. destruct (proper_run _ P') as [g' R']. rewrite R'. cbn [bind].
  rewrite (IH (over_at k v d1) g'); [reflexivity|exact Hw2|split; [|split]; assumption|exact P'|exact R'|].
  intros k' a b Ha Hb. rewrite lookup_over_at in Ha. destruct (eqb_str k' k) eqn:E.
  - apply eqb_str_spec in E. subst k'. rewrite lookup_none in Hb by exact Nk. discriminate.
  - apply (F k' a b Ha). cbn [lookup]. rewrite E. exact Hb.
Qed.
Lemma over_writes : forall v2, writes_over v2.
Proof.
  assert (Q : forall v2 d1 k v1 g, storable v2 -> proper d1 -> good_key k -> dict2group d1 empty_group = Ok g -> lookup k d1 = Some v1 -> same_form v1 v2 ->
    write_entry v2 k g = dict2group (over_at k v2 d1) empty_group).
  { intros v2 d1 k v1 g S2 P1 Gk R L F. pose proof P1 as [N1 [G1 S1]]. destruct (W_exists d1 G1 S1) as [es He]. pose proof (W_run d1 es He N1 G1) as R1.
    assert (g = group_of es) by congruence. subst g. unfold over_at. rewrite L, over_form by exact F. destruct (lookup_split _ _ _ _ L) as [a [b [-> Na]]].
    pose proof (W_names _ _ He) as Hn. pose proof (snames_nodup _ N1 G1) as Nn. rewrite <- Hn in Nn.
    apply Forall2_app_inv_l in He. destruct He as [ea [eb' [Ha [Hb ->]]]]. inversion Hb as [|? e1 ? eb We Hb']; subst.
    destruct (plain_write v1 v2 k F S2 Gk) as [Es [e2 [E2 Hw]]]. rewrite Hw by exact I. rewrite put_entry_mid; [|rewrite (proj1 We), E2; exact Es|exact Nn].
    rewrite put_mid by exact Na. symmetry. apply W_run.
    - apply Forall2_app; [exact Ha|]. constructor; [|exact Hb']. split; [exact E2|]. cbn [fst snd]. intros g Fg. rewrite Hw by (destruct g; [exact I|destruct e2 as [[? ?]|[? ?]]; contradiction]).
      f_equal. destruct e2 as [[n x]|[n x]]; cbn [put_entry]; [apply set_attr_fresh|apply set_item_fresh]; exact Fg.
    - rewrite map_app in *. exact N1.
    - rewrite Forall_app in *. destruct G1 as [G1a G1b]. split; [exact G1a|]. inversion G1b; subst. constructor; assumption. }
  assert (Q0 : forall v2 d1 k g, dict2group d1 empty_group = Ok g -> lookup k d1 = None -> write_entry v2 k g = dict2group (over_at k v2 d1) empty_group).
  { intros v2 d1 k g R L. unfold over_at. rewrite L. rewrite put_fresh by (intro K; revert K; apply lookup_none_key; exact L). rewrite dict2group_app, R. cbn [bind dict2group]. destruct (write_entry v2 k g); reflexivity. }
  induction v2 as [| | | | | | | | |d2 IH] using value_ind'; intros d1 k g S2 P1 Gk R F; unfold fits_at in F; destruct (lookup k d1) as [v1|] eqn:L;
    try (apply Q0; assumption); inversion F as [a' b' Hf|d1' d2' Hf]; subst; try (apply (Q _ _ _ v1); assumption).
  pose proof P1 as [N1 [G1 S1]]. destruct (W_exists d1 G1 S1) as [es He]. pose proof (W_run d1 es He N1 G1) as R1.
  assert (g = group_of es) by congruence. subst g. pose proof (storable_proper _ (proj2 (lookup_proper _ _ _ P1 L))) as Pd1. apply storable_proper in S2.
  unfold over_at. rewrite L, over_dict. destruct (lookup_split _ _ _ _ L) as [a [b [-> Na]]].
  pose proof (W_names _ _ He) as Hn. pose proof (snames_nodup _ N1 G1) as Nn. rewrite <- Hn in Nn.
  apply Forall2_app_inv_l in He. destruct He as [ea [eb' [Ha [Hb ->]]]]. inversion Hb as [|? e1 ? eb We Hb']; subst.
  destruct (W_dict k d1' e1 Gk Pd1 We) as [es1 [-> He1]]. pose proof (W_run d1' es1 He1 (proj1 Pd1) (proj1 (proj2 Pd1))) as Rs.
  assert (Po : proper (over_all d2 d1')).
  { apply storable_proper. rewrite <- over_dict. apply fits_storable; [apply proper_storable, Pd1|apply proper_storable, S2|exact F]. }
  destruct (W_exists _ (proj1 (proj2 Po)) (proj2 (proj2 Po))) as [es2 He2]. pose proof (W_run _ es2 He2 (proj1 Po) (proj1 (proj2 Po))) as R2.
  rewrite write_dict. unfold require_group. cbn [group_of]. rewrite (proj2 (contains_slash k)) by apply Gk. rewrite group_lookup by exact Nn. cbn [bind].
  change (NGroup (attr_list es1) (item_list es1)) with (group_of es1). cbn [group_of bind]. change (NGroup (attr_list es1) (item_list es1)) with (group_of es1).
  rewrite (dict_over d2 d1' (group_of es1) IH S2 Pd1 Rs Hf), R2. cbn [bind].
  change (NGroup (attr_list (ea ++ inr (k, group_of es1) :: eb)) (item_list (ea ++ inr (k, group_of es1) :: eb))) with (group_of (ea ++ inr (k, group_of es1) :: eb)).
  change (Ok (put_entry (inr (k, group_of es2)) (group_of (ea ++ inr (k, group_of es1) :: eb))) = dict2group (put k (VDict (over_all d2 d1')) (a ++ (k, VDict d1') :: b)) empty_group).
  rewrite put_entry_mid; [|reflexivity|exact Nn]. rewrite put_mid by exact Na. symmetry. apply W_run.
  - apply Forall2_app; [exact Ha|]. constructor; [|exact Hb']. apply W_dict_intro; [exact Gk|exact I|exact R2].
  - rewrite map_app in *. exact N1.
  - rewrite Forall_app in *. destruct G1 as [G1a G1b]. split; [exact G1a|]. inversion G1b; subst. constructor; assumption.
Qed.

(** * Saving again *)
Lemma fits_dicts : forall d1 d2, fits (VDict d1) (VDict d2) -> forall k a b, lookup k d1 = Some a -> lookup k d2 = Some b -> fits a b.
Proof. intros d1 d2 H. inversion H as [? ? K|? ? K]; subst; [inversion K; contradiction|exact K]. Qed.
Theorem C44_update : forall d1 d2, storable (VDict d1) -> storable (VDict d2) -> fits (VDict d1) (VDict d2) ->
  exists d r, merged (VDict d1) (VDict d2) (VDict d) /\ rewrite_and_load d1 d2 = Ok r /\ veq (VDict d) (VDict r).
Proof.
  intros d1 d2 S1 S2 F. destruct (fits_storable _ _ S1 S2 F) as [So Mo]. rewrite over_dict in So, Mo. exists (over_all d2 d1).
  apply storable_proper in S1. apply storable_proper in S2. apply storable_proper in So.
  destruct (C14_metadata_round_trip (over_all d2 d1) (proj1 So) (proj1 (proj2 So)) (proj2 (proj2 So))) as [r [E V]]. exists r. split; [exact Mo|]. split; [|exact V].
  rewrite <- E. unfold rewrite_and_load, store_and_load. destruct (proper_run _ S1) as [g R]. rewrite R. cbn [bind].
  rewrite (dict_over d2 d1 g); [reflexivity| |exact S2|exact S1|exact R|apply fits_dicts; exact F]. apply Forall_forall. intros p _. apply over_writes.
Qed.
(** An array is not replaced by a dictionary: saving fails *)
Theorem C44_array_refuted : forall a, rewrite_and_load [(str "a", VArr a)] [(str "a", VDict [])] = Err TypeError.
Proof. reflexivity. Qed.
Definition old_metadata : list (pystr * value) :=
  [(str "General", VDict [(str "title", VStr (str "first")); (str "notes", VList [VStr (str "a"); VStr (str "b")])]);
   (str "Signal", VDict [(str "quantity", VNone); (str "detector", VDict [(str "gain", VInt 4); (str "live", VBool true)])])].
Definition new_metadata : list (pystr * value) :=
  [(str "Signal", VDict [(str "detector", VDict [(str "gain", VFloat 7)]); (str "quantity", VStr (str "counts"))]);
   (str "General", VDict [(str "notes", VList [VInt 1; VInt 2]); (str "empty", VTuple [])])].
Example C44_update_example : rewrite_and_load old_metadata new_metadata =
  Ok [(str "General", VDict [(str "title", VStr (str "first")); (str "empty", VTuple []); (str "notes", VList [VInt 1; VInt 2])]);
      (str "Signal", VDict [(str "quantity", VStr (str "counts")); (str "detector", VDict [(str "gain", VFloat 7); (str "live", VBool true)])])].
Proof. vm_compute. reflexivity. Qed.
Print Assumptions C44_update.
Print Assumptions C44_array_refuted.
Example C44_update_hyps : storable (VDict old_metadata) /\ storable (VDict new_metadata) /\ fits (VDict old_metadata) (VDict new_metadata).
Proof.
  assert (H1 : homogeneous [VStr (str "a"); VStr (str "b")]).
  { split; [discriminate|]. right. right. right. repeat apply Forall_cons; [| |apply Forall_nil]; eexists; (split; [reflexivity|cbn; intuition lia]). }
  assert (H2 : homogeneous [VInt 1; VInt 2]).
  { split; [discriminate|]. right. left. repeat apply Forall_cons; [| |apply Forall_nil]; eexists; (split; [reflexivity|lia]). }
  unfold old_metadata, new_metadata. split; [|split].
  - repeat (first [apply s_dict; [cbn [map fst]; solve_nodup|solve_keys|]; repeat apply Forall_cons; try apply Forall_nil; cbn [snd] | apply s_str; [cbn; intuition lia|cbn; discriminate] | apply s_none | apply s_int; lia | apply s_bool | apply s_list_scalars; assumption]).
  - repeat (first [apply s_dict; [cbn [map fst]; solve_nodup|solve_keys|]; repeat apply Forall_cons; try apply Forall_nil; cbn [snd] | apply s_str; [cbn; intuition lia|cbn; discriminate] | apply s_float | apply s_tuple_nil | apply s_list_scalars; assumption]).
  - assert (L : forall k k2 (v a : value) d, lookup k ((k2, v) :: d) = Some a -> (k = k2 /\ a = v) \/ lookup k d = Some a).
    { intros k k2 v a d H. cbn [lookup] in H. destruct (eqb_str k k2) eqn:E; [|right; exact H]. apply eqb_str_spec in E. left. split; congruence. }
    assert (D : forall k (p q : pystr), k = p -> k = q -> eqb_str p q = false -> False) by (intros k p q -> -> E; rewrite eqb_str_refl in E; discriminate).
    repeat (first [apply fit_form; solve [apply f_single; exact I | apply f_list; assumption]
                  | apply fit_dict; intros ? ? ? ?Ha ?Hb;
                    repeat match goal with
                    | H : lookup _ [] = Some _ |- _ => discriminate H
                    | H : lookup _ (_ :: _) = Some _ |- _ => apply L in H; destruct H as [[? ->]|H]
                    end;
                    try (match goal with A : ?k = _, B : ?k = _ |- _ => exfalso; exact (D _ _ _ A B eq_refl) end);
                    repeat match goal with A : _ = str _ |- _ => clear A end]).
Qed.
