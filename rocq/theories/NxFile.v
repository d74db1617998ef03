(** Writing signals to a Nexus file and reading the file. *)
From Coq Require Import QArith.
From Verif Require RenPset ImpProps.
From Verif Require Import Base Text HierModel DistModel RplModel SfsModel HierProps HierProof Dict LogText RplProps ProtoFile NxModel NxProps NxFind NxMeta NxAxes.
Local Open Scope Z_scope.

(** a target in a note is a text *)
Inductive quiet : meta -> Prop :=
| quiet_leaf : forall m, ~ is_dict m -> quiet m
| quiet_dict : forall d, (forall k v, In (k, v) d -> quiet v) -> (forall t v, In (k_attrs, MDict t) d -> lookup (str "target") t = Some v -> exists x, v = MText x) -> quiet (MDict d).
Definition good_meta (d : dict) : Prop := NoDup (map fst d) /\ (forall k v, In (k, v) d -> key_ok k) /\ (forall k v, In (k, v) d -> plain v) /\ quiet (MDict d).
Definition note : pystr * meta := (k_attrs, MDict [(str "NX_class", MText (str "NXcollection"))]).
Definition good (i : Z) (s : wsignal) : Prop :=
  fine s /\ good_meta (g_meta s) /\ good_meta (g_original s) /\ signal_name (g_meta s) i <> [] /\ signal_name (g_meta s) i <> str "auxiliary".
(** What comes back of a signal: the data, the axes, the title, the other metadata, and the original metadata if it was saved *)
Definition comes_back (skip : option (list pystr)) (light : bool) (i : Z) (s : wsignal) (x : signal) : Prop :=
  s_data x = CArr (g_shape s) (g_data s) /\
  List.length (s_axes x) = List.length (g_shape s) /\
  (forall k n w a, nth_error (g_shape s) k = Some n -> nth_error (g_axes s) k = Some w -> nth_error (s_axes x) k = Some a -> back (Z.of_nat k) n w a) /\
  lookup (str "General") (s_meta x) = Some (MDict [(str "title", MText (signal_name (g_meta s) i))]) /\
  (forall k, k <> str "General" -> k <> k_attrs -> lookup k (s_meta x) = lookup k (kept_dict [] light (g_meta s))) /\
  (forall sk, skip = Some sk -> g_original s <> [] -> s_original x = note :: kept_dict sk light (g_original s)).

(** * The tree which is written *)
Definition coll (skip : list pystr) (d : dict) : node := Group [(str "NX_class", text_attr "NXcollection")] (shape_items true skip d).
Definition aux_items (skip : option (list pystr)) (s : wsignal) : members :=
  match skip, g_original s with Some sk, _ :: _ => [(str "original_metadata", (None, coll sk (g_original s)))] | _, _ => [] end ++
  match g_meta s with [] => [] | _ => [(str "hyperspy_metadata", (None, coll [] (g_meta s)))] end.
Definition entry_class : attributes := [(str "NX_class", text_attr "NXentry")].
Definition entry_attrs (default : bool) (i : Z) (name : pystr) : attributes :=
  if (i =? 0) && default then entry_class ++ [(str "default", CText false name)] else entry_class.
Definition entry_node (skip : option (list pystr)) (default : bool) (i : Z) (s : wsignal) : node :=
  Group (entry_attrs default i (signal_name (g_meta s) i))
    [(str "auxiliary", (None, Group entry_class (aux_items skip s))); (signal_name (g_meta s) i, (None, Group (wr_attrs s) (wr_items s)))].
Definition entry_key (i : Z) : pystr := str "entry" ++ str_int (i + 1).
Fixpoint entries (skip : option (list pystr)) (default : bool) (i : Z) (l : list wsignal) : members :=
  match l with [] => [] | s :: l => (entry_key i, (None, entry_node skip default i s)) :: entries skip default (i + 1) l end.
Lemma entry_written : forall skip default i s, good i s -> write_entry_of skip default i s = Ok (entry_node skip default i s).
Proof.
  intros skip default i s (F & (M1 & M2 & M3 & _) & (O1 & O2 & O3 & _) & N1 & N2). unfold write_entry_of. set (name := signal_name (g_meta s) i) in *.
  fold entry_class. destruct name as [|c name'] eqn:E; [congruence|]. rewrite <- E in *. clear c name' E.
  assert (L : forall x, lookup name [(str "auxiliary", x : option pystr * node)] = None) by (intros x; cbn [lookup]; rewrite (proj2 (eqb_str_neq name (str "auxiliary")) N2); reflexivity).
  unfold require_group at 1. rewrite L. cbn [bind]. rewrite written by exact F. cbn [bind fst snd]. unfold put_node at 1. rewrite put_new by apply L. cbn [app].
  match goal with |- context [require_group (str "auxiliary") ?x] => change (require_group (str "auxiliary") x) with (@Ok (attributes * members) (entry_class, [])) end. cbn [bind fst snd].
  set (o := (match skip with Some sk => match g_original s with [] => [] | _ :: _ => [(str "original_metadata", (None, coll sk (g_original s)))] end | None => [] end) : members).
  match goal with |- bind ?x _ = _ => assert (Om : x = Ok o) end.
  { unfold o. destruct skip as [sk|]; [|reflexivity]. destruct (g_original s) as [|x d] eqn:E; [reflexivity|]. rewrite <- E in *. rewrite collection_shape by assumption. reflexivity. }
  rewrite Om. cbn [bind]. match goal with |- bind ?x _ = _ => assert (Mm : x = Ok (aux_items skip s)) end.
  { unfold aux_items. fold o. destruct (g_meta s) as [|x d] eqn:E; [rewrite app_nil_r; reflexivity|]. rewrite <- E in *. rewrite collection_shape by assumption. cbn [bind]. unfold put_node. rewrite put_new; [reflexivity|].
    unfold o. destruct skip; [|reflexivity]. destruct (g_original s); reflexivity. }
  rewrite Mm. cbn [bind]. unfold entry_node, put_node. fold name. rewrite (put_new _ name) by apply L. reflexivity.
Qed.
Lemma entries_written : forall skip default l i, (forall k s, nth_error l k = Some s -> good (i + Z.of_nat k) s) -> write_entries skip default i l = Ok (entries skip default i l).
Proof.
  induction l as [|s l IH]; intros i H; [reflexivity|]. cbn [write_entries entries]. rewrite entry_written by (specialize (H 0%nat s eq_refl); rewrite Z.add_0_r in H; exact H). cbn [bind].
  rewrite IH; [reflexivity|]. intros k x Hx. replace (i + 1 + Z.of_nat k) with (i + Z.of_nat (S k)) by lia. apply H. exact Hx.
Qed.
Definition root_attrs (default : bool) : attributes :=
  [(str "file_format", CText false (str "nexus")); (str "file_writer", CText false (str "hyperspy_nexus_v3"))] ++ (if default then [(str "default", CText false (str "entry1"))] else []).

(** * What is found *)
Definition nx_group (n : node) : bool := match n with Group b _ => is_nxdata b && has "signal" b | Data _ _ => false end.
Inductive calm : node -> Prop :=
| calm_data : forall a c, calm (Data a c)
| calm_group : forall a items, (forall c, lookup (str "target") a = Some c -> exists t, parse_attr c = MText t) ->
    (forall k link m, In (k, (link, m)) items -> calm m /\ nx_group m = false) -> calm (Group a items).
Definition no_nx (l : list found) : Prop := Forall (fun f => fst (fst f) = false) l.
Lemma link_ok : forall a link p, (forall c, lookup (str "target") a = Some c -> exists t, parse_attr c = MText t) -> exists t, get_link a link p = Ok t.
Proof.
  intros a link p H. unfold get_link. destruct (eqb_str p slash); [eauto|]. destruct (lookup (str "target") a) as [c|]; [|eauto]. destruct (H c eq_refl) as [t ->]. eauto.
Qed.
Lemma link_none : forall a p, lookup (str "target") a = None -> get_link a None p = Ok None.
Proof. intros a p H. unfold get_link. rewrite H. destruct (eqb_str p slash); reflexivity. Qed.
Lemma calm_find : forall hard n root, calm n -> exists l, find_tree hard root n = Ok l /\ no_nx l.
Proof.
  intros hard n. induction n as [a c|a items IH] using node_deep; intros root C; [exists []; split; [reflexivity|constructor]|].
  inversion C as [|a' i' Ta Ci]; subst. clear C. induction items as [|[k [link m]] items IHi]; [exists []; split; [reflexivity|constructor]|].
  rewrite find_cons. destruct IHi as (r & Er & Nr); [intros; eapply IH; [right; eassumption|assumption]|intros; eapply Ci; right; eassumption|].
  destruct (Ci k link m (or_introl eq_refl)) as [Cm Nm].
  assert (Hh : exists h, here hard a link (root ++ slash ++ k) m = Ok h /\ no_nx h).
  { unfold here. destruct (link_ok a link (root ++ slash ++ k) Ta) as [t ->]. cbn [bind]. destruct m as [b mi|b c].
    - cbn [nx_group] in Nm. rewrite Nm. cbn [app]. destruct (negb hard || is_none t).
      + destruct (IH k link _ (or_introl eq_refl) (root ++ slash ++ k) Cm) as (d & -> & Nd). exists d. auto.
      + exists []. split; [reflexivity|constructor].
    - destruct (2 <=? size c); [|exists []; split; [reflexivity|constructor]]. destruct (numeric c); eexists; (split; [reflexivity|]); repeat constructor. }
  destruct Hh as (h & -> & Nh). cbn [bind]. rewrite Er. cbn [bind]. exists (h ++ r). split; [reflexivity|]. apply Forall_app. auto.
Qed.
Lemma lookup_conts : forall k t, lookup k (conts t) = option_map cont (lookup k t).
Proof. intros k. induction t as [|[j v] t IH]; [reflexivity|]. cbn [conts map fst snd lookup]. destruct (eqb_str k j); [reflexivity|exact IH]. Qed.
Lemma shape_in : forall full skip d k x, In (k, x) (shape_items full skip d) -> exists v, In (k, v) d /\ k <> k_attrs /\ x = (None, shape_node full skip v).
Proof.
  induction d as [|[j v] d IH]; intros k x H; [destruct H|]. cbn [shape_items] in H. destruct (eqb_str j k_attrs || in_list j skip) eqn:E.
  - destruct (IH _ _ H) as (w & I & N & X). exists w. split; [right; exact I|]. auto.
  - destruct H as [H|H].
    + injection H as <- <-. exists v. split; [left; reflexivity|]. split; [|reflexivity]. apply orb_false_iff in E. apply eqb_str_neq. apply E.
    + destruct (IH _ _ H) as (w & I & N & X). exists w. split; [right; exact I|]. auto.
Qed.
Lemma text_cont : forall x, exists t, parse_attr (cont (MText x)) = MText t.
Proof. intros x. eexists. reflexivity. Qed.
Lemma att_eq : forall att d, (att = [] \/ exists t, att = [(k_attrs, MDict t)]) -> (forall k v, In (k, v) d -> key_ok k) -> attrs_part (att ++ d) = match att with [(_, MDict t)] => conts t | _ => [] end.
Proof.
  intros att d [->|(t & ->)] H; [|reflexivity]. cbn [app]. destruct d as [|[k v] d]; [reflexivity|]. cbn [attrs_part]. rewrite (key_ne k) by (eapply H; left; reflexivity). destruct v; reflexivity.
Qed.
Lemma plain_calm : forall skip m, plain m -> quiet m -> calm (shape_node true skip m) /\ nx_group (shape_node true skip m) = false.
Proof.
  intros skip m P. induction P as [m L|v t L N|att d A ND K P IH V]; intros Q.
  - destruct m; try contradiction L; (split; [constructor|reflexivity]).
  - assert (Y : shape_node true skip (MDict [(k_value, v); (k_attrs, MDict t)]) = Data (conts t) (cont v)) by reflexivity. rewrite Y. split; [constructor|reflexivity].
  - inversion Q as [m' L|d' Qv Qt]; subst; [destruct L; eexists; reflexivity|].
    assert (A' : att = [] \/ exists t, att = [(k_attrs, MDict t)]) by (destruct A as [A|(t & A & _)]; eauto).
    rewrite shape_eq by (apply noted_att; assumption). rewrite att_eq by assumption. split.
    + constructor.
      * intros c Hc. destruct A as [->|(t & -> & (N1 & N2 & N3 & N4) & Kt)]; [discriminate|]. rewrite lookup_conts in Hc. destruct (lookup (str "target") t) as [x|] eqn:E; [|discriminate]. injection Hc as <-.
        destruct (Qt t x) as [y ->]; [left; reflexivity|exact E|apply text_cont].
      * intros k link x I. apply shape_in in I. destruct I as (v & I & Nk & E). injection E as -> ->. apply in_app_iff in I. destruct I as [I|I].
        -- destruct A' as [->|(t & ->)]; [destruct I|]. destruct I as [I|[]]. injection I as <- _. congruence.
        -- apply (IH k v I). eapply Qv. apply in_app_iff. right. exact I.
    + cbn [nx_group]. destruct A as [->|(t & -> & (N1 & N2 & N3 & N4) & Kt)]; [reflexivity|]. rewrite nx_conts by assumption. reflexivity.
Qed.
Lemma coll_calm : forall skip d, good_meta d -> calm (coll skip d) /\ nx_group (coll skip d) = false.
Proof.
  intros skip d (_ & K & P & Q). split; [|reflexivity]. inversion Q as [m' L|d' Qv Qt]; subst; [destruct L; eexists; reflexivity|]. constructor.
  - intros c Hc. discriminate.
  - intros k link x I. apply shape_in in I. destruct I as (v & I & Nk & E). injection E as -> ->. apply plain_calm; [exact (P _ _ I)|exact (Qv _ _ I)].
Qed.
Lemma wr_in : forall s k x, In (k, x) (wr_items s) -> exists a c, x = (None, Data a c).
Proof.
  intros s k x [H|H]; [injection H as _ <-; eauto|]. induction (g_axes s) as [|w l IH]; [destruct H|]. cbn [ax_items] in H. apply in_app_iff in H. destruct H as [H|H]; [|exact (IH H)].
  destruct (w_name w); [|destruct H]. destruct H as [H|[]]. injection H as _ <-. eauto.
Qed.
Lemma paths_app : forall nx hard a b, paths nx hard (a ++ b) = paths nx hard a ++ paths nx hard b.
Proof. intros. unfold paths. rewrite filter_app, map_app. reflexivity. Qed.
Lemma paths_none : forall hard l, no_nx l -> paths true hard l = [].
Proof.
  induction l as [|f l IH]; intros H; [reflexivity|]. inversion H as [|? ? Hf Hl]; subst. unfold paths. cbn [filter]. rewrite Hf. cbn [Bool.eqb andb]. apply IH. exact Hl.
Qed.
Lemma entry_found : forall skip default hard i s root, good i s ->
  exists fl, find_tree hard root (entry_node skip default i s) = Ok fl /\ paths true hard fl = [root ++ slash ++ signal_name (g_meta s) i].
Proof.
  intros skip default hard i s root (F & Gm & Go & N1 & N2). unfold entry_node. set (ea := entry_attrs default i (signal_name (g_meta s) i)).
  assert (Ta : lookup (str "target") ea = None) by (unfold ea, entry_attrs; destruct ((i =? 0) && default); reflexivity).
  rewrite find_cons. unfold here at 1. rewrite link_none by exact Ta. cbn [bind]. replace (is_nxdata entry_class && has "signal" entry_class) with false by reflexivity. rewrite orb_true_r.
  assert (Ca : calm (Group entry_class (aux_items skip s))).
  { constructor; [intros c Hc; discriminate|]. intros k link m I. unfold aux_items in I. apply in_app_iff in I. destruct I as [I|I].
    - destruct skip as [sk|]; [|destruct I]. destruct (g_original s) as [|y d] eqn:E; [destruct I|]. rewrite <- E in *. destruct I as [I|[]]. injection I as _ _ <-. apply coll_calm. exact Go.
    - destruct (g_meta s) as [|y d] eqn:E; [destruct I|]. rewrite <- E in *. destruct I as [I|[]]. injection I as _ _ <-. apply coll_calm. exact Gm. }
  destruct (calm_find hard _ (root ++ slash ++ str "auxiliary") Ca) as (fa & Ea & Na). rewrite Ea. cbn [bind app].
  rewrite find_cons. unfold here. rewrite link_none by exact Ta. cbn [bind].
  destruct (wr_lookups s) as (L1 & L2 & L3 & L4 & L5).
  assert (Nx : is_nxdata (wr_attrs s) && has "signal" (wr_attrs s) = true) by (unfold is_nxdata, has; rewrite L1, L2; reflexivity). rewrite Nx. cbn [is_none]. rewrite orb_true_r.
  assert (Cd : calm (Group (wr_attrs s) (wr_items s))).
  { constructor; [intros c Hc; congruence|]. intros k link m I. apply wr_in in I. destruct I as (a & c & E). injection E as -> ->. split; [constructor|reflexivity]. }
  destruct (calm_find hard _ (root ++ slash ++ signal_name (g_meta s) i) Cd) as (fd & Ed & Nd). rewrite Ed. cbn [bind].
  change (find_tree hard root (Group ea [])) with (@Ok (list found) []). cbn [bind]. eexists. split; [reflexivity|].
  rewrite paths_app, (paths_none hard fa Na). cbn [app]. rewrite app_nil_r. change ((true, root ++ slash ++ signal_name (g_meta s) i, true) :: fd) with ([(true, root ++ slash ++ signal_name (g_meta s) i, true)] ++ fd).
  rewrite paths_app, (paths_none hard fd Nd), app_nil_r. reflexivity.
Qed.
Definition signal_path (i : Z) (s : wsignal) : pystr := path_of [entry_key i; signal_name (g_meta s) i].
Fixpoint signal_paths (i : Z) (l : list wsignal) : list pystr := match l with [] => [] | s :: l => signal_path i s :: signal_paths (i + 1) l end.
Lemma entries_found : forall skip default hard ra l i, lookup (str "target") ra = None -> (forall k s, nth_error l k = Some s -> good (i + Z.of_nat k) s) ->
  exists fl, find_tree hard [] (Group ra (entries skip default i l)) = Ok fl /\ paths true hard fl = signal_paths i l.
Proof.
  intros skip default hard ra. induction l as [|s l IH]; intros i Ta G; [exists []; split; reflexivity|]. cbn [entries]. rewrite find_cons.
  destruct (IH (i + 1) Ta) as (r & Er & Pr). { intros k x Hx. replace (i + 1 + Z.of_nat k) with (i + Z.of_nat (S k)) by lia. apply G. exact Hx. }
  assert (Gs : good i s) by (specialize (G 0%nat s eq_refl); rewrite Z.add_0_r in G; exact G).
  unfold here. rewrite link_none by exact Ta. cbn [bind is_none]. unfold entry_node at 1. rewrite orb_true_r.
  assert (Nx : is_nxdata (entry_attrs default i (signal_name (g_meta s) i)) = false) by (unfold entry_attrs; destruct ((i =? 0) && default); reflexivity). rewrite Nx. cbn [andb app].
  fold (entry_node skip default i s). destruct (entry_found skip default hard i s (slash ++ entry_key i) Gs) as (f & Ef & Pf). rewrite Ef. cbn [bind]. rewrite Er. cbn [bind].
  eexists. split; [reflexivity|]. rewrite paths_app, Pf, Pr. cbn [app signal_paths]. unfold signal_path, path_of. cbn [map List.concat]. rewrite <- !app_assoc, app_nil_r. reflexivity.
Qed.

(** * What is loaded *)
Definition aux_dict (skip : option (list pystr)) (light : bool) (s : wsignal) : dict :=
  (k_attrs, MDict [(str "NX_class", MText (str "NXentry"))]) ::
  match skip, g_original s with Some sk, _ :: _ => [(str "original_metadata", MDict (note :: kept_dict sk light (g_original s)))] | _, _ => [] end ++
  match g_meta s with [] => [] | _ => [(str "hyperspy_metadata", MDict (note :: kept_dict [] light (g_meta s)))] end.
Definition entry_dict (skip : option (list pystr)) (light default : bool) (i : Z) (s : wsignal) : dict :=
  [(k_attrs, MDict (put_attrs true (entry_attrs default i (signal_name (g_meta s) i)) [])); (str "auxiliary", MDict (aux_dict skip light s))].
Lemma coll_loaded : forall skip light d, good_meta d -> load_tree light (coll skip d) = Ok (note :: kept_dict skip light d).
Proof.
  intros skip light d (ND & K & P & _). destruct (C120_round_trip skip light d ND K P) as (n & E & L). rewrite collection_shape in E by assumption. injection E as <-. exact L.
Qed.
Lemma aux_loaded : forall skip light s, good_meta (g_meta s) -> good_meta (g_original s) -> load_tree light (Group entry_class (aux_items skip s)) = Ok (aux_dict skip light s).
Proof.
  intros skip light s Gm Go. rewrite load_eq. change (match entry_class with [] => [] | _ => [(str "attrs", MDict (put_attrs true entry_class []))] end) with [(k_attrs, MDict [(str "NX_class", MText (str "NXentry"))])].
  set (t0 := (k_attrs, MDict [(str "NX_class", MText (str "NXentry"))])). unfold aux_items, aux_dict. fold t0.
  assert (C : forall k sk d t, fix_key k = k -> good_meta d -> lookup k t = None -> load_item light k (coll sk d) t = Ok (t ++ [(k, MDict (note :: kept_dict sk light d))])).
  { intros k sk d t Hk G Hl. unfold load_item. change (coll sk d) with (Group [(str "NX_class", text_attr "NXcollection")] (shape_items true sk d)) at 1. cbv iota.
    change (is_nxdata [(str "NX_class", text_attr "NXcollection")]) with false. cbv iota. rewrite coll_loaded by exact G. cbn [bind]. rewrite Hk, put_new by exact Hl. reflexivity. }
  assert (Hm : forall t, lookup (str "hyperspy_metadata") t = None ->
             load_items light (match g_meta s with [] => [] | _ => [(str "hyperspy_metadata", (None, coll [] (g_meta s)))] end) t =
             Ok (t ++ match g_meta s with [] => [] | _ => [(str "hyperspy_metadata", MDict (note :: kept_dict [] light (g_meta s)))] end)).
  { intros t Ht. destruct (g_meta s) as [|x d] eqn:E; [cbn [load_items]; rewrite app_nil_r; reflexivity|]. rewrite <- E in *. cbn [load_items]. rewrite C by (try reflexivity; assumption). reflexivity. }
  destruct skip as [sk|]; [|cbn [app]; rewrite Hm by reflexivity; reflexivity]. destruct (g_original s) as [|x d] eqn:E; [cbn [app]; rewrite Hm by reflexivity; reflexivity|]. rewrite <- E in *.
  cbn [app load_items]. rewrite C by (try reflexivity; assumption). cbn [bind]. rewrite Hm by reflexivity. reflexivity.
Qed.
Lemma entry_loaded : forall skip light default i s, good i s -> load_tree light (entry_node skip default i s) = Ok (entry_dict skip light default i s).
Proof.
  intros skip light default i s (F & Gm & Go & N1 & N2). unfold entry_node. rewrite load_eq. set (name := signal_name (g_meta s) i) in *.
  assert (T : (match entry_attrs default i name with [] => [] | _ => [(str "attrs", MDict (put_attrs true (entry_attrs default i name) []))] end : dict) =
             [(k_attrs, MDict (put_attrs true (entry_attrs default i name) []))]) by (unfold entry_attrs; destruct ((i =? 0) && default); reflexivity).
  match goal with |- context [load_items _ _ ?x] => replace x with [(k_attrs, MDict (put_attrs true (entry_attrs default i name) []))] by (symmetry; exact T) end.
  cbn [load_items]. unfold load_item at 1. change (is_nxdata entry_class) with false. cbv iota. rewrite aux_loaded by assumption. cbn [bind].
  change (fix_key (str "auxiliary")) with (str "auxiliary"). unfold load_item. destruct (wr_lookups s) as (L1 & _). assert (Nx : is_nxdata (wr_attrs s) = true) by (unfold is_nxdata; rewrite L1; reflexivity). rewrite Nx. reflexivity.
Qed.
Fixpoint entry_dicts (skip : option (list pystr)) (light default : bool) (i : Z) (l : list wsignal) : dict :=
  match l with [] => [] | s :: l => (entry_key i, MDict (entry_dict skip light default i s)) :: entry_dicts skip light default (i + 1) l end.
Lemma entry_inj : forall i j, entry_key i = entry_key j -> i = j.
Proof. intros i j H. unfold entry_key in H. apply app_inv_head in H. apply RenPset.str_int_inj in H. lia. Qed.
Lemma entries_loaded : forall skip light default l i t, (forall k s, nth_error l k = Some s -> good (i + Z.of_nat k) s) -> (forall j, i <= j -> lookup (entry_key j) t = None) ->
  load_items light (entries skip default i l) t = Ok (t ++ entry_dicts skip light default i l).
Proof.
  intros skip light default. induction l as [|s l IH]; intros i t G F; [cbn [entries load_items entry_dicts]; rewrite app_nil_r; reflexivity|].
  assert (Gs : good i s) by (specialize (G 0%nat s eq_refl); rewrite Z.add_0_r in G; exact G).
  cbn [entries load_items entry_dicts]. unfold load_item. unfold entry_node at 1.
  assert (Nx : is_nxdata (entry_attrs default i (signal_name (g_meta s) i)) = false) by (unfold entry_attrs; destruct ((i =? 0) && default); reflexivity). rewrite Nx. fold (entry_node skip default i s).
  rewrite entry_loaded by exact Gs. cbn [bind]. change (fix_key (entry_key i)) with (entry_key i). rewrite put_new by (apply F; lia). rewrite IH.
  - rewrite <- app_assoc. reflexivity.
  - intros k x Hx. replace (i + 1 + Z.of_nat k) with (i + Z.of_nat (S k)) by lia. apply G. exact Hx.
  - intros j Hj. rewrite lookup_app, F by lia. cbn [lookup]. rewrite (proj2 (eqb_str_neq (entry_key j) (entry_key i))); [reflexivity|]. intros K. apply entry_inj in K. lia.
Qed.
Lemma find_entry : forall skip light default l i k s, nth_error l k = Some s ->
  lookup (entry_key (i + Z.of_nat k)) (entries skip default i l) = Some (None, entry_node skip default (i + Z.of_nat k) s) /\
  lookup (entry_key (i + Z.of_nat k)) (entry_dicts skip light default i l) = Some (MDict (entry_dict skip light default (i + Z.of_nat k) s)).
Proof.
  intros skip light default. induction l as [|x l IH]; intros i k s H; [destruct k; discriminate|]. destruct k as [|k].
  - injection H as ->. rewrite Z.add_0_r. cbn [entries entry_dicts lookup]. rewrite eqb_str_refl. auto.
  - replace (i + Z.of_nat (S k)) with (i + 1 + Z.of_nat k) by lia. cbn [entries entry_dicts lookup]. rewrite (proj2 (eqb_str_neq (entry_key (i + 1 + Z.of_nat k)) (entry_key i))); [apply IH; exact H|].
    intros K. apply entry_inj in K. lia.
Qed.
(** * The names *)
Lemma replace_slash : forall n s, (List.length s <= n)%nat -> replace_sub n slash (str "_") s = map (fun c => if c =? 47 then 95 else c) s.
Proof.
  induction n as [|n IH]; intros [|c s] H; try reflexivity; [cbn in H; lia|]. cbn [List.length] in H. cbn [replace_sub map]. change (startswith slash (c :: s)) with ((47 =? c) && true). rewrite andb_true_r, Z.eqb_sym.
  destruct (c =? 47); cbn [List.length skipn slash app]; rewrite IH by lia; reflexivity.
Qed.
Lemma name_noslash : forall m i, ~ In 47 (signal_name m i).
Proof.
  intros m i. unfold signal_name. set (t := match title_of m with [] => _ | _ => _ end).
  assert (R : ~ In 47 (replace slash (str "_") t)).
  { unfold replace. rewrite replace_slash by lia. intros H. apply in_map_iff in H. destruct H as (c & E & _). destruct (Z.eqb_spec c 47); lia. }
  destruct (startswith (str "__") (replace slash (str "_") t)); [|exact R]. intros H. apply R. rewrite <- (firstn_skipn 2 (replace slash (str "_") t)). apply in_app_iff. right. exact H.
Qed.
(** The title is the name of the data, with an underscore for each slash, unless it starts with two underscores. *)
Theorem C121_title : forall m i t, title_of m = t -> t <> [] -> ~ (exists r, map (fun c => if c =? 47 then 95 else c) t = str "__" ++ r) ->
  signal_name m i = map (fun c => if c =? 47 then 95 else c) t.
Proof.
  intros m i t E N H. unfold signal_name. rewrite E. destruct t as [|c t]; [congruence|]. unfold replace. rewrite replace_slash by lia.
  destruct (startswith (str "__") _) eqn:S; [|reflexivity]. apply starts_spec in S. destruct (H S).
Qed.
Theorem C121_unnamed : forall m i, title_of m = [] -> signal_name m i = str "unnamed__" ++ str_int i.
Proof.
  intros m i E. unfold signal_name. rewrite E. unfold replace. rewrite replace_slash by lia. rewrite map_app. change (map (fun c => if c =? 47 then 95 else c) (str "unnamed__")) with (str "unnamed__").
  change (startswith (str "__") (str "unnamed__" ++ map (fun c => if c =? 47 then 95 else c) (str_int i))) with false. cbv iota. f_equal.
  rewrite <- (map_id (str_int i)) at 2. apply map_ext_in. intros c Hc. destruct (Z.eqb_spec c 47) as [->|]; [|reflexivity]. exfalso. revert Hc. apply ImpProps.str_int_no; lia.
Qed.

(** * The file *)
Lemma key_name : forall i, name_ok (entry_key i).
Proof.
  intros i. split; [discriminate|]. unfold entry_key. intros H. apply in_app_iff in H. destruct H as [H|H].
  - repeat (destruct H as [H|H]; [discriminate|]). destruct H.
  - revert H. apply ImpProps.str_int_no; lia.
Qed.
Lemma top_ok : forall default, lookup (str "file_writer") (put_attrs true (root_attrs default) []) = Some (MText (str "hyperspy_nexus_v3")).
Proof. intros [|]; reflexivity. Qed.
Lemma signal_read : forall skip light default l k s, (forall k s, nth_error l k = Some s -> good (Z.of_nat k) s) -> nth_error l k = Some s ->
  exists x, read_nexus (Group (root_attrs default) (entries skip default 0 l)) ((k_attrs, MDict (put_attrs true (root_attrs default) [])) :: entry_dicts skip light default 0 l) None (signal_path (Z.of_nat k) s) = Ok x /\
    comes_back skip light (Z.of_nat k) s x.
Proof.
  intros skip light default l k s G Hk. pose proof (G k s Hk) as (F & Gm & Go & N1 & N2). destruct (find_entry skip light default l 0 k s Hk) as [E1 E2]. rewrite Z.add_0_l in E1, E2.
  assert (Nm : Forall name_ok [entry_key (Z.of_nat k); signal_name (g_meta s) (Z.of_nat k)]).
  { constructor; [apply key_name|]. constructor; [|constructor]. split; [exact N1|apply name_noslash]. }
  unfold read_nexus, fetch, signal_path. rewrite split_path by (try discriminate; exact Nm). cbn [get]. rewrite E1. unfold entry_node. cbn [get lookup]. rewrite (proj2 (eqb_str_neq _ _) N2), eqb_str_refl. cbn [bind hd].
  destruct (C121_signal s F) as (a & items & ax & W & R & La & Pa). rewrite written in W by exact F. injection W as <- <-. rewrite R. cbn [bind fst snd].
  assert (Lp : last_part (path_of [entry_key (Z.of_nat k); signal_name (g_meta s) (Z.of_nat k)]) = signal_name (g_meta s) (Z.of_nat k)) by (unfold last_part; rewrite split_path by (try discriminate; exact Nm); reflexivity).
  rewrite Lp. set (name := signal_name (g_meta s) (Z.of_nat k)) in *. unfold signal_metadata.
  change (lookup (entry_key (Z.of_nat k)) ((k_attrs, MDict (put_attrs true (root_attrs default) [])) :: entry_dicts skip light default 0 l)) with (lookup (entry_key (Z.of_nat k)) (entry_dicts skip light default 0 l)). rewrite E2.
  cbn [dict_of bind]. change (lookup (str "attrs") ((k_attrs, MDict (put_attrs true (root_attrs default) [])) :: entry_dicts skip light default 0 l)) with (Some (MDict (put_attrs true (root_attrs default) []))). cbv iota.
  rewrite top_ok. change (eqb_str (str "hyperspy_nexus_v3") (str "hyperspy_nexus_v3")) with true. cbv iota.
  change (lookup (str "auxiliary") (entry_dict skip light default (Z.of_nat k) s)) with (Some (MDict (aux_dict skip light s))). cbn [dict_of bind].
  set (om := match skip, g_original s with Some sk, _ :: _ => Some (note :: kept_dict sk light (g_original s)) | _, _ => None end).
  set (hm := match g_meta s with [] => None | _ => Some (note :: kept_dict [] light (g_meta s)) end).
  assert (A1 : lookup (str "original_metadata") (aux_dict skip light s) = option_map MDict om) by (unfold om, aux_dict; destruct skip; destruct (g_original s), (g_meta s); reflexivity).
  assert (A2 : lookup (str "hyperspy_metadata") (aux_dict skip light s) = option_map MDict hm) by (unfold hm, aux_dict; destruct skip; destruct (g_original s), (g_meta s); reflexivity).
  rewrite A1, A2. set (e := entry_dict skip light default (Z.of_nat k) s).
  assert (B1 : match option_map MDict om with None => Ok e | Some om => let! om := dict_of om in search_dict None om end = Ok (match om with Some d => d | None => e end)) by (destruct om; reflexivity).
  rewrite B1. cbn [bind].
  assert (C : forall m, s_data m = CArr (g_shape s) (g_data s) -> s_axes m = ax ->
            s_meta m = (match hm with Some h => put (str "General") (MDict [(str "title", MText name)]) h | None => title_only name end) ->
            s_original m = (match om with Some d => d | None => e end) -> comes_back skip light (Z.of_nat k) s m).
  { intros m D1 D2 D3 D4. unfold comes_back. fold name. rewrite D1, D2, D3, D4. split; [reflexivity|]. split; [exact La|]. split; [exact Pa|]. split; [|split].
    - destruct hm; [|reflexivity]. rewrite lookup_put, eqb_str_refl. reflexivity.
    - intros j J1 J2. unfold hm. destruct (g_meta s) as [|y d] eqn:Em.
      + unfold title_only. cbn [lookup kept_dict]. rewrite (proj2 (eqb_str_neq _ _) J1). reflexivity.
      + rewrite <- Em. rewrite lookup_put, (proj2 (eqb_str_neq _ _) J1). unfold note. cbn [lookup]. rewrite (proj2 (eqb_str_neq _ _) J2). reflexivity.
    - intros sk -> No. unfold om. destruct (g_original s); [congruence|reflexivity]. }
  destruct hm as [h|]; cbn [option_map dict_of bind]; eexists; (split; [reflexivity|]); apply C; reflexivity.
Qed.
Lemma paths_nth : forall l i k, nth_error (signal_paths i l) k = option_map (signal_path (i + Z.of_nat k)) (nth_error l k).
Proof.
  induction l as [|s l IH]; intros i k; [destruct k; reflexivity|]. destruct k as [|k]; [cbn; rewrite Z.add_0_r; reflexivity|]. cbn [signal_paths nth_error]. rewrite IH. replace (i + 1 + Z.of_nat k) with (i + Z.of_nat (S k)) by lia. reflexivity.
Qed.
Lemma mapM_all : forall A B (f : A -> res B) (P : nat -> A -> B -> Prop) l, (forall k a, nth_error l k = Some a -> exists b, f a = Ok b /\ P k a b) ->
  exists r, mapM f l = Ok r /\ List.length r = List.length l /\ forall k a b, nth_error l k = Some a -> nth_error r k = Some b -> P k a b.
Proof.
  intros A B f P l. revert P. induction l as [|x l IH]; intros P H; [exists []; split; [reflexivity|]; split; [reflexivity|]; intros [|k] a b K; discriminate|].
  destruct (H 0%nat x eq_refl) as (y & Ey & Py). destruct (IH (fun k => P (S k))) as (r & Er & Lr & Pr); [intros k a Ha; apply (H (S k)); exact Ha|].
  exists (y :: r). cbn [mapM]. rewrite Ey. cbn [bind]. rewrite Er. split; [reflexivity|]. split; [cbn; congruence|]. intros [|k] a b Ha Hb; [injection Ha as <-; injection Hb as <-; exact Py|exact (Pr k a b Ha Hb)].
Qed.
(** Signals which are written come back, each with its data, axes, title and metadata, in their order. *)
Theorem C121_file : forall filename o skip default l,
  o_key o = KNone -> o_path o = KNone -> o_metadata_key o = KNone -> o_nxdata o = true -> o_default o = false ->
  (forall k s, nth_error l k = Some s -> good (Z.of_nat k) s) ->
  exists f r, write_file skip default l = Ok f /\ read_file filename o f = Ok r /\ List.length r = List.length l /\
    forall k s x, nth_error l k = Some s -> nth_error r k = Some x -> comes_back skip (o_skip o) (Z.of_nat k) s x.
Proof.
  intros filename o skip default l H1 H2 H3 H4 H5 G. exists (Group (root_attrs default) (entries skip default 0 l)).
  set (root := Group (root_attrs default) (entries skip default 0 l)). set (top := (k_attrs, MDict (put_attrs true (root_attrs default) []))).
  assert (Lo : load_tree (o_skip o) root = Ok (top :: entry_dicts skip (o_skip o) default 0 l)).
  { unfold root. rewrite load_eq. assert (T : (match root_attrs default with [] => [] | _ => [(str "attrs", MDict (put_attrs true (root_attrs default) []))] end : dict) = [top]) by (destruct default; reflexivity).
    match goal with |- context [load_items _ _ ?x] => replace x with [top] by (symmetry; exact T) end. rewrite entries_loaded; [reflexivity|exact G|]. intros j _. reflexivity. }
  destruct (entries_found skip default (o_hard o) (root_attrs default) l 0) as (fl & Ef & Pf); [destruct default; reflexivity|exact G|]. fold root in Ef.
  destruct (mapM_all _ _ (read_nexus root (top :: entry_dicts skip (o_skip o) default 0 l) None) (fun k _ x => forall s, nth_error l k = Some s -> comes_back skip (o_skip o) (Z.of_nat k) s x) (signal_paths 0 l)) as (r & Er & Lr & Pr).
  { intros k p Hp. rewrite paths_nth in Hp. destruct (nth_error l k) as [s|] eqn:Es; [|discriminate]. injection Hp as <-. destruct (signal_read skip (o_skip o) default l k s G Es) as (x & Ex & Cx).
    exists x. split; [exact Ex|]. intros s' K. injection K as <-. exact Cx. }
  exists r. split; [unfold write_file; rewrite entries_written by exact G; reflexivity|]. split; [|split].
  - unfold read_file. rewrite H1, H2, H3. cbn [check_keys bind]. rewrite Lo, H5. cbn [bind]. unfold find_data. rewrite Ef. cbn [bind fst snd select]. rewrite Pf, Er, H4. cbn [bind somes]. rewrite app_nil_r. reflexivity.
  - rewrite Lr. assert (X : forall l i, List.length (signal_paths i l) = List.length l) by (clear; induction l as [|s l IH]; intros i; cbn; [reflexivity|rewrite IH; reflexivity]). apply X.
  - intros k s x Hs Hx. apply (Pr k (signal_path (Z.of_nat k) s) x); [rewrite paths_nth, Hs; reflexivity|exact Hx|exact Hs].
Qed.
Print Assumptions C121_title.
Print Assumptions C121_unnamed.
Print Assumptions C121_file.
