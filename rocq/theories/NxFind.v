(** Which data of a Nexus file are read. *)
From Coq Require Import QArith.
From Verif Require Import Base Text HierModel DistModel RplModel SfsModel HierProps HierProof Dict LogText NxModel.
Local Open Scope Z_scope.

Lemma node_deep : forall P : node -> Prop, (forall a c, P (Data a c)) -> (forall a items, (forall k link m, In (k, (link, m)) items -> P m) -> P (Group a items)) -> forall n, P n.
Proof.
  intros P HD HG. fix IH 1. intros [a items|a c]; [|apply HD]. apply HG. induction items as [|[k [link m]] items IHi]; intros k' link' m' H; [destruct H|].
  destruct H as [H|H]; [|exact (IHi _ _ _ H)]. assert (E : m = m') by congruence. rewrite <- E. apply IH.
Qed.
(** the path of a thing, from the names of the groups down to it *)
Definition path_of (names : list pystr) : pystr := List.concat (map (fun k => slash ++ k) names).
Lemma path_snoc : forall names k, path_of (names ++ [k]) = path_of names ++ slash ++ k.
Proof. intros names k. unfold path_of. rewrite map_app, concat_app. cbn [map List.concat]. rewrite app_nil_r. reflexivity. Qed.
(** names which can be on a path *)
Definition name_ok (k : pystr) : Prop := k <> [] /\ ~ In 47 k.
Inductive tidy : node -> Prop :=
| tidy_data : forall a c, tidy (Data a c)
| tidy_group : forall a items, NoDup (map fst items) -> (forall k link m, In (k, (link, m)) items -> name_ok k /\ tidy m) -> tidy (Group a items).
(** A member of a group is its own: there is no soft link, and a target, given for the group, is the path itself. *)
Definition own (a : attributes) (link : option pystr) (path : pystr) : Prop :=
  match lookup (str "target") a with
  | None => link = None
  | Some c => exists t, parse_attr c = MText t /\ (t = path \/ (~ (exists r, t = 47 :: r) /\ slash ++ t = path))
  end.
Definition kind (nx : bool) (m : node) : Prop :=
  if nx then exists b items fixed c, m = Group b items /\ lookup (str "NX_class") b = Some (CText fixed (str "NXdata")) /\ lookup (str "signal") b = Some c
  else exists b c, m = Data b c /\ 2 <= size c /\ (forall s, c <> CText false s) /\ (forall l, c <> CTexts false l).
(** What is in a tree: data reached from group to group, not passing links when only hard links count. *)
Inductive shows (hard : bool) : list pystr -> node -> bool -> list pystr -> bool -> Prop :=
| shows_here : forall pre a items k link m nx u,
    In (k, (link, m)) items -> kind nx m -> (u = true <-> own a link (path_of (pre ++ [k]))) -> shows hard pre (Group a items) nx (pre ++ [k]) u
| shows_deep : forall pre a items k link m nx names u,
    In (k, (link, m)) items -> (hard = true -> own a link (path_of (pre ++ [k]))) -> shows hard (pre ++ [k]) m nx names u -> shows hard pre (Group a items) nx names u.

Lemma get_link_spec : forall a link p t, p <> [] -> get_link a link (slash ++ p) = Ok t -> (is_none t = true <-> own a link (slash ++ p)).
Proof.
  intros a link p t Hp H. unfold get_link in H. assert (E : eqb_str (slash ++ p) slash = false).
  { apply eqb_str_neq. intros K. apply Hp. injection K as K. exact K. }
  rewrite E in H. unfold own. destruct (lookup (str "target") a) as [c|].
  - destruct (parse_attr c) as [|s| | | | |]; try discriminate. destruct (startswith slash s) eqn:S.
    + apply starts_spec in S. destruct S as [r ->]. destruct (eqb_str (slash ++ r) (slash ++ p)) eqn:Q; injection H as <-.
      * apply eqb_str_spec in Q. split; [|reflexivity]. intros _. exists (slash ++ r). auto.
      * apply eqb_str_neq in Q. split; [discriminate|]. intros (t & T & [K|[K _]]); injection T as <-; [destruct (Q K)|]. destruct K. exists r. reflexivity.
    + assert (N : ~ exists r, s = 47 :: r).
      { intros [r ->]. assert (K : startswith slash (47 :: r) = true) by (apply starts_spec; exists r; reflexivity). congruence. }
      destruct (eqb_str (slash ++ s) (slash ++ p)) eqn:Q; injection H as <-.
      * apply eqb_str_spec in Q. split; [|reflexivity]. intros _. exists s. auto.
      * apply eqb_str_neq in Q. split; [discriminate|]. intros (t & T & [K|[_ K]]); injection T as <-; [|destruct (Q K)]. destruct N. exists p. exact K.
  - injection H as <-. destruct link; cbn; split; congruence.
Qed.
Lemma nx_kind : forall b items, is_nxdata b && has "signal" b = true <-> kind true (Group b items).
Proof.
  intros b items. unfold is_nxdata, has, kind. rewrite andb_true_iff. split.
  - intros [H1 H2]. destruct (lookup (str "NX_class") b) as [[fx s| | |]|] eqn:E; try discriminate. apply eqb_str_spec in H1. subst s.
    destruct (lookup (str "signal") b) as [c|] eqn:F; [|discriminate]. exists b, items, fx, c. auto.
  - intros (b' & i' & fx & c & E & N & S). injection E as <- <-. rewrite N, S, eqb_str_refl. auto.
Qed.
Lemma data_kind : forall b c, (2 <=? size c) && numeric c = true <-> kind false (Data b c).
Proof.
  intros b c. unfold kind. rewrite andb_true_iff, Z.leb_le. split.
  - intros [H1 H2]. exists b, c. repeat split; try assumption; intros ? ->; discriminate.
  - intros (b' & c' & E & H & T1 & T2). injection E as <- <-. split; [exact H|]. destruct c as [[|] s|[|] l| |]; try reflexivity; [destruct (T1 s)|destruct (T2 l)]; reflexivity.
Qed.
Definition here (hard : bool) (a : attributes) (link : option pystr) (rootkey : pystr) (value : node) : res (list found) :=
  match value with
  | Group b _ =>
      let! target := get_link a link rootkey in
      let nx := if is_nxdata b && has "signal" b then [(true, rootkey, is_none target)] else [] in
      let! deep := if negb hard || is_none target then find_tree hard rootkey value else Ok [] in
      Ok (nx ++ deep)
  | Data _ c =>
      if 2 <=? size c then
        let! target := get_link a link rootkey in
        Ok (if numeric c then [(false, rootkey, is_none target)] else [])
      else Ok []
  end.
Lemma find_cons : forall hard root a k link m items,
  find_tree hard root (Group a ((k, (link, m)) :: items)) =
  (let! h := here hard a link (root ++ slash ++ k) m in let! r := find_tree hard root (Group a items) in Ok (h ++ r)).
Proof. reflexivity. Qed.
Lemma found_list : forall (x y : found) b, In x (if b : bool then [y] else []) <-> b = true /\ x = y.
Proof. intros x y [|]; cbn; split; [intros [->|[]]; auto|intros [_ ->]; auto|intros []|intros [K _]; discriminate]. Qed.
Lemma prefix_slash : forall pre k, name_ok k -> exists p, p <> [] /\ path_of (pre ++ [k]) = slash ++ p.
Proof.
  intros pre k [N _]. rewrite path_snoc. destruct pre as [|x pre].
  - exists k. split; [exact N|reflexivity].
  - exists (x ++ path_of pre ++ slash ++ k). split; [destruct x; [destruct (path_of pre)|]; discriminate|]. unfold path_of. cbn [map List.concat]. rewrite <- !app_assoc. reflexivity.
Qed.
(** What is found is what is there. *)
Theorem C119_found : forall hard n pre l, tidy n -> find_tree hard (path_of pre) n = Ok l ->
  forall nx p u, In (nx, p, u) l <-> exists names, shows hard pre n nx names u /\ p = path_of names.
Proof.
  intros hard. induction n as [b c|a items IH] using node_deep; intros pre l T H nx p u.
  - injection H as <-. split; [intros []|]. intros (names & S & _). inversion S.
  - inversion T as [|a' i' ND TI]; subst. clear T. revert l H. assert (Sub : incl items items) by (intros x Hx; exact Hx). revert Sub. generalize items at 1 3 4. intros sub.
    induction sub as [|[k [link m]] sub IHs]; intros Sub l H.
    + injection H as <-. split; [intros []|]. intros (names & S & _). inversion S; contradiction.
    + rewrite find_cons in H. apply bind_ok in H. destruct H as (h & Hh & H). apply bind_ok in H. destruct H as (r & Hr & H). injection H as <-.
      assert (I0 : In (k, (link, m)) items) by (apply Sub; left; reflexivity). destruct (TI _ _ _ I0) as [Nk Tm].
      specialize (IHs (fun x Hx => Sub x (or_intror Hx)) r Hr). rewrite in_app_iff, IHs. clear IHs.
      rewrite <- path_snoc in Hh. destruct (prefix_slash pre k Nk) as (q & Nq & Eq).
      assert (Here : In (nx, p, u) h <-> (p = path_of (pre ++ [k]) /\ kind nx m /\ (u = true <-> own a link (path_of (pre ++ [k]))))
                                       \/ ((hard = true -> own a link (path_of (pre ++ [k]))) /\ exists names, shows hard (pre ++ [k]) m nx names u /\ p = path_of names)).
      { unfold here in Hh. destruct m as [b mi|b c].
        - apply bind_ok in Hh. destruct Hh as (t & Ht & Hh). apply bind_ok in Hh. destruct Hh as (d & Hd & Hh). injection Hh as <-.
          rewrite Eq in Ht. pose proof (get_link_spec _ _ _ _ Nq Ht) as G. rewrite <- Eq in G. rewrite in_app_iff, found_list, (nx_kind b mi).
          assert (Deep : In (nx, p, u) d <-> (hard = true -> own a link (path_of (pre ++ [k]))) /\ exists names, shows hard (pre ++ [k]) (Group b mi) nx names u /\ p = path_of names).
          { destruct (negb hard || is_none t) eqn:Go.
            - rewrite (IH _ _ _ I0 _ _ Tm Hd). split; [intros X; split; [|exact X]|intros [_ X]; exact X]. intros ->. cbn [negb orb] in Go. apply G. exact Go.
            - injection Hd as <-. apply orb_false_iff in Go. destruct Go as [G1 G2]. split; [intros []|]. intros [X _]. destruct hard; [|discriminate].
              specialize (X eq_refl). apply G in X. congruence. }
          rewrite Deep. split; (intros [X|X]; [left|right; exact X]).
          + destruct X as [K X]. injection X as -> -> ->. split; [reflexivity|]. split; [exact K|exact G].
          + destruct X as (-> & K & U). assert (nx = true) by (destruct nx; [reflexivity|]; destruct K as (? & ? & K & _); discriminate). subst nx.
            split; [exact K|]. f_equal. destruct u, (is_none t); try reflexivity; exfalso; [|]; intuition congruence.
        - assert (NoD : ~ exists names, shows hard (pre ++ [k]) (Data b c) nx names u /\ p = path_of names) by (intros (names & S & _); inversion S).
          assert (E : In (nx, p, u) h <-> p = path_of (pre ++ [k]) /\ kind nx (Data b c) /\ (u = true <-> own a link (path_of (pre ++ [k])))); [|rewrite E; intuition].
          assert (F : kind nx (Data b c) <-> nx = false /\ (2 <=? size c) && numeric c = true).
          { destruct nx; [split; [intros (? & ? & ? & ? & K & _); discriminate|intros [K _]; discriminate]|]. rewrite <- data_kind. intuition. }
          rewrite F. destruct (2 <=? size c) eqn:Z2; cbn [andb].
          + apply bind_ok in Hh. destruct Hh as (t & Ht & Hh). injection Hh as <-. rewrite Eq in Ht. pose proof (get_link_spec _ _ _ _ Nq Ht) as G. rewrite <- Eq in G.
            rewrite found_list. split.
            * intros [K X]. injection X as -> -> ->. intuition.
            * intros (-> & (-> & K) & U). split; [exact K|]. f_equal. destruct u, (is_none t); try reflexivity; exfalso; intuition congruence.
          + injection Hh as <-. split; [intros []|]. intros (_ & (_ & K) & _). discriminate. }
      rewrite Here. split.
      * intros [[(-> & K & U)|(K & names & S & ->)]|(names & S & ->)].
        -- exists (pre ++ [k]). split; [|reflexivity]. eapply shows_here; [left; reflexivity|exact K|exact U].
        -- exists names. split; [|reflexivity]. eapply shows_deep; [left; reflexivity|exact K|exact S].
        -- exists names. split; [|reflexivity]. inversion S; subst; [eapply shows_here|eapply shows_deep]; try (right; eassumption); eassumption.
      * intros (names & S & ->). inversion S as [? ? ? k' link' m' ? ? I K U|? ? ? k' link' m' ? ? ? I K U]; subst; destruct I as [I|I].
        -- injection I as <- <- <-. left. left. auto.
        -- right. eexists. split; [eapply shows_here; eassumption|reflexivity].
        -- injection I as <- <- <-. left. right. split; [exact K|]. eauto.
        -- right. eexists. split; [eapply shows_deep; eassumption|reflexivity].
Qed.
(** Nothing goes wrong while searching unless a target is not a text. *)
Inductive targets : node -> Prop :=
| targets_data : forall a c, targets (Data a c)
| targets_group : forall a items, (forall c, lookup (str "target") a = Some c -> exists t, parse_attr c = MText t) ->
    (forall k link m, In (k, (link, m)) items -> targets m) -> targets (Group a items).
Theorem C119_total : forall hard n root, targets n -> exists l, find_tree hard root n = Ok l.
Proof.
  intros hard. induction n as [b c|a items IH] using node_deep; intros root T; [exists []; reflexivity|].
  inversion T as [|a' i' TA TI]; subst. clear T.
  assert (GL : forall link k, exists t, get_link a link k = Ok t).
  { intros link k. unfold get_link. destruct (eqb_str k slash); [eauto|]. destruct (lookup (str "target") a) as [c|]; [|eauto].
    destruct (TA c eq_refl) as [t ->]. eauto. }
  induction items as [|[k [link m]] items IHi]; [exists []; reflexivity|]. rewrite find_cons.
  destruct IHi as [r Er]; [intros; eapply IH; [right; eassumption|assumption]|intros; eapply TI; right; eassumption|].
  assert (Hh : exists h, here hard a link (root ++ slash ++ k) m = Ok h).
  { unfold here. destruct (GL link (root ++ slash ++ k)) as [t ->]. cbn [bind]. destruct m as [b mi|b c].
    - destruct (negb hard || is_none t); [|eexists; reflexivity]. destruct (IH k link _ (or_introl eq_refl) (root ++ slash ++ k) (TI _ _ _ (or_introl eq_refl))) as [d ->]. eexists. reflexivity.
    - destruct (2 <=? size c); eexists; reflexivity. }
  destruct Hh as [h ->]. cbn [bind]. rewrite Er. eexists. reflexivity.
Qed.

(** * Selection *)
Lemma paths_in : forall nx hard l p, In p (paths nx hard l) <-> exists u, In (nx, p, u) l /\ (hard = true -> u = true).
Proof.
  intros nx hard l p. unfold paths. rewrite in_map_iff. split.
  - intros ([[nx' p'] u] & E & H). apply filter_In in H. cbn [fst snd] in *. subst p'. destruct H as [H K]. apply andb_true_iff in K. destruct K as [K1 K2].
    apply eqb_prop in K1. subst nx'. exists u. split; [exact H|]. intros ->. cbn [negb] in K2. rewrite orb_false_r in K2. exact K2.
  - intros (u & H & K). exists (nx, p, u). split; [reflexivity|]. apply filter_In. split; [exact H|]. cbn [fst snd]. rewrite eqb_reflx. destruct hard; [rewrite (K eq_refl); reflexivity|].
    rewrite orb_true_r. reflexivity.
Qed.
Lemma select_in : forall keys absolute l p, In p (select keys absolute l) <->
  In p l /\ ((keys = None /\ absolute = None) \/ (exists a, absolute = Some a /\ In p a) \/ (exists ks s, keys = Some ks /\ In s ks /\ occurs s p)).
Proof.
  intros keys absolute l p.
  assert (A : In p (as_set (filter (fun j => match absolute with Some q => existsb (fun s => eqb_str s j) q | None => false end) l ++
              filter (fun j => match keys with Some k => existsb (fun s => contains s j) k | None => false end) l)) <->
              In p l /\ ((exists a, absolute = Some a /\ In p a) \/ (exists ks s, keys = Some ks /\ In s ks /\ occurs s p))).
  { unfold as_set. rewrite nodup_In, in_app_iff, !filter_In. split.
    - intros [[H K]|[H K]]; (split; [exact H|]).
      + left. destruct absolute as [a|]; [|discriminate]. apply existsb_exists in K. destruct K as (s & K & E). apply eqb_str_spec in E. subst s. eauto.
      + right. destruct keys as [ks|]; [|discriminate]. apply existsb_exists in K. destruct K as (s & K & E). apply contains_spec in E. eauto.
    - intros (H & [(a & -> & K)|(ks & s & -> & K & E)]); [left|right]; (split; [exact H|]); apply existsb_exists.
      + exists p. split; [exact K|apply eqb_str_refl].
      + exists s. split; [exact K|apply contains_spec; exact E]. }
  unfold select. destruct keys as [ks|], absolute as [a|]; try (rewrite A; intuition congruence). split; [auto|]. intros [H _]. exact H.
Qed.
(** The paths given back: those in the file, of their kind, which match; each one once when something is asked for. *)
Theorem C119_data : forall root keys hard absolute nxs hdfs, tidy root -> find_data root keys hard absolute = Ok (nxs, hdfs) ->
  forall nx p, In p (if nx : bool then nxs else hdfs) <->
    (exists names u, shows hard [] root nx names u /\ p = path_of names /\ (hard = true -> u = true)) /\
    ((keys = None /\ absolute = None) \/ (exists a, absolute = Some a /\ In p a) \/ (exists ks s, keys = Some ks /\ In s ks /\ occurs s p)).
Proof.
  intros root keys hard absolute nxs hdfs T H nx p. unfold find_data in H. apply bind_ok in H. destruct H as (l & Hl & H). injection H as <- <-.
  pose proof (C119_found hard root [] l T Hl) as F.
  assert (E : In p (paths nx hard l) <-> exists names u, shows hard [] root nx names u /\ p = path_of names /\ (hard = true -> u = true)).
  { rewrite paths_in. split.
    - intros (u & I & K). apply F in I. destruct I as (names & S & ->). eauto.
    - intros (names & u & S & -> & K). exists u. split; [|exact K]. apply F. eauto. }
  destruct nx; rewrite select_in, E; reflexivity.
Qed.
Theorem C119_once : forall root keys hard absolute nxs hdfs, find_data root keys hard absolute = Ok (nxs, hdfs) -> (keys <> None \/ absolute <> None) -> NoDup nxs /\ NoDup hdfs.
Proof.
  intros root keys hard absolute nxs hdfs H K. unfold find_data in H. apply bind_ok in H. destruct H as (l & Hl & H). injection H as <- <-.
  assert (N : forall l, NoDup (select keys absolute l)) by (intros w; unfold select; destruct keys, absolute; try apply NoDup_nodup; destruct K; congruence). auto.
Qed.
Theorem C119_keys : forall k, check_keys k = Err ValueError <-> k = KOther.
Proof. intros [| | |]; cbn; split; congruence. Qed.
Theorem C119_key : forall k r, check_keys k = Ok r -> (r = None <-> k = KNone) /\ (forall s, k = KText s -> r = Some [s]) /\ (forall l, k = KTexts l -> r = Some l).
Proof. intros [|s|l|] r H; injection H as <- || discriminate; repeat split; intros; congruence. Qed.

(** * From a path to the thing *)
Lemma split_path : forall names, names <> [] -> Forall name_ok names -> text_split (path_of names) [47] = names.
Proof.
  assert (L : forall names, Forall name_ok names -> split_char 47 (path_of names) = [] :: names).
  { induction names as [|k names IH]; intros H; [reflexivity|]. inversion H as [|? ? Hk Hn]; subst. unfold path_of. cbn [map List.concat]. unfold slash. cbn [app split_char]. rewrite Z.eqb_refl. f_equal.
    specialize (IH Hn). change (split_char 47 (k ++ path_of names) = k :: names).
    destruct names as [|k' names].
    - unfold path_of. cbn [map List.concat]. rewrite app_nil_r. apply split_char_nosep. apply Hk.
    - assert (E : path_of (k' :: names) = 47 :: k' ++ path_of names) by reflexivity. rewrite E in IH |- *. rewrite split_char_app by apply Hk. f_equal.
      cbn [split_char] in IH. rewrite Z.eqb_refl in IH. injection IH as IH. exact IH. }
  intros names N H. unfold text_split. cbn [fold_left map List.concat]. rewrite app_nil_r, (L _ H). reflexivity.
Qed.
(** names on the way down *)
Inductive at_names : node -> list pystr -> node -> Prop :=
| at_here : forall n, at_names n [] n
| at_below : forall a items k link m names n, In (k, (link, m)) items -> at_names m names n -> at_names (Group a items) (k :: names) n.
Theorem C119_fetch : forall names root n, tidy root -> names <> [] -> at_names root names n -> fetch root (path_of names) = Ok n.
Proof.
  assert (G : forall names root n, tidy root -> at_names root names n -> get names root = Ok n /\ Forall name_ok names).
  { induction names as [|k names IH]; intros root n T A; inversion A as [|a items ? link m ? ? I A']; subst; [split; [reflexivity|constructor]|].
    inversion T as [|? ? ND TI]; subst. destruct (TI _ _ _ I) as [Nk Tm]. cbn [get]. rewrite (lookup_in _ _ _ _ ND I).
    destruct (IH _ _ Tm A') as [E F]. split; [exact E|constructor; assumption]. }
  intros names root n T N A. destruct (G _ _ _ T A) as [E F]. unfold fetch. rewrite split_path by assumption. exact E.
Qed.
Lemma shows_at : forall hard pre n nx names u, shows hard pre n nx names u -> exists rest m, names = pre ++ rest /\ rest <> [] /\ at_names n rest m /\ kind nx m.
Proof.
  intros hard pre n nx names u H. induction H as [pre a items k link m nx u I K U|pre a items k link m nx names u I K S IH].
  - exists [k], m. repeat split; try assumption; [discriminate|]. eapply at_below; [exact I|constructor].
  - destruct IH as (rest & m' & -> & N & A & K'). exists (k :: rest), m'. rewrite <- app_assoc. repeat split; try assumption; [discriminate|]. eapply at_below; eassumption.
Qed.
(** The title is the last name, the entry is the first one. *)
Theorem C119_title : forall root names n, tidy root -> names <> [] -> at_names root names n -> last_part (path_of names) = last names [] /\ hd [] (text_split (path_of names) [47]) = hd [] names.
Proof.
  assert (G : forall names root n, tidy root -> at_names root names n -> Forall name_ok names).
  { induction names as [|k names IH]; intros root n T A; inversion A as [|a items ? link m ? ? I A']; subst; constructor.
    - inversion T as [|? ? ND TI]; subst. apply (TI _ _ _ I).
    - inversion T as [|? ? ND TI]; subst. eapply IH; [apply (TI _ _ _ I)|exact A']. }
  intros root names n T N A. unfold last_part. rewrite split_path; [auto|exact N|]. eapply G; eassumption.
Qed.
Print Assumptions C119_found.
Print Assumptions C119_total.
Print Assumptions C119_data.
Print Assumptions C119_once.
Print Assumptions C119_keys.
Print Assumptions C119_key.
Print Assumptions C119_fetch.
Print Assumptions C119_title.
