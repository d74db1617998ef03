(** Property C93: metadata of Jobin Yvon files. *)
From Coq Require Import QArith.
From Verif Require Import Base Text HierModel HierProps HierProof Dict SfsModel RowMajor XmlModel JyModel JyData.
Local Open Scope Z_scope.

(** * Specification *)
Definition KEY := "0x6D6D616E"%string.
Definition FIRST := "0x7D6C61DB"%string.
Definition SECOND := "0x8736F70"%string.
(** An entry: its key, and its first and second text *)
Definition is_entry (e : xml) (k : pystr) (v1 v2 : option pystr) : Prop :=
  Forall has_id (x_children e) /\ text_of KEY (x_children e) = Some k /\ text_of FIRST (x_children e) = v1 /\ text_of SECOND (x_children e) = v2.
Definition entries_of (e : xml) (l : list (pystr * (option pystr * option pystr))) : Prop := Forall2 (fun c kv => is_entry c (fst kv) (fst (snd kv)) (snd (snd kv))) (x_children e) l.
(** Entries for which the second text is used; entries that are numbers *)
Definition deg (s : string) : pystr := str s ++ [176].
Definition mic (s : string) : pystr := str s ++ [181] ++ str "m)".
Definition seconds : list pystr := map str ["Laser (nm)"; "Spectro (nm)"; "ND Filter"; "Grating"; "Objective"]%string.
Definition numeric : list pystr :=
  map str ["Windows"; "rotation angle (rad)"; "Full time(s)"; "Hole"; "Spectro (nm)"; "Laser (nm)"; "ND Filter"; "Grating"; "Objective"; "Binning"; "Delay time (s)"; "Accumulations"; "Acq. time (s)"]%string ++
  [deg "Laser Pol. (" ++ str ")"; deg "Raman Pol. (" ++ str ")"; deg "Detector temperature (" ++ str "C)"; mic "X ("; mic "Y ("; mic "Z ("].
Definition chosen (k : pystr) (v : value) (t : option pystr) : Prop :=
  match v with
  | Pair v1 v2 => (In k seconds /\ (exists s, v2 = Some s /\ t = Some s)) \/ (~ (In k seconds /\ v2 <> None) /\ t = v1)
  | Text s => t = Some s
  | Num _ => False
  end.
(** What an entry ends as *)
Definition ends_as (float : pystr -> option Q) (k : pystr) (v w : value) : Prop :=
  exists t, chosen k v t /\
  ((In k numeric /\ exists s q, t = Some s /\ s <> [] /\ float s = Some q /\ w = Num q) \/ (~ In k numeric /\ ((exists s, t = Some s /\ w = Text s) \/ t = None /\ v = Pair None None /\ w = v))).
Definition cleaned (float : pystr -> option Q) (d d' : dict) : Prop := Forall2 (fun a b => fst a = fst b /\ ends_as float (fst a) (snd a) (snd b)) d d'.
(** Entries of dates and files are texts *)
Definition plain_entry (a b : pystr * value) : Prop := fst a = fst b /\ ((exists s v2, snd a = Pair (Some s) v2 /\ snd b = Text s) \/ snd a = Pair None None /\ snd b = snd a).

(** * Entries *)
Definition entry_step := fun (st : option pystr * (option pystr * option pystr)) c2 =>
    let '(key, (v1, v2)) := st in
    let! id := get_id c2 in
    let key := if is_id id "0x6D6D616E" then Some (x_text c2) else key in
    let v1 := if is_id id "0x7D6C61DB" then Some (x_text c2) else v1 in
    let v2 := if is_id id "0x8736F70" then Some (x_text c2) else v2 in
    Ok (key, (v1, v2)).
Lemma entry_fold : forall l k, Forall has_id l -> foldM entry_step (k, (None, None)) l = Ok (match text_of KEY l with Some s => Some s | None => k end, (text_of FIRST l, text_of SECOND l)).
Proof.
  intros l k. induction l as [|c l IH] using rev_ind; intro H; [reflexivity|]. apply Forall_app in H. destruct H as [H HC]. inversion HC as [|? ? C _]; subst. rewrite foldM_snoc, IH by exact H. cbn [bind]. unfold entry_step. destruct (id_read c C) as (s & G & I). rewrite G. cbn [bind]. rewrite (I "0x6D6D616E"%string), (I "0x7D6C61DB"%string), (I "0x8736F70"%string). rewrite (text_snoc KEY), (text_snoc FIRST), (text_snoc SECOND). unfold KEY. destruct (marked "0x6D6D616E" c); reflexivity.
Qed.
Definition pair_of (kv : pystr * (option pystr * option pystr)) : pystr * value := (fst kv, Pair (fst (snd kv)) (snd (snd kv))).
Definition values_step := fun (st : option pystr * dict) c =>
    let '(key, d) := st in
    let! kv := entry_values key c in
    let '(key, (v1, v2)) := kv in
    match key with Some k => Ok (key, put k (Pair v1 v2) d) | None => Err NameError end.
Lemma values_fold : forall es l k d, Forall2 (fun c kv => is_entry c (fst kv) (fst (snd kv)) (snd (snd kv))) es l -> NoDup (map fst d ++ map fst l) -> exists k', foldM values_step (k, d) es = Ok (k', d ++ map pair_of l).
Proof.
  intros es l k d F. revert k d. induction F as [|e kv es l (H & K & V1 & V2) F IH]; intros k d N; [exists k; cbn; rewrite app_nil_r; reflexivity|].
  cbn [foldM]. unfold values_step at 1. unfold entry_values. change (foldM _ (k, (None, None)) (x_children e)) with (foldM entry_step (k, (None, None)) (x_children e)). rewrite entry_fold by exact H. rewrite K, V1, V2. cbn [bind]. cbn [map] in N. rewrite put_fresh by (intro I; apply NoDup_remove_2 in N; apply N; apply in_or_app; left; exact I). destruct (IH (Some (fst kv)) (d ++ [pair_of kv])) as (k' & E); [rewrite map_app; cbn [map]; rewrite <- app_assoc; exact N|]. exists k'. unfold pair_of in E at 1. rewrite E. rewrite <- app_assoc. reflexivity.
Qed.
Theorem C93_entries : forall e l, entries_of e l -> NoDup (map fst l) -> metadata_values e = Ok (map pair_of l).
Proof. intros e l H N. unfold metadata_values. change (foldM _ (None, []) (x_children e)) with (foldM values_step (None, []) (x_children e)). destruct (values_fold (x_children e) l None [] H N) as (k & E). rewrite E. reflexivity. Qed.
(** An entry without key replaces the values of the one before *)
Theorem C93_key_refuted : forall e a b k v1 v2, x_children e = [a; b] -> is_entry a k v1 v2 -> Forall has_id (x_children b) -> text_of KEY (x_children b) = None ->
  metadata_values e = Ok [(k, Pair (text_of FIRST (x_children b)) (text_of SECOND (x_children b)))].
Proof.
  intros e a b k v1 v2 E (H & K & V1 & V2) HB KB. unfold metadata_values. rewrite E. change (foldM _ (None, []) [a; b]) with (foldM values_step (None, []) [a; b]). cbn [foldM]. unfold values_step at 1, entry_values. change (foldM _ (None, (None, None)) (x_children a)) with (foldM entry_step (None, (None, None)) (x_children a)). rewrite entry_fold by exact H. rewrite K. cbn [bind put]. unfold values_step, entry_values. change (foldM _ (Some k, (None, None)) (x_children b)) with (foldM entry_step (Some k, (None, None)) (x_children b)). rewrite entry_fold by exact HB. rewrite KB. cbn [bind snd put]. rewrite eqb_str_refl. reflexivity.
Qed.
(** An entry without key that is the first one has no name *)
Theorem C93_no_key_refuted : forall e a l, x_children e = a :: l -> Forall has_id (x_children a) -> text_of KEY (x_children a) = None -> metadata_values e = Err NameError.
Proof.
  intros e a l E H K. unfold metadata_values. rewrite E. change (foldM _ (None, []) (a :: l)) with (foldM values_step (None, []) (a :: l)). cbn [foldM]. unfold values_step at 1, entry_values. change (foldM _ (None, (None, None)) (x_children a)) with (foldM entry_step (None, (None, None)) (x_children a)). rewrite entry_fold by exact H. rewrite K. reflexivity.
Qed.

(** * Clean up *)
Definition at1 (k : pystr) (h : value -> value) (kv : pystr * value) : pystr * value := if eqb_str (fst kv) k then (fst kv, h (snd kv)) else kv.
Definition mem (k : pystr) (ks : list pystr) : bool := existsb (eqb_str k) ks.
Definition at_all (ks : list pystr) (h : value -> value) (kv : pystr * value) : pystr * value := if mem (fst kv) ks then (fst kv, h (snd kv)) else kv.
Lemma mem_in : forall k ks, mem k ks = true <-> In k ks.
Proof. intros k ks. unfold mem. rewrite existsb_exists. split; [intros (x & H & E); apply eqb_str_spec in E; subst x; exact H|intro H; exists k; split; [exact H|apply eqb_str_refl]]. Qed.
Lemma at1_other : forall k h (d : dict), lookup k d = None -> map (at1 k h) d = d.
Proof.
  intros k h d. induction d as [|[k' v] d IH]; intro L; [reflexivity|]. cbn [lookup fst snd] in L. cbn [map]. unfold at1 at 1. cbn [fst]. destruct (eqb_str k' k) eqn:E; [apply eqb_str_spec in E; subst k'; rewrite eqb_str_refl in L; discriminate L|]. destruct (eqb_str k k') eqn:E'; [apply eqb_str_spec in E'; subst k'; rewrite eqb_str_refl in E; discriminate E|]. rewrite IH by exact L. reflexivity.
Qed.
Lemma fresh_lookup : forall k (d : dict), ~ In k (map fst d) -> lookup k d = None.
Proof. intros k d H. apply HierProof.lookup_none. exact H. Qed.
Lemma put_at1 : forall k h (d : dict) v, NoDup (map fst d) -> lookup k d = Some v -> put k (h v) d = map (at1 k h) d.
Proof.
  intros k h d v. induction d as [|[k' v'] d IH]; intros N L; [discriminate L|]. inversion N as [|? ? N1 N2]; subst. cbn [fst] in N1. cbn [lookup fst snd] in L. cbn [put map]. unfold at1 at 1. cbn [fst snd].
  destruct (eqb_str k k') eqn:E.
  - apply eqb_str_spec in E. subst k'. rewrite eqb_str_refl. injection L as ->. rewrite at1_other by (apply fresh_lookup; exact N1). reflexivity.
  - destruct (eqb_str k' k) eqn:E'; [apply eqb_str_spec in E'; subst k'; rewrite eqb_str_refl in E; discriminate E|]. rewrite IH by assumption. reflexivity.
Qed.
Lemma put_same : forall k (d : dict) v, NoDup (map fst d) -> lookup k d = Some v -> put k v d = d.
Proof.
  intros k d v. induction d as [|[k' v'] d IH]; intros N L; [discriminate L|]. inversion N as [|? ? N1 N2]; subst. cbn [lookup fst snd] in L. cbn [put]. destruct (eqb_str k k') eqn:E; [apply eqb_str_spec in E; subst k'; injection L as ->; reflexivity|]. rewrite IH by assumption. reflexivity.
Qed.
Lemma at1_keys : forall k h (d : dict), map fst (map (at1 k h) d) = map fst d.
Proof. intros. rewrite map_map. apply map_ext. intros [k' v]. unfold at1. cbn [fst]. destruct (eqb_str k' k); reflexivity. Qed.
Lemma fold_at : forall (f : dict -> pystr -> res dict) (g : value -> res value) (h : value -> value),
  (forall d k, NoDup (map fst d) -> f d k = match lookup k d with None => Ok d | Some v => let! w := g v in Ok (put k w d) end) ->
  forall ks d, NoDup ks -> NoDup (map fst d) -> Forall (fun kv => In (fst kv) ks -> g (snd kv) = Ok (h (snd kv))) d -> foldM f d ks = Ok (map (at_all ks h) d).
Proof.
  intros f g h F ks. induction ks as [|k ks IH]; intros d K N A.
  - cbn [foldM]. f_equal. rewrite <- (map_id d) at 1. apply map_ext. intros [k v]. reflexivity.
  - inversion K as [|? ? K1 K2]; subst. cbn [foldM].
    assert (S : f d k = Ok (map (at1 k h) d)).
    { rewrite F by exact N. destruct (lookup k d) as [v|] eqn:L; [|rewrite at1_other by exact L; reflexivity]. rewrite Forall_forall in A. pose proof (A _ (Dict.lookup_some_in _ _ _ _ L) (or_introl eq_refl)) as G. cbn [snd] in G. rewrite G. cbn [bind]. rewrite (put_at1 k h d v N L). reflexivity. }
    rewrite S. cbn [bind]. rewrite IH; [|exact K2|rewrite at1_keys; exact N|].
    + f_equal. rewrite map_map. apply map_ext. intros [k' v]. unfold at_all, at1, mem. cbn [fst snd existsb]. destruct (eqb_str k' k) eqn:E; cbn [fst snd orb]; [|reflexivity]. apply eqb_str_spec in E. subst k'. destruct (existsb (eqb_str k) ks) eqn:M; [apply mem_in in M; contradiction|reflexivity].
    + rewrite Forall_map. rewrite Forall_forall in A |- *. intros [k' v] I J. unfold at1 in J |- *. cbn [fst snd] in *. destruct (eqb_str k' k) eqn:E; cbn [fst snd] in *; [apply eqb_str_spec in E; subst k'; contradiction|]. apply (A _ I). right. exact J.
Qed.
Definition second_h (v : value) : value := match v with Pair _ (Some s) => Text s | _ => v end.
Definition first_h (v : value) : value := match v with Pair (Some s) _ => Text s | _ => v end.
Lemma in_set : forall k (a b : list pystr), incl a b -> incl b a -> (In k a <-> In k b).
Proof. intros k a b H1 H2. split; auto. Qed.
Lemma all_in : forall a b : list pystr, forallb (fun k => mem k b) a = true -> incl a b.
Proof. intros a b H k I. rewrite forallb_forall in H. apply mem_in. apply H. exact I. Qed.
Lemma second_set : forall k, In k to_second <-> In k seconds.
Proof. intro k. apply in_set; apply all_in; reflexivity. Qed.
Lemma number_set : forall k, In k to_number <-> In k numeric.
Proof. intro k. apply in_set; apply all_in; reflexivity. Qed.
Fixpoint distinct (l : list pystr) : bool := match l with [] => true | x :: l' => negb (mem x l') && distinct l' end.
Lemma distinct_nodup : forall l, distinct l = true -> NoDup l.
Proof. induction l as [|x l IH]; intro H; [constructor|]. cbn [distinct] in H. apply andb_prop in H. destruct H as [H1 H2]. constructor; [intro I; apply mem_in in I; rewrite I in H1; discriminate H1|exact (IH H2)]. Qed.
Lemma at_keys : forall ks h (d : dict), map fst (map (at_all ks h) d) = map fst d.
Proof. intros. rewrite map_map. apply map_ext. intros [k' v]. unfold at_all. cbn [fst]. destruct (mem k' ks); reflexivity. Qed.
Definition not_set (v : value) : Prop := match v with Pair _ _ => True | _ => False end.
Lemma seconds_read : forall d, NoDup (map fst d) -> Forall (fun kv => In (fst kv) seconds -> not_set (snd kv)) d -> foldM use_second d to_second = Ok (map (at_all to_second second_h) d).
Proof.
  intros d N A. apply (fold_at use_second (fun v => match v with Pair _ (Some s) => Ok (Text s) | Pair _ None => Ok v | _ => Err TypeError end)).
  - intros d0 k N0. unfold use_second. destruct (lookup k d0) as [[v1 [s|]|s|q]|] eqn:L; cbn [bind]; try reflexivity. rewrite (put_same _ _ _ N0 L). reflexivity.
  - apply distinct_nodup. reflexivity.
  - exact N.
  - rewrite Forall_forall in *. intros kv I J. apply second_set in J. specialize (A _ I J). destruct (snd kv) as [v1 [s|]|s|q]; [reflexivity|reflexivity|contradiction|contradiction].
Qed.
Lemma firsts_read : forall d, Forall (fun kv => match snd kv with Pair None (Some _) => False | _ => True end) d -> use_first d = Ok (map (fun kv => (fst kv, first_h (snd kv))) d).
Proof.
  intros d A. unfold use_first. induction A as [|[k v] d H A IH]; [reflexivity|]. cbn [mapM map fst snd]. destruct v as [[s|] [s2|]|s|q]; cbn [snd] in H; try contradiction; cbn [bind first_h]; rewrite IH; reflexivity.
Qed.
Section Cleaning.
  Variable float : pystr -> option Q.
  Definition number_h (v : value) : value := match v with Text s => match float s with Some q => Num q | None => v end | _ => v end.
  Lemma numbers_read : forall d, NoDup (map fst d) -> Forall (fun kv => In (fst kv) numeric -> exists s q, snd kv = Text s /\ s <> [] /\ float s = Some q) d -> foldM (convert float) d to_number = Ok (map (at_all to_number number_h) d).
  Proof.
    intros d N A. apply (fold_at (convert float) (fun v => match v with Num _ => Ok v | Pair _ _ | Text [] => Err TypeError | Text s => match float s with Some q => Ok (Num q) | None => Err ValueError end end)).
    - intros d0 k N0. unfold convert. destruct (lookup k d0) as [[v1 v2|[|c s]|q]|] eqn:L; cbn [bind]; try reflexivity; [destruct (float (c :: s)); reflexivity|]. rewrite (put_same _ _ _ N0 L). reflexivity.
    - apply distinct_nodup. vm_compute. reflexivity.
    - exact N.
    - rewrite Forall_forall in *. intros kv I J. apply number_set in J. destruct (A _ I J) as (s & q & E & S & F). rewrite E. unfold number_h. rewrite F. destruct s; [contradiction|reflexivity].
  Qed.
  Definition renamed (d : dict) : dict := rename (str "ND Filter") (str "ND Filter (%)") (rename (str "Grating") (str "Grating (gr/mm)") d).
  Lemma stage : forall k v w, ends_as float k v w -> (In k seconds -> not_set v) ->
    snd (at_all to_number number_h (k, first_h (snd (at_all to_second second_h (k, v))))) = w /\ match snd (at_all to_second second_h (k, v)) with Pair None (Some _) => False | _ => True end /\
    (In k numeric -> exists s q, first_h (snd (at_all to_second second_h (k, v))) = Text s /\ s <> [] /\ float s = Some q).
  Proof.
    intros k v w (t & C & E) NS. set (u := snd (at_all to_second second_h (k, v))).
    assert (X : match t with Some s => first_h u = Text s /\ match u with Pair None (Some _) => False | _ => True end | None => v = Pair None None -> u = v end).
    { subst u. unfold at_all. cbn [fst snd]. destruct (mem k to_second) eqn:M.
      - apply mem_in in M. apply second_set in M. specialize (NS M). destruct v as [v1 v2|s|q]; try contradiction. cbn [snd chosen] in *. destruct C as [(_ & s & -> & ->)|(NE & ->)]; [split; [reflexivity|exact I]|]. destruct v2 as [s|]; [exfalso; apply NE; split; [exact M|discriminate]|]. destruct v1; cbn; auto.
      - assert (NM : ~ In k seconds) by (intro J; apply second_set in J; apply mem_in in J; rewrite J in M; discriminate M). cbn [snd]. destruct v as [v1 v2|s|q]; [|cbn in C; subst t; cbn; auto|contradiction]. cbn [chosen] in C. destruct C as [(J & _)|(NE & ->)]; [contradiction|]. destruct v1; cbn; auto. }
    clearbody u. unfold at_all. cbn [fst]. destruct E as [(NU & s & q & -> & S & F & ->)|(NN & E)].
    - destruct X as [X1 X2]. pose proof NU as M. apply number_set in M. apply mem_in in M. rewrite M. cbn [snd]. rewrite X1. unfold number_h. rewrite F. split; [reflexivity|]. split; [exact X2|]. intros _. exists s, q. auto.
    - assert (M : mem k to_number = false) by (apply not_true_is_false; intro M; apply mem_in in M; apply number_set in M; contradiction). rewrite M. cbn [snd]. split; [|split; [|contradiction]].
      + destruct E as [(s & -> & ->)|(-> & V & ->)]; [exact (proj1 X)|]. rewrite (X V), V. reflexivity.
      + destruct E as [(s & -> & _)|(-> & V & _)]; [exact (proj2 X)|]. rewrite (X V), V. exact I.
  Qed.
  Theorem C93_clean : forall date setup file date' setup' file', NoDup (map fst setup) -> Forall2 plain_entry date date' -> Forall2 plain_entry file file' -> cleaned float setup setup' -> Forall (fun kv => In (fst kv) seconds -> not_set (snd kv)) setup ->
    clean_up float date setup file = Ok {| o_date := date'; o_setup := renamed setup'; o_file := file' |}.
  Proof.
    intros date setup file date' setup' file' N D F C NS. unfold clean_up. rewrite seconds_read by assumption. cbn [bind].
    assert (P : forall a b, Forall2 plain_entry a b -> use_first a = Ok b).
    { intros a b H. rewrite firsts_read; [f_equal|]; induction H as [|[k v] [k' w] a b (K & V) H IH]; try reflexivity; try constructor; cbn [map fst snd] in *.
      - rewrite IH. f_equal. subst k'. f_equal. destruct V as [(s & v2 & -> & ->)|(-> & ->)]; reflexivity.
      - destruct V as [(s & v2 & -> & _)|(-> & _)]; exact I.
      - exact IH. }
    assert (S : forall kv, In kv setup -> exists w, ends_as float (fst kv) (snd kv) w).
    { clear -C. induction C as [|a b d d' (_ & E) C IH]; intros kv I; [destruct I|]. destruct I as [<-|I]; [exists (snd b); exact E|exact (IH _ I)]. }
    assert (ST : forall kv, In kv setup -> exists w, ends_as float (fst kv) (snd kv) w /\ (In (fst kv) seconds -> not_set (snd kv))).
    { intros kv I. destruct (S kv I) as (w & E). exists w. split; [exact E|]. rewrite Forall_forall in NS. exact (NS _ I). }
    rewrite firsts_read; [|rewrite Forall_map, Forall_forall; intros [k v] I; destruct (ST _ I) as (w & E & X); exact (proj1 (proj2 (stage _ _ _ E X)))]. cbn [bind]. rewrite (P _ _ D). cbn [bind]. rewrite (P _ _ F). cbn [bind].
    rewrite numbers_read.
    - cbn [bind]. f_equal. f_equal. unfold renamed. f_equal. f_equal. rewrite !map_map. clear -C NS. induction C as [|[k v] [k' w] d d' (K & E) C IH]; [reflexivity|]. inversion NS as [|? ? N1 N2]; subst. cbn [map]. rewrite (IH N2). f_equal. cbn [fst snd] in *. subst k'.
      assert (KK : fst (at_all to_second second_h (k, v)) = k) by (unfold at_all; cbn [fst]; destruct (mem k to_second); reflexivity). rewrite KK. rewrite (surjective_pairing (at_all to_number number_h _)). rewrite (proj1 (stage _ _ _ E N1)). f_equal. unfold at_all. cbn [fst]. destruct (mem k to_number); reflexivity.
    - rewrite !map_map. cbn [fst]. rewrite <- map_map with (f := at_all to_second second_h) (g := fst). rewrite at_keys. exact N.
    - rewrite map_map, Forall_map, Forall_forall. intros [k v] I. cbn [fst snd]. assert (KK : fst (at_all to_second second_h (k, v)) = k) by (unfold at_all; cbn [fst]; destruct (mem k to_second); reflexivity). rewrite KK. intro J. destruct (ST _ I) as (w & E & X). exact (proj2 (proj2 (stage _ _ _ E X)) J).
  Qed.
End Cleaning.

(** * Renamed entries *)
Definition one_of (a b : option value) : option value := match a with Some v => Some v | None => b end.
Lemma lookup_remove : forall k k' (d : dict), NoDup (map fst d) -> lookup k (remove k' d) = if eqb_str k k' then None else lookup k d.
Proof.
  intros k k' d. induction d as [|[q v] d IH]; intro N; [cbn; destruct (eqb_str k k'); reflexivity|]. inversion N as [|? ? N1 N2]; subst. cbn [remove]. destruct (eqb_str k' q) eqn:E.
  - apply eqb_str_spec in E. subst q. cbn [lookup fst snd]. destruct (eqb_str k k') eqn:E; [|reflexivity]. apply eqb_str_spec in E. subst k'. apply fresh_lookup. exact N1.
  - cbn [lookup fst snd]. rewrite IH by exact N2. destruct (eqb_str k q) eqn:F; [|reflexivity]. apply eqb_str_spec in F. subst q. destruct (eqb_str k k') eqn:G; [|reflexivity]. apply eqb_str_spec in G. subst k'. rewrite eqb_str_refl in E. discriminate E.
Qed.
Lemma remove_nodup : forall k (d : dict), NoDup (map fst d) -> NoDup (map fst (remove k d)) /\ incl (map fst (remove k d)) (map fst d).
Proof.
  intros k d. induction d as [|[q v] d IH]; intro N; [split; [exact N|apply incl_refl]|]. inversion N as [|? ? N1 N2]; subst. destruct (IH N2) as [A B]. cbn [remove]. destruct (eqb_str k q); [split; [exact N2|apply incl_tl; apply incl_refl]|]. cbn [map]. split; [constructor; [intro I; apply N1; apply B; exact I|exact A]|]. intros x [<-|I]; [left; reflexivity|right; apply B; exact I].
Qed.
Lemma put_nodup : forall k v (d : dict), NoDup (map fst d) -> NoDup (map fst (put k v d)).
Proof.
  intros k v d N. assert (G : NoDup (map fst (put k v d)) /\ forall x, In x (map fst (put k v d)) -> x = k \/ In x (map fst d)).
  { induction d as [|[q w] d IH]; [cbn; split; [constructor; [intros []|constructor]|intros x [<-|[]]; left; reflexivity]|]. inversion N as [|? ? N1 N2]; subst. destruct (IH N2) as [A B]. cbn [put]. destruct (eqb_str k q) eqn:E.
    - apply eqb_str_spec in E. subst q. split; [exact N|]. intros x I. right. exact I.
    - cbn [map fst]. split; [constructor; [|exact A]|intros x [<-|I]; [right; left; reflexivity|destruct (B _ I); [left; assumption|right; right; assumption]]]. intro I. destruct (B _ I) as [->|J]; [rewrite eqb_str_refl in E; discriminate E|exact (N1 J)]. }
  exact (proj1 G).
Qed.
Lemma rename_lookup : forall old new k (d : dict), NoDup (map fst d) -> eqb_str old new = false ->
  lookup k (rename old new d) = if eqb_str k new then one_of (lookup old d) (lookup new d) else if eqb_str k old then None else lookup k d.
Proof.
  intros old new k d N D. unfold rename. destruct (lookup old d) as [v|] eqn:L.
  - rewrite lookup_put, lookup_remove by exact N. reflexivity.
  - cbn [one_of]. destruct (eqb_str k new) eqn:E; [apply eqb_str_spec in E; subst k; reflexivity|]. destruct (eqb_str k old) eqn:F; [apply eqb_str_spec in F; subst k; exact L|reflexivity].
Qed.
Lemma rename_nodup : forall old new (d : dict), NoDup (map fst d) -> NoDup (map fst (rename old new d)).
Proof. intros old new d N. unfold rename. destruct (lookup old d); [|exact N]. apply put_nodup. apply remove_nodup. exact N. Qed.
Theorem C93_renamed : forall (d : dict), NoDup (map fst d) ->
  lookup (str "Grating (gr/mm)") (renamed d) = one_of (lookup (str "Grating") d) (lookup (str "Grating (gr/mm)") d) /\ lookup (str "ND Filter (%)") (renamed d) = one_of (lookup (str "ND Filter") d) (lookup (str "ND Filter (%)") d) /\
  lookup (str "Grating") (renamed d) = None /\ lookup (str "ND Filter") (renamed d) = None /\
  forall k, ~ In k (map str ["Grating"; "Grating (gr/mm)"; "ND Filter"; "ND Filter (%)"]%string) -> lookup k (renamed d) = lookup k d.
Proof.
  intros d N. unfold renamed. pose proof (rename_nodup (str "Grating") (str "Grating (gr/mm)") d N) as N1.
  split; [|split; [|split; [|split]]]; try (rewrite rename_lookup by (exact N1 || reflexivity); rewrite ?rename_lookup by (exact N || reflexivity); reflexivity).
  intros k I. rewrite rename_lookup by (exact N1 || reflexivity). rewrite !rename_lookup by (exact N || reflexivity).
  assert (X : forall s, In s (map str ["Grating"; "Grating (gr/mm)"; "ND Filter"; "ND Filter (%)"]%string) -> eqb_str k s = false) by (intros s J; apply not_true_is_false; intro E; apply eqb_str_spec in E; subst s; contradiction).
  rewrite !X by (cbn; tauto). reflexivity.
Qed.

(** * Whole original metadata *)
Definition opt_text (k : string) (v : option pystr) : dict := match v with Some s => [(str k, Text s)] | None => [] end.
Definition added (p : places) : dict := opt_text "measurement_type" (p_type p) ++ opt_text "title" (p_title p) ++ opt_text "rotation angle (rad)" (p_angle p).
Definition DATE := "0x7CECDBD7"%string.
Definition SETUP := "0x8716361"%string.
Definition FILE := "0x7C73E2D2"%string.
Lemma roots_fold : forall l, Forall has_id l -> foldM (fun (st : option xml * option xml * option xml) c => let '(date, setup, file) := st in let! id := get_id c in
          Ok (if is_id id "0x7CECDBD7" then Some c else date, if is_id id "0x8716361" then Some c else setup, if is_id id "0x7C73E2D2" then Some c else file)) (None, None, None) l = Ok (last_of DATE l, last_of SETUP l, last_of FILE l).
Proof.
  intro l. induction l as [|c l IH] using rev_ind; intro H; [reflexivity|]. apply Forall_app in H. destruct H as [H HC]. inversion HC as [|? ? C _]; subst. rewrite foldM_snoc, IH by exact H. cbn [bind]. destruct (id_read c C) as (s & G & I). rewrite G. cbn [bind]. rewrite !I. rewrite !last_snoc. reflexivity.
Qed.
Lemma set_text_app : forall k v (d : dict), (v <> None -> ~ In (str k) (map fst d)) -> set_text k v d = d ++ opt_text k v.
Proof. intros k [s|] d H; cbn; [apply put_fresh; apply H; discriminate|rewrite app_nil_r; reflexivity]. Qed.
Lemma nodup_left : forall (a b : list pystr), NoDup (a ++ b) -> forall x, In x b -> ~ In x a.
Proof. induction a as [|y a IH]; intros b N x I J; [destruct J|]. inversion N as [|? ? N1 N2]; subst. destruct J as [->|J]; [apply N1; apply in_or_app; right; exact I|exact (IH b N2 x I J)]. Qed.
Lemma nodup_front : forall (a b : list pystr), NoDup (a ++ b) -> NoDup a.
Proof. induction a as [|y a IH]; intros b N; [constructor|]. inversion N as [|? ? N1 N2]; subst. constructor; [intro I; apply N1; apply in_or_app; left; exact I|exact (IH b N2)]. Qed.
Theorem C93_original : forall float p m date setup file ld ls lf date' setup' file',
  p_metadata p = Some m -> Forall has_id (x_children m) -> last_of DATE (x_children m) = Some date -> last_of SETUP (x_children m) = Some setup -> last_of FILE (x_children m) = Some file ->
  entries_of date ld -> entries_of setup ls -> entries_of file lf -> NoDup (map fst ld) -> NoDup (map fst lf) -> NoDup (map fst ls ++ map fst (added p)) ->
  Forall2 plain_entry (map pair_of ld) date' -> Forall2 plain_entry (map pair_of lf) file' -> cleaned float (map pair_of ls ++ added p) setup' ->
  get_original float p = Ok {| o_date := date'; o_setup := renamed setup'; o_file := file' |}.
Proof.
  intros float p m date setup file ld ls lf date' setup' file' M H LD LS LF ED ES EF ND NF NS PD PF C. unfold get_original. rewrite M, roots_fold by exact H. cbn [bind]. rewrite LD, LS, LF. rewrite (C93_entries _ _ ED ND), (C93_entries _ _ EF NF), (C93_entries _ _ ES) by exact (nodup_front _ _ NS). cbn [bind].
  assert (KS : map fst (map pair_of ls) = map fst ls) by (rewrite map_map; reflexivity).
  assert (X : set_text "rotation angle (rad)" (p_angle p) (set_text "title" (p_title p) (set_text "measurement_type" (p_type p) (map pair_of ls))) = map pair_of ls ++ added p).
  { unfold added in *. rewrite !map_app, !app_assoc in NS. rewrite <- KS in NS. rewrite <- !map_app in NS.
    assert (A3 : set_text "measurement_type" (p_type p) (map pair_of ls) = map pair_of ls ++ opt_text "measurement_type" (p_type p)).
    { apply set_text_app. intro Y. destruct (p_type p) as [s|]; [|contradiction]. rewrite map_app in NS. apply nodup_front in NS. rewrite map_app in NS. apply nodup_front in NS. rewrite map_app in NS. apply (nodup_left _ _ NS). left. reflexivity. }
    rewrite A3. rewrite (set_text_app "title").
    2:{ intro Y. destruct (p_title p) as [s|]; [|contradiction]. rewrite map_app in NS. apply nodup_front in NS. rewrite map_app in NS. apply (nodup_left _ _ NS). left. reflexivity. }
    rewrite (set_text_app "rotation angle (rad)").
    2:{ intro Y. destruct (p_angle p) as [s|]; [|contradiction]. rewrite map_app in NS. apply (nodup_left _ _ NS). left. reflexivity. }
    rewrite <- !app_assoc. reflexivity. }
  rewrite X. apply C93_clean; [rewrite map_app, KS; exact NS|exact PD|exact PF|exact C|].
  apply Forall_app. split; [rewrite Forall_map, Forall_forall; intros kv _ _; exact I|]. unfold added, opt_text. rewrite Forall_forall. intros [k v] J. cbn [fst snd].
  assert (K : k = str "measurement_type" \/ k = str "title" \/ k = str "rotation angle (rad)").
  { apply in_app_or in J. destruct J as [J|J]; [|apply in_app_or in J; destruct J as [J|J]].
    - destruct (p_type p); [destruct J as [E|[]]; injection E as <- _; auto|destruct J].
    - destruct (p_title p); [destruct J as [E|[]]; injection E as <- _; auto|destruct J].
    - destruct (p_angle p); [destruct J as [E|[]]; injection E as <- _; auto|destruct J]. }
  intro S. exfalso. apply mem_in in S. destruct K as [-> |[-> | ->]]; vm_compute in S; discriminate S.
Qed.
(** A second text alone is an error, except for the five entries that use it *)
Theorem C93_second_refuted : forall float date setup file k s, In (k, Pair None (Some s)) date -> Forall (fun kv => not_set (snd kv)) setup -> NoDup (map fst setup) -> Forall (fun kv => match snd kv with Pair None (Some _) => In (fst kv) seconds | _ => True end) setup -> clean_up float date setup file = Err KeyError.
Proof.
  intros float date setup file k s I P N A. unfold clean_up. rewrite seconds_read; [|exact N|rewrite Forall_forall in P |- *; intros kv J _; exact (P _ J)]. cbn [bind]. rewrite firsts_read.
  - cbn [bind]. assert (E : use_first date = Err KeyError); [|rewrite E; reflexivity]. clear -I. unfold use_first. induction date as [|[q v] d IH]; [destruct I|]. cbn [mapM fst snd]. destruct I as [E|I]; [injection E as -> ->; reflexivity|]. destruct v as [[a|] [b|]|a|a]; cbn [bind]; try reflexivity; rewrite (IH I); reflexivity.
  - rewrite Forall_map. rewrite Forall_forall in *. intros [q v] J. unfold at_all. cbn [fst]. specialize (A _ J). cbn [fst snd] in *. destruct (mem q to_second) eqn:M; cbn [snd].
    + destruct v as [[a|] [b|]|a|a]; exact Logic.I.
    + destruct v as [[a|] [b|]|a|a]; try exact Logic.I. apply second_set in A. apply mem_in in A. rewrite A in M. discriminate M.
Qed.

(** * Metadata *)
Definition usable (v : option value) : option item := match v with None => None | Some (Text []) => None | Some v => Some (Given v) end.
Definition plain_table : list (string * pystr) :=
  map (fun pk : string * string => (fst pk, str (snd pk)))
  [ ("Detector.model", "Detector"); ("Detector.delay_time", "Delay time (s)"); ("Detector.binning", "Binning"); ("Detector.exposure_per_frame", "Acq. time (s)"); ("Detector.frames", "Accumulations");
    ("Detector.processing.autofocus", "Autofocus"); ("Detector.processing.swift", "SWIFT"); ("Detector.processing.auto_exposure", "AutoExposure"); ("Detector.processing.spike_filter", "Spike filter");
    ("Detector.processing.de_noise", "DeNoise"); ("Detector.processing.ics_correction", "ICS correction"); ("Detector.processing.dark_correction", "Dark correction"); ("Detector.processing.inst_process", "Inst. Process");
    ("Laser.wavelength", "Laser (nm)"); ("Laser.objective_magnification", "Objective"); ("Laser.Polarizer.polarizer_type", "Laser. Pol.");
    ("Spectrometer.central_wavelength", "Spectro (nm)"); ("Spectrometer.model", "Instrument"); ("Spectrometer.Grating.groove_density", "Grating (gr/mm)"); ("Spectrometer.spectral_range", "Range"); ("Spectrometer.Polarizer.polarizer_type", "Raman. Pol.") ]%string ++
  [("Laser.Polarizer.angle"%string, deg "Laser Pol. (" ++ str ")"); ("Spectrometer.Polarizer.angle"%string, deg "Raman Pol. (" ++ str ")"); ("Detector.temperature"%string, deg "Detector temperature (" ++ str "C)")].
(** Date and time of the acquisition *)
Definition acquired (d : dict) (date : option (pystr * pystr)) : Prop :=
  match date with
  | None => lookup (str "Acquired") d = None
  | Some (a, b) => lookup (str "Acquired") d = Some (Text (a ++ 32 :: b)) /\ ~ In 32 a /\ ~ In 32 b
  end.
Definition in_words (v : value) (from : list (string * string)) (s : pystr) : Prop :=
  match v with Text t => (exists a b, In (a, b) from /\ t = str a /\ s = str b) \/ ((forall a b, In (a, b) from -> t <> str a) /\ t <> [] /\ s = t) \/ (t = [] /\ s = str "None") | _ => s = str "{}" end.
Definition amount (d : dict) (q : option pystr) : Prop :=
  match lookup (str "signal type") d, lookup (str "signal units") d with
  | Some a, Some u => exists s t, in_words a [("Intens", "Intensity")]%string s /\ in_words u [("Cnt/sec", "Counts/s"); ("Cnt", "Counts")]%string t /\ q = Some (s ++ str " (" ++ t ++ str ")")
  | _, _ => q = None
  end.
Definition fixed_paths : list string := ["General.original_filename"; "General.title"; "General.notes"; "General.date"; "General.time"; "Sample.description"; "Signal.signal_dimension"; "Signal.quantity"; "Laser.Filter.optical_density"; "Spectrometer.entrance_slit_width"; "Spectrometer.pinhole";
  "Spectral_image.rotation_angle"; "Spectral_image.rotation_angle_units"; "Detector.glued_spectrum"; "Detector.glued_spectrum_windows"; "Detector.integration_time"]%string.
Definition entry_items (l : list (string * option item)) : list (pystr * item) := flat_map (fun pv => some_item (fst pv) (snd pv)) l.
Lemma some_in : forall path v k, In k (map fst (some_item path v)) -> k = str path.
Proof. intros path [i|] k H; [destruct H as [<-|[]]; reflexivity|destruct H]. Qed.
Lemma entry_keys : forall l k, In k (map fst (entry_items l)) -> In k (map (fun pv : string * option item => str (fst pv)) l).
Proof. induction l as [|pv l IH]; cbn [entry_items flat_map map]; [intros k []|]. intros k J. rewrite map_app in J. apply in_app_or in J. destruct J as [J|J]; [left; apply some_in in J; symmetry; exact J|right; exact (IH k J)]. Qed.
Lemma lookup_entry : forall l path v, NoDup (map (fun pv : string * option item => str (fst pv)) l) -> In (path, v) l -> lookup (str path) (entry_items l) = v.
Proof.
  induction l as [|[p w] l IH]; intros path v N I; [destruct I|]. inversion N as [|? ? N1 N2]; subst. cbn [entry_items flat_map fst snd]. rewrite lookup_app. destruct I as [E|I].
  - injection E as -> ->. destruct v as [i|]; cbn [some_item lookup fst snd]; [rewrite eqb_str_refl; reflexivity|]. apply HierProof.lookup_none. intro J. apply N1. apply entry_keys. exact J.
  - assert (X : lookup (str path) (some_item p w) = None).
    { apply HierProof.lookup_none. intro J. apply some_in in J. apply N1. cbn [fst]. rewrite <- J. change (str path) with (str (fst (path, v))). apply (in_map (fun pv : string * option item => str (fst pv))). exact I. }
    rewrite X. apply IH; assumption.
Qed.
Lemma words_read : forall v s, in_words v [("Intens", "Intensity")]%string s -> shown (if eqb_str (printed v) (str "Intens") then str "Intensity" else printed v) = s.
Proof.
  intros v s H. destruct v as [a b|t|q]; cbn [in_words printed] in *; [subst s; reflexivity| |subst s; reflexivity]. destruct H as [(a & b & [E|[]] & -> & ->)|[(N & T & ->)|(-> & ->)]]; [injection E as <- <-; reflexivity| |reflexivity].
  destruct (eqb_str t (str "Intens")) eqn:E; [apply eqb_str_spec in E; exfalso; exact (N _ _ (or_introl eq_refl) E)|]. destruct t; [contradiction|reflexivity].
Qed.
Lemma units_read : forall v s, in_words v [("Cnt/sec", "Counts/s"); ("Cnt", "Counts")]%string s ->
  shown (let u := if eqb_str (printed v) (str "Cnt/sec") then str "Counts/s" else printed v in if eqb_str u (str "Cnt") then str "Counts" else u) = s.
Proof.
  intros v s H. destruct v as [a b|t|q]; cbn [in_words printed] in *; [subst s; reflexivity| |subst s; reflexivity]. destruct H as [(a & b & [E|[E|[]]] & -> & ->)|[(N & T & ->)|(-> & ->)]]; [injection E as <- <-; reflexivity|injection E as <- <-; reflexivity| |reflexivity].
  destruct (eqb_str t (str "Cnt/sec")) eqn:E; [apply eqb_str_spec in E; exfalso; exact (N _ _ (or_introl eq_refl) E)|]. cbv zeta. destruct (eqb_str t (str "Cnt")) eqn:F; [apply eqb_str_spec in F; exfalso; exact (N _ _ (or_intror (or_introl eq_refl)) F)|]. destruct t; [contradiction|reflexivity].
Qed.
Lemma amount_read : forall d q, amount d q -> quantity d = match q with Some s => [(str "Signal.quantity", Const s)] | None => [] end.
Proof.
  intros d q H. unfold amount, quantity in *. destruct (lookup (str "signal type") d) as [a|]; [|subst q; reflexivity]. destruct (lookup (str "signal units") d) as [u|]; [|subst q; reflexivity]. destruct H as (s & t & S & T & ->). apply words_read in S. apply units_read in T. cbv zeta in T |- *. rewrite S, T. reflexivity.
Qed.
Lemma acquired_read : forall d date, acquired d date -> general_date d = Ok match date with Some (a, b) => [(str "General.date", Const a); (str "General.time", Const b)] | None => [] end.
Proof.
  intros d [[a b]|] H; cbn [acquired] in H; unfold general_date; [|rewrite H; reflexivity]. destruct H as (L & A & B). rewrite L. rewrite split_char_app by exact A. rewrite split_char_nosep by exact B. destruct a; reflexivity.
Qed.
Definition is_some {A} (v : option A) : bool := match v with Some _ => true | None => false end.
Definition product (a b : option value) : option Q := match a, b with Some (Num x), Some (Num y) => Some (x * y)%Q | _, _ => None end.
Definition table (name title : pystr) (o : original) (date : option (pystr * pystr)) (q : option pystr) (od slit : Q) : list (string * option item) :=
  [("Sample.description"%string, given (o_file o) (str "Sample")); ("General.title"%string, const title); ("General.original_filename"%string, Some (Const name)); ("General.notes"%string, given (o_file o) (str "Remark"));
   ("General.date"%string, option_map (fun d => Const (fst d)) date); ("General.time"%string, option_map (fun d => Const (snd d)) date); ("Signal.signal_dimension"%string, Some (Whole 1)); ("Signal.quantity"%string, option_map Const q)] ++
  map (fun pk : string * pystr => (fst pk, given (o_setup o) (snd pk))) plain_items ++
  [("Laser.Filter.optical_density"%string, Some (Exact od)); ("Spectrometer.entrance_slit_width"%string, Some (Exact slit)); ("Spectrometer.pinhole"%string, Some (Exact slit));
   ("Spectral_image.rotation_angle"%string, option_map Given (lookup (str "rotation angle (rad)") (o_setup o))); ("Spectral_image.rotation_angle_units"%string, option_map (fun _ => Const [176]) (lookup (str "rotation angle (rad)") (o_setup o)));
   ("Detector.glued_spectrum"%string, Some (Flag (is_some (lookup (str "Windows") (o_setup o))))); ("Detector.glued_spectrum_windows"%string, option_map Given (lookup (str "Windows") (o_setup o)));
   ("Detector.integration_time"%string, option_map Exact (product (lookup (str "Accumulations") (o_setup o)) (lookup (str "Acq. time (s)") (o_setup o))))].
Definition pieces name title o date q od slit := entry_items (table name title o date q od slit).
Lemma entry_app : forall a b, entry_items (a ++ b) = entry_items a ++ entry_items b.
Proof. intros. unfold entry_items. apply flat_map_app. Qed.
Lemma entry_map : forall (d : dict) l, entry_items (map (fun pk : string * pystr => (fst pk, given d (snd pk))) l) = flat_map (fun pk => some_item (fst pk) (given d (snd pk))) l.
Proof. intros d l. induction l as [|pk l IH]; [reflexivity|]. cbn [map flat_map]. rewrite <- IH. reflexivity. Qed.
Lemma pieces_read : forall name p o title date q od slit, p_title p = Some title -> acquired (o_date o) date -> amount (o_setup o) q -> lookup (str "ND Filter (%)") (o_setup o) = Some (Num od) -> lookup (str "Hole") (o_setup o) = Some (Num slit) ->
  map_metadata name p o = Ok (pieces name title o date q (od / 100) (slit / 100)).
Proof.
  intros name p o title date q od slit T D Q L H. unfold map_metadata. rewrite T, (acquired_read _ _ D). cbn [bind]. unfold percent. rewrite L, H. cbn [bind]. rewrite (amount_read _ _ Q). unfold pieces, table. rewrite !entry_app, entry_map. apply f_equal. generalize (flat_map (fun pk : string * pystr => some_item (fst pk) (given (o_setup o) (snd pk))) plain_items). intro l.
  generalize (given (o_file o) (str "Sample")), (const title), (given (o_file o) (str "Remark")). intros i1 i2 i3. unfold entry_items. cbn [flat_map fst snd option_map some_item].
  assert (I : match lookup (str "Accumulations") (o_setup o), lookup (str "Acq. time (s)") (o_setup o) with Some (Num a), Some (Num b) => [(str "Detector.integration_time", Exact (a * b)%Q)] | _, _ => [] end =
              some_item "Detector.integration_time" (option_map Exact (product (lookup (str "Accumulations") (o_setup o)) (lookup (str "Acq. time (s)") (o_setup o))))).
  { destruct (lookup (str "Accumulations") (o_setup o)) as [[]|]; destruct (lookup (str "Acq. time (s)") (o_setup o)) as [[]|]; reflexivity. }
  rewrite I. clear I. generalize (some_item "Detector.integration_time" (option_map Exact (product (lookup (str "Accumulations") (o_setup o)) (lookup (str "Acq. time (s)") (o_setup o))))). intro i4.
  destruct date as [[a b]|]; destruct q as [s|]; destruct (lookup (str "rotation angle (rad)") (o_setup o)); destruct (lookup (str "Windows") (o_setup o)); cbn [app some_item option_map fst snd is_some]; rewrite <- ?app_assoc; cbn [app]; rewrite ?app_nil_r; rewrite <- ?app_assoc; reflexivity.
Qed.
Section Finding.
  Variables (name title : pystr) (o : original) (date : option (pystr * pystr)) (q : option pystr) (od slit : Q).
  Let t := table name title o date q od slit.
  Lemma table_nodup : NoDup (map (fun pv : string * option item => str (fst pv)) t).
  Proof. apply distinct_nodup. vm_compute. reflexivity. Qed.
  Lemma find_plain : forall path k, In (path, k) plain_table -> lookup (str path) (entry_items t) = usable (lookup k (o_setup o)).
  Proof.
    intros path k I. apply lookup_entry; [exact table_nodup|]. unfold t, table. apply in_or_app. right. apply in_or_app. left. change (path, usable (lookup k (o_setup o))) with ((fun pk : string * pystr => (fst pk, given (o_setup o) (snd pk))) (path, k)). apply in_map.
    revert I. assert (G : forallb (fun a : string * pystr => existsb (fun b : string * pystr => String.eqb (fst a) (fst b) && eqb_str (snd a) (snd b)) plain_items) plain_table = true) by (vm_compute; reflexivity). rewrite forallb_forall in G. intro I. apply G in I. apply existsb_exists in I. destruct I as ([p' k'] & I & E). apply andb_prop in E. destruct E as [E1 E2]. apply String.eqb_eq in E1. apply eqb_str_spec in E2. cbn [fst snd] in *. subst. exact I.
  Qed.
  Lemma find_item : forall path v, In (path, v) t -> lookup (str path) (entry_items t) = v.
  Proof. intros path v I. apply lookup_entry; [exact table_nodup|exact I]. Qed.
  Lemma find_all : incl (map fst (entry_items t)) (map str (fixed_paths ++ map fst plain_table)).
  Proof. intros k I. apply entry_keys in I. assert (G : incl (map (fun pv : string * option item => str (fst pv)) t) (map str (fixed_paths ++ map fst plain_table))) by (apply all_in; vm_compute; reflexivity). exact (G k I). Qed.
End Finding.
Definition described (name title : pystr) (file setup : dict) (date : option (pystr * pystr)) (q : option pystr) (od slit : Q) (m : list (pystr * item)) : Prop :=
  (forall path k, In (path, k) plain_table -> lookup (str path) m = usable (lookup k setup)) /\
  (lookup (str "Sample.description") m = usable (lookup (str "Sample") file) /\ lookup (str "General.notes") m = usable (lookup (str "Remark") file) /\ lookup (str "General.title") m = match title with [] => None | _ => Some (Const title) end /\
   lookup (str "General.original_filename") m = Some (Const name) /\ lookup (str "General.date") m = option_map (fun d => Const (fst d)) date /\ lookup (str "General.time") m = option_map (fun d => Const (snd d)) date /\
   lookup (str "Signal.signal_dimension") m = Some (Whole 1) /\ lookup (str "Signal.quantity") m = option_map Const q /\ lookup (str "Laser.Filter.optical_density") m = Some (Exact (od / 100)) /\
   lookup (str "Spectrometer.entrance_slit_width") m = Some (Exact (slit / 100)) /\ lookup (str "Spectrometer.pinhole") m = Some (Exact (slit / 100))) /\
  (lookup (str "Spectral_image.rotation_angle") m = option_map Given (lookup (str "rotation angle (rad)") setup) /\ lookup (str "Spectral_image.rotation_angle_units") m = option_map (fun _ => Const [176]) (lookup (str "rotation angle (rad)") setup) /\
   lookup (str "Detector.glued_spectrum") m = Some (Flag (is_some (lookup (str "Windows") setup))) /\ lookup (str "Detector.glued_spectrum_windows") m = option_map Given (lookup (str "Windows") setup) /\
   lookup (str "Detector.integration_time") m = option_map Exact (product (lookup (str "Accumulations") setup) (lookup (str "Acq. time (s)") setup))) /\
  (forall k, In k (map fst m) -> In k (map str (fixed_paths ++ map fst plain_table))).
Theorem C93_metadata : forall name p o title date q od slit,
  p_title p = Some title -> acquired (o_date o) date -> amount (o_setup o) q -> lookup (str "ND Filter (%)") (o_setup o) = Some (Num od) -> lookup (str "Hole") (o_setup o) = Some (Num slit) ->
  exists m, map_metadata name p o = Ok m /\ described name title (o_file o) (o_setup o) date q od slit m.
Proof.
  intros name p o title date q od slit T D Q L H. exists (pieces name title o date q (od / 100) (slit / 100)). split; [apply pieces_read; assumption|]. split; [apply find_plain|]. split; [|split; [|apply find_all]].
  - unfold pieces. repeat split; apply find_item; unfold table; cbn [plain_items map app]; repeat ((left; reflexivity) || right).
  - unfold pieces. repeat split; apply find_item; unfold table; cbn [plain_items map app]; repeat ((left; reflexivity) || right).
Qed.
(** Without the filter or the hole the file is not read, nor when the date is not two words, nor without title *)
Theorem C93_filter_refuted : forall name p o title date, p_title p = Some title -> acquired (o_date o) date -> lookup (str "ND Filter (%)") (o_setup o) = None \/ lookup (str "Hole") (o_setup o) = None /\ (exists od, lookup (str "ND Filter (%)") (o_setup o) = Some (Num od)) -> map_metadata name p o = Err TypeError.
Proof. intros name p o title date T D H. unfold map_metadata. rewrite T, (acquired_read _ _ D). cbn [bind]. unfold percent. destruct H as [H|(H & od & E)]; [rewrite H|rewrite E, H]; reflexivity. Qed.
Theorem C93_date_refuted : forall name p o title (s : pystr), p_title p = Some title -> lookup (str "Acquired") (o_date o) = Some (Text s) -> s <> [] -> (forall a b, split_char 32 s <> [a; b]) -> map_metadata name p o = Err ValueError.
Proof. intros name p o title s T L N S. unfold map_metadata. rewrite T. unfold general_date. rewrite L. destruct s as [|c s]; [contradiction|]. destruct (split_char 32 (c :: s)) as [|a [|b [|]]] eqn:E; try reflexivity. exfalso. exact (S a b eq_refl). Qed.
Theorem C93_title_refuted : forall name p o, p_title p = None -> map_metadata name p o = Err AttributeError.
Proof. intros name p o T. unfold map_metadata. rewrite T. reflexivity. Qed.
