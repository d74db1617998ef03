(** Writing the data and the axes of a signal to a Nexus file and reading them back. *)
From Coq Require Import QArith Qabs Qminmax Lqa.
From Verif Require Import Base Text HierModel DistModel RplModel SfsModel HierProps HierProof Dict DistProps NxModel NxProps NxMeta.
Local Open Scope Z_scope.

(** * What comes back *)
Definition name_fine (nm : pystr) : Prop := nm <> dot /\ nm <> str "data" /\ clean nm = nm.
Definition axis_ok (w : waxis) : Prop :=
  match w_name w with Some nm => name_fine nm /\ exists o s n, w_kind w = Uniform o s n /\ (2 <= n)%nat /\ (0 < s)%Q | None => True end.
(** the size of the data is that of the axes *)
Definition fits (shape : list Z) (l : list waxis) : Prop :=
  List.length shape = List.length l /\ forall k n w o s m, nth_error shape k = Some n -> nth_error l k = Some w -> w_kind w = Uniform o s m -> n = Z.of_nat m.
Definition names_differ (l : list waxis) : Prop :=
  forall i j a b nm, nth_error l i = Some a -> nth_error l j = Some b -> w_name a = Some nm -> w_name b = Some nm -> i = j.
(** the signal axes are the last one or the last two; or there are none and all axes have names *)
Definition signal_last (l : list waxis) : Prop :=
  exists nav sig, l = nav ++ sig /\ Forall (fun w => w_nav w = true) nav /\ Forall (fun w => w_nav w = false) sig /\
    (List.length sig = 1%nat \/ List.length sig = 2%nat \/ (sig = [] /\ Forall (fun w => w_name w <> None) nav)).
Definition fine (s : wsignal) : Prop :=
  Forall axis_ok (g_axes s) /\ fits (g_shape s) (g_axes s) /\ names_differ (g_axes s) /\ signal_last (g_axes s).
Definition back (i n : Z) (w : waxis) (x : axis) : Prop :=
  x_size x = n /\ x_index x = i /\ x_name x = w_name w /\ x_nav x = w_nav w /\
  match w_name w with
  | Some _ => exists o s k, w_kind w = Uniform o s k /\ (x_scale x == s)%Q /\ (x_offset x == o)%Q /\ x_units x = Some (match w_units w with Some u => u | None => [] end)
  | None => x_scale x = 1%Q /\ x_offset x = 0%Q /\ x_units x = Some []
  end.

(** * What is written *)
Definition values (w : waxis) : list Q := match w_kind w with Uniform o s n => ramp o s n | Listed l => l | _ => [] end.
Definition unit_attr (w : waxis) : attributes := match w_units w with Some u => [(str "units", CText false u)] | None => [] end.
Fixpoint idx_attrs (i : Z) (l : list waxis) : attributes :=
  match l with [] => [] | w :: l => match w_name w with Some nm => [(nm ++ str "_indices", CNum (inject_Z i))] | None => [] end ++ idx_attrs (i + 1) l end.
Fixpoint ax_items (l : list waxis) : members :=
  match l with
  | [] => []
  | w :: l => match w_name w with Some nm => [(nm, (None, Data (unit_attr w) (CArr [zlen (values w)] (values w))))] | None => [] end ++ ax_items l
  end.
Definition name_of (w : waxis) : pystr := match w_name w with Some nm => nm | None => dot end.

Lemma axis_index_spec : forall l n i ax, nth_error l n = Some ax -> w_name ax <> None ->
  (forall j b, (j < n)%nat -> nth_error l j = Some b -> w_name b <> w_name ax) -> axis_index i n ax l = Ok (i + Z.of_nat n).
Proof.
  induction l as [|b l IH]; intros n i ax H N D; [destruct n; discriminate|]. destruct n as [|n]; [cbn [axis_index]; f_equal; lia|].
  cbn [axis_index]. assert (E : same_axis b ax = Ok false).
  { unfold same_axis. assert (X : eqb_option (w_name b) (w_name ax) = false).
    { pose proof (D 0%nat b ltac:(lia) eq_refl) as K. destruct (w_name b) as [p|], (w_name ax) as [q|]; try reflexivity; [|congruence]. cbn [eqb_option]. apply eqb_str_neq. congruence. }
    rewrite X. reflexivity. }
  rewrite E. cbn [bind]. rewrite (IH n (i + 1) ax H N); [f_equal; lia|]. intros j b' Hj Hb. apply (D (S j)); [lia|exact Hb].
Qed.
Lemma set_name_mid : forall a x b v, set_name (List.length a) v (a ++ x :: b) = Ok (a ++ v :: b).
Proof. induction a as [|y a IH]; intros x b v; [reflexivity|]. cbn [app List.length set_name]. rewrite IH. reflexivity. Qed.
Lemma write_axes_ok : forall l done a items,
  Forall axis_ok l -> names_differ (done ++ l) ->
  (forall w nm, In w l -> w_name w = Some nm -> lookup (nm ++ str "_indices") a = None /\ lookup nm items = None) ->
  write_axes (done ++ l) (List.length done) l (a, items, map name_of done ++ repeat dot (List.length l)) =
  Ok (a ++ idx_attrs (zlen done) l, items ++ ax_items l, map name_of done ++ map name_of l).
Proof.
  induction l as [|w l IH]; intros done a items Hok Hd Hf.
  - cbn [write_axes idx_attrs ax_items List.length repeat map]. rewrite !app_nil_r. reflexivity.
  - inversion Hok as [|? ? Ow Ol]; subst. cbn [write_axes List.length repeat idx_attrs ax_items map].
    assert (Assoc : done ++ w :: l = (done ++ [w]) ++ l) by (rewrite <- app_assoc; reflexivity).
    assert (Len : List.length (done ++ [w]) = S (List.length done)) by (rewrite app_length; cbn; lia).
    assert (Zl : zlen (done ++ [w]) = zlen done + 1) by (unfold zlen; rewrite Len; lia).
    unfold axis_ok in Ow. destruct (w_name w) as [nm|] eqn:En.
    + destruct Ow as [_ (o & sc & n & Ek & _ & _)].
      destruct (Hf w nm (or_introl eq_refl) En) as [Fa Fi].
      assert (Hn : nth_error (done ++ w :: l) (List.length done) = Some w) by (rewrite nth_error_app2, Nat.sub_diag by lia; reflexivity).
      rewrite (axis_index_spec _ (List.length done) 0 w).
      2: exact Hn.
      2: congruence.
      2: { intros j b Hj Hb K. assert (j = List.length done) by (eapply Hd; [exact Hb|exact Hn|rewrite K; exact En|exact En]). lia. }
      cbn [bind]. assert (Ev : axis_values (w_kind w) = Ok (values w)) by (unfold values; rewrite Ek; reflexivity). rewrite Ev. cbn [bind]. rewrite Fi. cbn [bind fst snd].
      rewrite Z.add_0_l, Nat2Z.id. replace (List.length done) with (List.length (map name_of done)) at 1 by apply map_length. rewrite set_name_mid. cbn [bind].
      rewrite put_new by exact Fa. unfold put_node. rewrite put_new by exact Fi.
      assert (Eu : match w_units w with Some u => put (str "units") (CText false u) [] | None => [] end = unit_attr w) by (unfold unit_attr; destruct (w_units w); reflexivity).
      rewrite Eu, Assoc, <- Len. replace (map name_of done ++ nm :: repeat dot (List.length l)) with (map name_of (done ++ [w]) ++ repeat dot (List.length l)).
      2: { rewrite map_app, <- app_assoc. cbn [map app]. unfold name_of at 2. rewrite En. reflexivity. }
      rewrite IH; [rewrite Zl, map_app, <- !app_assoc; reflexivity|exact Ol|rewrite <- Assoc; exact Hd|].
      intros v nv Hv Ev'. destruct (Hf v nv (or_intror Hv) Ev') as [Ga Gi].
      assert (Ne : nv <> nm).
      { intros ->. apply In_nth_error in Hv. destruct Hv as [k Hk].
        assert (X : nth_error (done ++ w :: l) (List.length done + S k) = Some v) by (rewrite nth_error_app2 by lia; replace (List.length done + S k - List.length done)%nat with (S k) by lia; exact Hk).
        pose proof (Hd _ _ _ _ _ X Hn Ev' En). lia. }
      rewrite !lookup_app, Ga, Gi. cbn [lookup]. rewrite (proj2 (eqb_str_neq nv nm) Ne).
      rewrite (proj2 (eqb_str_neq (nv ++ str "_indices") (nm ++ str "_indices"))); [auto|]. intros K. apply app_inv_tail in K. exact (Ne K).
    + cbn [bind]. rewrite Assoc, <- Len. replace (map name_of done ++ dot :: repeat dot (List.length l)) with (map name_of (done ++ [w]) ++ repeat dot (List.length l)).
      2: { rewrite map_app, <- app_assoc. cbn [map app]. unfold name_of at 2. rewrite En. reflexivity. }
      rewrite IH; [rewrite Zl, map_app, <- !app_assoc; reflexivity|exact Ol|rewrite <- Assoc; exact Hd|]. intros v nv Hv. apply Hf. right. exact Hv.
Qed.
Definition signal_axes (l : list waxis) : nat := List.length (filter (fun x => negb (w_nav x)) l).
Definition how_of (k : nat) : option pystr := if (k =? 1)%nat then Some (str "spectrum") else if (k =? 2)%nat then Some (str "image") else None.
Definition base_attrs (k : nat) : attributes :=
  [(str "NX_class", CText true (str "NXdata")); (str "signal", CText true (str "data"))] ++ match how_of k with Some h => [(str "interpretation", CText true h)] | None => [] end.
Definition wr_attrs (s : wsignal) : attributes :=
  base_attrs (signal_axes (g_axes s)) ++ idx_attrs 0 (g_axes s) ++ [(str "axes", CTexts true (map name_of (g_axes s)))].
Definition wr_items (s : wsignal) : members := (str "data", (None, Data [] (CArr (g_shape s) (g_data s)))) :: ax_items (g_axes s).
(** names of attributes which do not end like an index *)
Lemma not_index : forall nm k, ~ (exists r, k = r ++ str "_indices") -> eqb_str k (nm ++ str "_indices") = false.
Proof. intros nm k H. apply eqb_str_neq. intros ->. apply H. eauto. Qed.
Lemma ends : forall (r s k : pystr), k = r ++ s -> firstn (List.length s) (rev k) = rev s.
Proof. intros r s k ->. rewrite rev_app_distr, firstn_app, firstn_all2 by (rewrite rev_length; lia). rewrite rev_length, Nat.sub_diag. cbn [firstn]. apply app_nil_r. Qed.
Lemma fixed_names : forall k, In k [str "NX_class"; str "signal"; str "interpretation"; str "axes"; str "target"] -> ~ (exists r, k = r ++ str "_indices").
Proof. intros k H [r K]. apply ends in K. cbn [In] in H. destruct H as [<-|[<-|[<-|[<-|[<-|[]]]]]]; vm_compute in K; discriminate. Qed.
Lemma lookup_idx : forall l i k, ~ (exists r, k = r ++ str "_indices") -> lookup k (idx_attrs i l) = None.
Proof.
  induction l as [|w l IH]; intros i k H; [reflexivity|]. cbn [idx_attrs]. destruct (w_name w) as [nm|]; [|apply IH; exact H]. cbn [app lookup].
  rewrite not_index by exact H. apply IH. exact H.
Qed.
Lemma base_index : forall k nm, lookup (nm ++ str "_indices") (base_attrs k) = None.
Proof.
  intros k nm. assert (X : forall c, In c [str "NX_class"; str "signal"; str "interpretation"; str "axes"; str "target"] -> eqb_str (nm ++ str "_indices") c = false).
  { intros c H. apply eqb_str_neq. intros K. apply (fixed_names c H). exists nm. congruence. }
  unfold base_attrs. cbn [app lookup]. rewrite !X by (cbn [In]; auto). destruct (how_of k); [|reflexivity]. cbn [lookup]. rewrite X by (cbn [In]; auto). reflexivity.
Qed.
Lemma written : forall s, fine s -> write_signal s ([], []) = Ok (wr_attrs s, wr_items s).
Proof.
  intros s (Ok1 & [Fl Ff] & Nd & _). unfold write_signal. cbn [fst snd].
  assert (B : (if (List.length (filter (fun x => negb (w_nav x)) (g_axes s)) =? 1)%nat
               then put (str "interpretation") (CText true (str "spectrum")) (put (str "signal") (CText true (str "data")) (put (str "NX_class") (CText true (str "NXdata")) []))
               else if (List.length (filter (fun x => negb (w_nav x)) (g_axes s)) =? 2)%nat
                    then put (str "interpretation") (CText true (str "image")) (put (str "signal") (CText true (str "data")) (put (str "NX_class") (CText true (str "NXdata")) []))
                    else put (str "signal") (CText true (str "data")) (put (str "NX_class") (CText true (str "NXdata")) [])) = base_attrs (signal_axes (g_axes s))).
  { unfold base_attrs, how_of. change (List.length (filter (fun x => negb (w_nav x)) (g_axes s))) with (signal_axes (g_axes s)).
    destruct (signal_axes (g_axes s) =? 1)%nat; [reflexivity|]. destruct (signal_axes (g_axes s) =? 2)%nat; reflexivity. }
  rewrite B, Fl. rewrite (write_axes_ok (g_axes s) [] _ _ Ok1 Nd).
  - cbn [bind app map]. rewrite put_new; [unfold wr_attrs, wr_items; rewrite <- !app_assoc; reflexivity|].
    rewrite lookup_app. assert (X : lookup (str "axes") (base_attrs (signal_axes (g_axes s))) = None) by (unfold base_attrs; destruct (how_of _); reflexivity). rewrite X.
    apply lookup_idx, fixed_names. cbn [In]. auto.
  - intros w nm Hw En. split; [apply base_index|]. rewrite Forall_forall in Ok1. specialize (Ok1 w Hw). unfold axis_ok in Ok1. rewrite En in Ok1. destruct Ok1 as [(_ & N & _) _].
    unfold put_node. cbn [put lookup]. rewrite (proj2 (eqb_str_neq nm (str "data")) N). reflexivity.
Qed.

(** * Reading *)
Lemma find_item : forall l k w nm, names_differ l -> nth_error l k = Some w -> w_name w = Some nm ->
  lookup nm (ax_items l) = Some (None, Data (unit_attr w) (CArr [zlen (values w)] (values w))) /\
  forall i, lookup (nm ++ str "_indices") (idx_attrs i l) = Some (CNum (inject_Z (i + Z.of_nat k))).
Proof.
  induction l as [|v l IH]; intros k w nm Nd Hk En; [destruct k; discriminate|]. destruct k as [|k].
  - injection Hk as ->. cbn [ax_items idx_attrs]. rewrite En. cbn [app lookup]. rewrite !eqb_str_refl. split; [reflexivity|]. intros i. rewrite Z.add_0_r. reflexivity.
  - assert (Nd' : names_differ l) by (intros i j a b n Ha Hb Ea Eb; assert (X : S i = S j) by (eapply Nd; eassumption); lia).
    destruct (IH k w nm Nd' Hk En) as [A B]. cbn [ax_items idx_attrs]. destruct (w_name v) as [nv|] eqn:Ev.
    + assert (Ne : nm <> nv) by (intros ->; assert (X : S k = 0%nat) by (eapply Nd; [exact Hk|reflexivity|exact En|exact Ev]); lia).
      cbn [app lookup]. rewrite (proj2 (eqb_str_neq nm nv) Ne), (proj2 (eqb_str_neq (nm ++ str "_indices") (nv ++ str "_indices"))) by (intros K; apply app_inv_tail in K; exact (Ne K)).
      split; [exact A|]. intros i. rewrite B. f_equal. f_equal. f_equal. lia.
    + cbn [app]. split; [exact A|]. intros i. rewrite B. f_equal. f_equal. f_equal. lia.
Qed.
Lemma ramp_even : forall o s n, even o s (ramp o s n).
Proof.
  intros o s n i q H. unfold ramp in H. rewrite nth_error_map in H. destruct (nth_error (seq 0 n) i) as [j|] eqn:E; [|discriminate]. injection H as <-.
  assert (L : (i < n)%nat) by (rewrite <- (seq_length n 0); apply nth_error_Some; congruence).
  assert (X : nth_error (seq 0 n) i = Some i) by (rewrite (nth_error_nth' _ 0%nat) by (rewrite seq_length; exact L); rewrite seq_nth by exact L; reflexivity).
  assert (j = i) by congruence. subst j. reflexivity.
Qed.
Lemma set_at_nth : forall A (f : A -> A) l n k, nth_error (set_at f n l) k = if (k =? n)%nat then option_map f (nth_error l k) else nth_error l k.
Proof.
  induction l as [|x l IH]; intros n k; [cbn [set_at]; destruct k, n; cbn; try reflexivity; destruct (k =? n)%nat; reflexivity|].
  destruct n as [|n], k as [|k]; try reflexivity. cbn [set_at nth_error]. rewrite IH. reflexivity.
Qed.
Lemma set_at_length : forall A (f : A -> A) l n, List.length (set_at f n l) = List.length l.
Proof. induction l as [|x l IH]; intros [|n]; cbn; try reflexivity. rewrite IH. reflexivity. Qed.
Lemma filter_all : forall A (f : A -> bool) l, Forall (fun x => f x = true) l -> filter f l = l.
Proof. induction l as [|x l IH]; intros H; [reflexivity|]. inversion H as [|? ? Hx Hl]; subst. cbn [filter]. rewrite Hx, IH by exact Hl. reflexivity. Qed.
Lemma filter_nil : forall A (f : A -> bool) l, Forall (fun x => f x = false) l -> filter f l = [].
Proof. induction l as [|x l IH]; intros H; [reflexivity|]. inversion H as [|? ? Hx Hl]; subst. cbn [filter]. rewrite Hx. apply IH. exact Hl. Qed.
(** which axes are for navigation, after the interpretation *)
Lemma interpret_ok : forall l axes, signal_last axes -> List.length l = List.length axes ->
  (forall k w x, nth_error axes k = Some w -> nth_error l k = Some x -> w_name w <> None -> x_nav x = true) ->
  exists r, interpret (match how_of (signal_axes axes) with Some h => h | None => [] end) l = Ok r /\ List.length r = List.length l /\
    forall k x w, nth_error l k = Some x -> nth_error axes k = Some w -> nth_error r k = Some (set_nav (w_nav w) x).
Proof.
  intros l axes (nav & sig & -> & Hn & Hs & Hc) Hl Hnm.
  assert (S : signal_axes (nav ++ sig) = List.length sig).
  { unfold signal_axes. rewrite filter_app, (filter_nil _ _ nav), (filter_all _ _ sig); [reflexivity|..]; eapply Forall_impl; try eassumption; intros w E; cbn beta in *; rewrite E; reflexivity. }
  rewrite S. rewrite Forall_forall in Hn, Hs. rewrite app_length in Hl.
  assert (Nav : forall k w, nth_error (nav ++ sig) k = Some w -> w_nav w = (k <? List.length nav)%nat).
  { intros k w H. destruct (k <? List.length nav)%nat eqn:E.
    - apply Nat.ltb_lt in E. rewrite nth_error_app1 in H by exact E. apply Hn. eapply nth_error_In. exact H.
    - apply Nat.ltb_ge in E. rewrite nth_error_app2 in H by exact E. apply Hs. eapply nth_error_In. exact H. }
  assert (Id : forall a b x, set_nav a (set_nav b x) = set_nav a x) by reflexivity.
  destruct Hc as [Hc|[Hc|[-> Hnames]]].
  - rewrite Hc in *. change (how_of 1) with (Some (str "spectrum")). exists (set_at (set_nav false) (List.length l - 1) (map (set_nav true) l)). split; [|split].
    + unfold interpret. rewrite map_length. destruct (str "spectrum") as [|c r] eqn:E; [discriminate|]. rewrite <- E. change (eqb_str (str "spectrum") (str "spectrum")) with true.
      destruct (List.length l <? 1)%nat eqn:B; [apply Nat.ltb_lt in B; lia|reflexivity].
    + rewrite set_at_length. apply map_length.
    + intros k x w Hx Hw. rewrite set_at_nth, nth_error_map, Hx. cbn [option_map]. rewrite (Nav _ _ Hw). assert (Lk : (k < List.length l)%nat) by (apply nth_error_Some; congruence).
      destruct (k =? List.length l - 1)%nat eqn:E, (k <? List.length nav)%nat eqn:F; rewrite ?Id; try reflexivity; exfalso; lia.
  - rewrite Hc in *. change (how_of 2) with (Some (str "image")). exists (set_at (set_nav false) (List.length l - 2) (set_at (set_nav false) (List.length l - 1) (map (set_nav true) l))). split; [|split].
    + unfold interpret. rewrite map_length. destruct (str "image") as [|c r] eqn:E; [discriminate|]. rewrite <- E. change (eqb_str (str "image") (str "spectrum")) with false. change (eqb_str (str "image") (str "image")) with true.
      destruct (List.length l <? 2)%nat eqn:B; [apply Nat.ltb_lt in B; lia|reflexivity].
    + rewrite !set_at_length. apply map_length.
    + intros k x w Hx Hw. rewrite !set_at_nth, nth_error_map, Hx. cbn [option_map]. rewrite (Nav _ _ Hw). assert (Lk : (k < List.length l)%nat) by (apply nth_error_Some; congruence).
      destruct (k =? List.length l - 2)%nat eqn:E, (k =? List.length l - 1)%nat eqn:G, (k <? List.length nav)%nat eqn:F; cbn [option_map]; rewrite ?Id; try reflexivity; exfalso; lia.
  - exists l. split; [reflexivity|]. split; [reflexivity|]. intros k x w Hx Hw. rewrite Hx. f_equal. rewrite (Nav _ _ Hw).
    rewrite app_nil_r in *. assert (Lk : (k < List.length nav)%nat) by (apply nth_error_Some; congruence). replace (k <? List.length nav)%nat with true by lia.
    assert (X : x_nav x = true). { eapply Hnm; [exact Hw|exact Hx|]. rewrite Forall_forall in Hnames. apply Hnames. eapply nth_error_In. exact Hw. }
    destruct x as [? ? ? ? ? ? b]. cbn in X. subst b. reflexivity.
Qed.
Lemma lookup_wr : forall s k, In k [str "NX_class"; str "signal"; str "interpretation"; str "axes"; str "target"] ->
  lookup k (wr_attrs s) = lookup k (base_attrs (signal_axes (g_axes s)) ++ [(str "axes", CTexts true (map name_of (g_axes s)))]).
Proof. intros s k H. unfold wr_attrs. rewrite !lookup_app, lookup_idx by (apply fixed_names; exact H). reflexivity. Qed.
Lemma wr_lookups : forall s,
  lookup (str "NX_class") (wr_attrs s) = Some (CText true (str "NXdata")) /\ lookup (str "signal") (wr_attrs s) = Some (CText true (str "data")) /\
  lookup (str "interpretation") (wr_attrs s) = match how_of (signal_axes (g_axes s)) with Some h => Some (CText true h) | None => None end /\
  lookup (str "axes") (wr_attrs s) = Some (CTexts true (map name_of (g_axes s))) /\ lookup (str "target") (wr_attrs s) = None.
Proof. intros s. rewrite !lookup_wr by (cbn [In]; auto 6). unfold base_attrs. destruct (how_of (signal_axes (g_axes s))); repeat split; reflexivity. Qed.
(** What is written is read: the data, and each axis in its place. *)
Theorem C121_signal : forall s, fine s ->
  exists a items l, write_signal s ([], []) = Ok (a, items) /\
    (forall path, nexus_signal a items path = Ok (CArr (g_shape s) (g_data s), l, title_only (last_part path))) /\
    List.length l = List.length (g_shape s) /\
    forall k n w x, nth_error (g_shape s) k = Some n -> nth_error (g_axes s) k = Some w -> nth_error l k = Some x -> back (Z.of_nat k) n w x.
Proof.
  intros s F. pose proof F as (Ok1 & [Fl Ff] & Nd & Sl). rewrite Forall_forall in Ok1.
  destruct (wr_lookups s) as (L1 & L2 & L3 & L4 & L5).
  assert (Names : attribute_names (CTexts true (map name_of (g_axes s))) (List.length (g_shape s)) (map name_of (g_axes s))).
  { exists 0%nat. cbn [repeat]. rewrite app_nil_r, map_length. split; [|symmetry; exact Fl]. rewrite map_map. apply map_ext_in. intros w Hw. specialize (Ok1 w Hw). unfold axis_ok in Ok1. unfold name_of, text_of.
    destruct (w_name w) as [nm|]; [|reflexivity]. destruct Ok1 as [(_ & _ & C) _]. exact C. }
  assert (Item : forall k w nm, nth_error (g_axes s) k = Some w -> w_name w = Some nm -> exists o sc n u, w_kind w = Uniform o sc n /\ (2 <= n)%nat /\ (0 < sc)%Q /\ u = match w_units w with Some u => u | None => [] end /\ stored (wr_items s) nm u (ramp o sc n)).
  { intros k w nm Hk En. pose proof (Ok1 w (nth_error_In _ _ Hk)) as O. unfold axis_ok in O. rewrite En in O. destruct O as [(_ & N & _) (o & sc & n & Ek & Hn & Hsc)].
    exists o, sc, n, (match w_units w with Some u => u | None => [] end). repeat split; try assumption. destruct (find_item _ _ _ _ Nd Hk En) as [A _]. unfold values in A. rewrite Ek in A.
    unfold stored. exists None, (unit_attr w), (zlen (ramp o sc n)). unfold wr_items. cbn [lookup]. rewrite (proj2 (eqb_str_neq nm (str "data")) N). split; [exact A|].
    unfold unit_attr. destruct (w_units w); reflexivity. }
  destruct (C118_order (g_shape s) (wr_attrs s) (wr_items s) _ _ L4 Names) as (l & El & Ll & Pl).
  - intros k ax Hk Hne. right. rewrite nth_error_map in Hk. destruct (nth_error (g_axes s) k) as [w|] eqn:Ew; [|discriminate]. injection Hk as <-. unfold name_of in *. destruct (w_name w) as [nm|] eqn:En; [|congruence].
    unfold wr_attrs. rewrite lookup_app, base_index, lookup_app. destruct (find_item _ _ _ _ Nd Ew En) as [_ B]. rewrite B. reflexivity.
  - intros ax Ha Hne. apply in_map_iff in Ha. destruct Ha as (w & <- & Hw). unfold name_of in *. destruct (w_name w) as [nm|] eqn:En; [|congruence]. apply In_nth_error in Hw. destruct Hw as [k Hk].
    destruct (Item k w nm Hk En) as (o & sc & n & u & _ & Hn & _ & _ & St). exists u, (ramp o sc n). split; [exact St|]. unfold ramp. destruct n; [lia|discriminate].
  - assert (Ax : forall k n w x, nth_error (g_shape s) k = Some n -> nth_error (g_axes s) k = Some w -> nth_error l k = Some x -> back (Z.of_nat k) n w (set_nav (w_nav w) x) /\ (w_name w <> None -> x_nav x = true)).
    { intros k n w x Hn Hw Hx. assert (Hnm : nth_error (map name_of (g_axes s)) k = Some (name_of w)) by (rewrite nth_error_map, Hw; reflexivity).
      destruct (Pl k _ _ Hnm Hx) as (P1 & P2 & P3). unfold back. cbn [set_nav x_size x_index x_name x_nav x_scale x_offset x_units]. pose proof (Ok1 w (nth_error_In _ _ Hw)) as O. unfold axis_ok in O.
      destruct (w_name w) as [nm|] eqn:En.
      - unfold name_of in P3. rewrite En in P3. destruct O as [(Nd' & _ & _) _]. destruct (P3 Nd') as (named & m & Hx').
        destruct (Item k w nm Hw En) as (o & sc & i & u & Ek & Hi & Hsc & Eu & St).
        pose proof (C118_even _ _ _ _ _ _ _ _ o sc St Hx' ltac:(unfold ramp; rewrite map_length, seq_length; exact Hi) (ramp_even o sc i) ltac:(apply Qlt_le_weak; exact Hsc)) as (E1 & E2 & E3 & E4 & _).
        cbn [fst] in *. rewrite Nat2Z.id in E4. destruct (named_spec _ _ _ _ _ _ _ _ St Hx') as (I1 & I2 & I3 & _). cbn [fst] in *.
        split; [|intros _; exact I3]. split; [congruence|]. split; [exact P1|]. split; [exact I2|]. split; [reflexivity|]. exists o, sc, i. repeat split; try assumption. congruence.
      - unfold name_of in P2. rewrite En in P2. destruct (P2 eq_refl) as (Q1 & Q2 & Q3 & Q4 & Q5 & Q6). split; [|congruence]. split; [congruence|]. repeat split; assumption. }
    assert (Hl : List.length l = List.length (g_axes s)) by congruence.
    assert (Sh : forall k x, nth_error l k = Some x -> exists n w, nth_error (g_shape s) k = Some n /\ nth_error (g_axes s) k = Some w).
    { intros k x Hx. assert (Lk : (k < List.length l)%nat) by (apply nth_error_Some; congruence). destruct (nth_error (g_shape s) k) as [n|] eqn:E1; [|apply nth_error_None in E1; lia].
      destruct (nth_error (g_axes s) k) as [w|] eqn:E2; [|apply nth_error_None in E2; lia]. eauto. }
    destruct (interpret_ok l (g_axes s) Sl Hl) as (r & Er & Lr & Pr).
    { intros k w x Hw Hx. destruct (Sh k x Hx) as (n & w' & Hn & Hw'). assert (w' = w) by congruence. subst w'. apply (Ax k n w x Hn Hw Hx). }
    exists (wr_attrs s), (wr_items s), r. split; [apply written; exact F|]. split; [|split].
    + intros path. unfold nexus_signal, data_key. rewrite L2. change (parse_int (str "data")) with (@Err Z ValueError). cbn [bind]. rewrite L3.
      assert (H : match match how_of (signal_axes (g_axes s)) with Some h => Some (CText true h) | None => None end with
                  | Some c => match parse_attr c with MText s => Ok s | MNum _ => Ok (str "?") | _ => Err ValueError end
                  | None => Ok []
                  end = Ok (match how_of (signal_axes (g_axes s)) with Some h => h | None => [] end)).
      { unfold how_of. destruct (signal_axes (g_axes s) =? 1)%nat; [reflexivity|]. destruct (signal_axes (g_axes s) =? 2)%nat; reflexivity. }
      rewrite H. cbn [bind]. change (get_dataset (str "data") (wr_items s)) with (@Ok (attributes * content) ([], CArr (g_shape s) (g_data s))). cbn [bind snd shape_of]. rewrite El. cbn [bind].
      assert (X : match l with [] => plain_axes 0 (g_shape s) | _ => l end = l).
      { destruct l; [|reflexivity]. destruct (g_shape s); [reflexivity|discriminate]. }
      rewrite X, Er. reflexivity.
    + congruence.
    + intros k n w x Hn Hw Hx. destruct (nth_error l k) as [y|] eqn:Ey.
      * rewrite (Pr k y w Ey Hw) in Hx. injection Hx as <-. apply (Ax k n w y Hn Hw Ey).
      * apply nth_error_None in Ey. assert (Lk : (k < List.length r)%nat) by (apply nth_error_Some; congruence). lia.
Qed.
Print Assumptions C121_signal.
