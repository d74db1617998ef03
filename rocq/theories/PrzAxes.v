(** Properties C63 and C64: axes of PantaRhei files. *)
From Verif Require Import Base Text DistModel RowMajor HierModel SfsModel PrzAxesModel.
From Coq Require Import Permutation.

(** * Specification *)
(** Labels that navigate *)
Definition navigates (l : pystr) : Prop := In l [str "ScanY"; str "ScanX"; str "Index"; str "PlotIndex"].
(** Values along an axis *)
Definition value_at (offset scale i : Z) : Z := offset + scale * i.

(** * Sorting *)
Lemma insert_perm : forall key x l, Permutation (insert_by key x l) (x :: l).
Proof.
  induction l as [|y l IH]; [reflexivity|]. cbn [insert_by]. destruct (key y <=? key x); [|reflexivity].
  rewrite IH. apply perm_swap.
Qed.
Lemma sort_perm : forall key l acc, Permutation (sort_by key l acc) (l ++ acc).
Proof.
  induction l as [|x l IH]; intros acc; [reflexivity|]. cbn [sort_by app]. rewrite IH, insert_perm. symmetry. apply Permutation_middle.
Qed.
Fixpoint sorted_by (key : nat -> Z) (l : list nat) : Prop :=
  match l with [] => True | x :: l' => Forall (fun y => key x <= key y) l' /\ sorted_by key l' end.
Lemma insert_sorted : forall key x l, sorted_by key l -> sorted_by key (insert_by key x l).
Proof.
  induction l as [|y l IH]; intros H; cbn [insert_by]; [cbn; auto|]. destruct H as [H1 H2]. destruct (key y <=? key x) eqn:E.
  - split; [|apply IH; exact H2]. apply Forall_forall. intros z Hz. apply (Permutation_in _ (insert_perm key x l)) in Hz.
    destruct Hz as [<-|Hz]; [lia|]. rewrite Forall_forall in H1. apply H1. exact Hz.
  - split; [|split; assumption]. constructor; [lia|]. eapply Forall_impl; [|exact H1]. cbn. intros; lia.
Qed.
Lemma sort_sorted : forall key l acc, sorted_by key acc -> sorted_by key (sort_by key l acc).
Proof. induction l as [|x l IH]; intros acc H; [exact H|]. cbn [sort_by]. apply IH. apply insert_sorted. exact H. Qed.
Lemma order_perm : forall ts, Permutation (new_order ts) (seq 0 (List.length ts)).
Proof. intros ts. unfold new_order. rewrite sort_perm, app_nil_r. reflexivity. Qed.
Lemma order_sorted : forall ts, sorted_by (fun i => key_of (nth i ts None)) (new_order ts).
Proof. intros ts. apply sort_sorted. exact I. Qed.

(** * Lists *)
Lemma keep_map : forall A B (f : A -> B) drop l, keep drop (map f l) = map f (keep drop l).
Proof. induction drop as [|b drop IH]; intros [|x l]; try reflexivity. cbn [map keep]. destruct b; cbn [map]; rewrite IH; reflexivity. Qed.
Lemma as_map : forall A (l : list A) d, l = map (fun i => nth i l d) (seq 0 (List.length l)).
Proof.
  induction l as [|x l IH]; intros d; [reflexivity|]. cbn [List.length seq map nth]. f_equal. rewrite (IH d) at 1.
  rewrite <- (seq_shift (List.length l) 0), map_map. reflexivity.
Qed.
Definition surv (drop : list bool) : list nat := keep drop (seq 0 (List.length drop)).
Lemma keep_surv : forall A drop (l : list A) d, List.length l = List.length drop -> keep drop l = map (fun i => nth i l d) (surv drop).
Proof. intros A drop l d H. rewrite (as_map _ l d) at 1. rewrite keep_map, H. reflexivity. Qed.
Lemma keep_length : forall A B drop (l : list A) (m : list B), List.length l = List.length m -> List.length (keep drop l) = List.length (keep drop m).
Proof. induction drop as [|b drop IH]; intros [|x l] [|y m] H; try discriminate; try reflexivity. cbn [keep]. injection H as H. destruct b; cbn [List.length]; rewrite (IH l m H); reflexivity. Qed.
Lemma in_keep : forall A drop (l : list A) x, In x (keep drop l) -> In x l.
Proof. induction drop as [|b drop IH]; intros [|y l] x H; try destruct H; cbn [keep] in H. destruct b; [right; apply IH; exact H|]. destruct H as [<-|H]; [left; reflexivity|right; apply IH; exact H]. Qed.
Lemma keep_nodup : forall A drop (l : list A), NoDup l -> NoDup (keep drop l).
Proof.
  induction drop as [|b drop IH]; intros [|y l] H; try constructor. cbn [keep]. inversion H; subst. destruct b; [apply IH; assumption|].
  constructor; [|apply IH; assumption]. intro K. apply in_keep in K. contradiction.
Qed.
Lemma in_surv : forall drop i s, In (s + i)%nat (keep drop (seq s (List.length drop))) <-> nth_error drop i = Some false.
Proof.
  induction drop as [|b drop IH]; intros i s; cbn [List.length seq keep]; [destruct i; split; [intros []|discriminate|intros []|discriminate]|].
  destruct i as [|i].
  - assert (N : ~ In (s + 0)%nat (keep drop (seq (Datatypes.S s) (List.length drop)))) by (intro K; apply in_keep in K; apply in_seq in K; lia).
    cbn [nth_error]. destruct b; [split; [intro K; contradiction|discriminate]|split; [reflexivity|intros _; left; lia]].
  - cbn [nth_error]. rewrite <- (IH i (Datatypes.S s)). replace (s + Datatypes.S i)%nat with (Datatypes.S s + i)%nat by lia. destruct b; [reflexivity|].
    cbn [In]. split; [intros [K|K]; [lia|exact K]|auto].
Qed.
Lemma surv_in : forall drop i, In i (surv drop) <-> nth_error drop i = Some false.
Proof. intros drop i. exact (in_surv drop i 0%nat). Qed.
Lemma unsqueeze_keep : forall drop src, List.length src = List.length drop -> (forall i, nth_error drop i = Some true -> nth i src 0 = 0) ->
  unsqueeze drop (keep drop src) = src.
Proof.
  induction drop as [|b drop IH]; intros [|x src] H H0; try discriminate; [reflexivity|]. injection H as H.
  assert (R : unsqueeze drop (keep drop src) = src) by (apply IH; [exact H|intros i Hi; apply (H0 (Datatypes.S i)); exact Hi]).
  cbn [keep unsqueeze]. destruct b; cbn [unsqueeze]; [|rewrite R; reflexivity].
  rewrite R. f_equal. symmetry. apply (H0 0%nat). reflexivity.
Qed.

Lemma where_is_at : forall order idx i j, NoDup order -> nth_error order i = Some j -> (i < List.length idx)%nat -> where_is j order idx = nth i idx 0.
Proof.
  induction order as [|o order IH]; intros idx i j H Hi Hl; [destruct i; discriminate|]. inversion H; subst.
  destruct idx as [|x idx]; [cbn in Hl; lia|]. cbn [where_is]. destruct i as [|i].
  - injection Hi as ->. rewrite Nat.eqb_refl. reflexivity.
  - cbn [nth_error nth] in *. destruct (Nat.eqb j o) eqn:E; [|apply IH; [assumption|exact Hi|cbn in Hl; lia]].
    apply Nat.eqb_eq in E. subst. exfalso. apply H2. eapply nth_error_In. exact Hi.
Qed.
Lemma moved_index : forall order k idx idx1, Permutation order (seq 0 k) -> List.length idx = List.length order -> List.length idx1 = k ->
  (forall i j, nth_error order i = Some j -> nth j idx1 0 = nth i idx 0) ->
  map (fun j => where_is j order idx) (seq 0 k) = idx1.
Proof.
  intros order k idx idx1 P L L1 H. rewrite (as_map _ idx1 0), L1. apply map_ext_in. intros j Hj.
  assert (Hin : In j order) by (apply (Permutation_in _ (Permutation_sym P)); exact Hj).
  apply In_nth_error in Hin. destruct Hin as [i Hi].
  assert (Li : (i < List.length order)%nat) by (apply nth_error_Some; congruence).
  rewrite (where_is_at _ _ i) ; [symmetry; apply H; exact Hi| |exact Hi|lia].
  apply (Permutation_NoDup (Permutation_sym P)). apply seq_NoDup.
Qed.
Lemma flip_index_length : forall marks sh idx, List.length marks = List.length idx -> List.length sh = List.length idx -> List.length (flip_index marks sh idx) = List.length idx.
Proof. induction marks as [|b marks IH]; intros [|n sh] [|i idx] H1 H2; try discriminate; [reflexivity|]. cbn [flip_index List.length]. rewrite IH; [reflexivity| |]; cbn in *; lia. Qed.
Lemma nth_flip : forall marks sh idx i, List.length marks = List.length idx -> List.length sh = List.length idx -> (i < List.length idx)%nat ->
  nth i (flip_index marks sh idx) 0 = if nth i marks false then nth i sh 0 - 1 - nth i idx 0 else nth i idx 0.
Proof.
  induction marks as [|b marks IH]; intros [|n sh] [|x idx] i H1 H2 Hi; try discriminate; [cbn in Hi; lia|]. destruct i as [|i]; cbn [flip_index nth]; [reflexivity|].
  apply IH; cbn in *; lia.
Qed.

Lemma trivial_ok : forall sh ts drop, trivial sh ts = Ok drop -> List.length ts = List.length sh ->
  List.length drop = List.length sh /\ forall i, nth_error drop i = Some true -> nth i sh 0 = 1 /\ exists t, nth i ts None = Some t /\ contains (str "Index") t = true.
Proof.
  induction sh as [|n sh IH]; intros [|t ts] drop H L; try discriminate; cbn [trivial] in H.
  - injection H as <-. split; [reflexivity|]. intros [|i]; discriminate.
  - destruct (if n =? 1 then match t with Some x => Ok (contains (str "Index") x) | None => Err TypeError end else Ok false) as [b|] eqn:E; [|discriminate]. cbn [bind] in H.
    destruct (trivial sh ts) as [l|] eqn:E2; [|discriminate]. cbn [bind] in H. injection H as <-. injection L as L.
    destruct (IH ts l E2 L) as [A B]. split; [cbn; lia|]. intros [|i] Hi; cbn [nth_error nth] in *; [|apply B; exact Hi].
    injection Hi as ->. destruct (n =? 1) eqn:En; [|discriminate]. split; [lia|]. destruct t as [x|]; [|discriminate]. exists x. split; [reflexivity|]. congruence.
Qed.
Lemma labels_ok : forall ts defs ls, labels defs ts = Ok ls -> List.length ls = List.length ts /\
  forall i x, nth_error ts i = Some (Some x) -> nth_error ls i = Some x.
Proof.
  induction ts as [|[x|] ts IH]; intros defs ls H; cbn [labels] in H.
  - injection H as <-. split; [reflexivity|]. intros [|i]; discriminate.
  - destruct (labels defs ts) as [l|] eqn:E; [|discriminate]. injection H as <-. destruct (IH defs l E) as [A B]. split; [cbn; lia|].
    intros [|i] y Hy; cbn [nth_error] in *; [congruence|apply B; exact Hy].
  - destruct defs as [|d defs]; [discriminate|]. destruct (labels defs ts) as [l|] eqn:E; [|discriminate]. injection H as <-. destruct (IH defs l E) as [A B]. split; [cbn; lia|].
    intros [|i] y Hy; cbn [nth_error] in *; [discriminate|apply B; exact Hy].
Qed.
Lemma labels_default : forall ts defs ls i x, labels defs ts = Ok ls -> nth_error ts i = Some None -> nth_error ls i = Some x -> In x defs.
Proof.
  induction ts as [|[y|] ts IH]; intros defs ls i x H Hi Hx; cbn [labels] in H; [destruct i; discriminate| |].
  - destruct (labels defs ts) as [l|] eqn:E; [|discriminate]. injection H as <-. destruct i as [|i]; [discriminate|]. eapply IH; eassumption.
  - destruct defs as [|d defs]; [discriminate|]. destruct (labels defs ts) as [l|] eqn:E; [|discriminate]. injection H as <-.
    destruct i as [|i]; cbn [nth_error] in *; [left; congruence|]. right. eapply IH; eassumption.
Qed.
Lemma make_axes_ok : forall ls sh cs marks axes, make_axes ls sh cs marks = Ok axes ->
  List.length sh = List.length ls -> List.length cs = List.length ls -> List.length marks = List.length ls ->
  List.length axes = List.length ls /\ forall i a, nth_error axes i = Some a -> make_axis (nth i ls []) (nth i sh 0) (nth i cs None) (nth i marks false) = Ok a.
Proof.
  induction ls as [|l ls IH]; intros [|n sh] [|c cs] [|b marks] axes H H1 H2 H3; try discriminate; cbn [make_axes] in H.
  - injection H as <-. split; [reflexivity|]. intros [|i]; discriminate.
  - destruct (make_axis l n c b) as [a|] eqn:E; [|discriminate]. cbn [bind] in H. destruct (make_axes ls sh cs marks) as [r|] eqn:E2; [|discriminate]. cbn [bind] in H. injection H as <-.
    destruct (IH sh cs marks r E2 ltac:(cbn in *; lia) ltac:(cbn in *; lia) ltac:(cbn in *; lia)) as [A B]. split; [cbn; lia|].
    intros [|i] a' Ha; cbn [nth_error nth] in *; [congruence|apply B; exact Ha].
Qed.
Lemma make_axis_ok : forall l n c b a, make_axis l n c b = Ok a -> a_name a = l /\ a_size a = n /\ (a_nav a = true <-> navigates l).
Proof.
  intros l n c b a H. unfold make_axis in H.
  assert (K : existsb (eqb_str l) navigation_dimensions = true <-> navigates l).
  { unfold navigates. rewrite existsb_exists. split; [intros [x [H1 H2]]; apply eqb_str_spec in H2; subst; exact H1|intro H1; exists l; split; [exact H1|apply eqb_str_refl]]. }
  destruct c as [c|]; [destruct (c_offset c); [|discriminate]; destruct (c_value c); [|discriminate]|]; injection H as <-; cbn [a_name a_size a_nav]; auto.
Qed.
(** Navigating content types come first. *)
Lemma key_nav : forall t, key_of t < 4 <-> exists x, t = Some x /\ navigates x.
Proof.
  intros [x|]; [|cbn; split; [lia|intros [x [K _]]; discriminate]]. unfold key_of, navigation_dimensions, signal_dimensions, navigates. cbn [app index_of In].
  repeat match goal with |- context[eqb_str x ?y] => destruct (eqb_str x y) eqn:? end;
    repeat match goal with H : eqb_str _ _ = true |- _ => apply eqb_str_spec in H; subst x end;
    try (split; [intros _; eexists; split; [reflexivity|tauto]|intros _; reflexivity]);
    (split; [intro K; exfalso; revert K; clear; lia|]); intros [y [E K]]; injection E as <-; exfalso;
    repeat match goal with H : eqb_str _ _ = false |- _ => apply eqb_str_neq in H end; try (decompose [or] K; congruence); intuition (try discriminate; congruence).
Qed.
Lemma default_not_nav : forall ts x, In x (default_labels ts) -> ~ navigates x.
Proof.
  intros ts x H. unfold default_labels in H. apply in_rev in H.
  assert (K : In x [str "X"; str "Y"; str "Z"]).
  { set (l := [str "X"; str "Y"; str "Z"]) in *. rewrite <- (firstn_skipn (List.length (filter is_none ts)) l). apply in_or_app. left. exact H. }
  destruct K as [<-|[<-|[<-|[]]]]; unfold navigates; cbn; intuition discriminate.
Qed.
Lemma split_flags : forall (l : list bool), (forall i j, (i < j)%nat -> nth_error l j = Some true -> nth_error l i = Some true) -> exists a b, l = repeat true a ++ repeat false b.
Proof.
  induction l as [|x l IH]; intros H; [exists 0%nat, 0%nat; reflexivity|].
  destruct IH as [a [b E]]; [intros i j Hij Hj; apply (H (Datatypes.S i) (Datatypes.S j)); [lia|exact Hj]|].
  destruct x; [exists (Datatypes.S a), b; cbn; rewrite E; reflexivity|].
  destruct a as [|a]; [exists 0%nat, (Datatypes.S b); cbn; rewrite E; reflexivity|].
  exfalso. specialize (H 0%nat 1%nat ltac:(lia)). rewrite E in H. cbn in H. specialize (H eq_refl). discriminate.
Qed.
Lemma sorted_nth : forall key l i j x y, sorted_by key l -> (i < j)%nat -> nth_error l i = Some x -> nth_error l j = Some y -> key x <= key y.
Proof.
  induction l as [|z l IH]; intros i j x y H Hij Hi Hj; [destruct i; discriminate|]. destruct H as [H1 H2]. destruct j as [|j]; [lia|]. destruct i as [|i]; cbn [nth_error] in *.
  - injection Hi as ->. rewrite Forall_forall in H1. apply H1. eapply nth_error_In. exact Hj.
  - apply (IH i j); auto. lia.
Qed.

(** * Reading *)
Lemma nth_map_lt : forall A B (f : A -> B) l i da db, (i < List.length l)%nat -> nth i (map f l) db = f (nth i l da).
Proof. intros A B f l i da db H. rewrite (nth_indep _ db (f da)) by (rewrite map_length; exact H). apply map_nth. Qed.
Lemma nth_error_nth_eq : forall A (l : list A) i d, (i < List.length l)%nat -> nth_error l i = Some (nth i l d).
Proof. intros. apply nth_error_nth'. assumption. Qed.
Lemma nth_of : forall A (l : list A) i x d, nth_error l i = Some x -> nth i l d = x /\ (i < List.length l)%nat.
Proof. intros A l i x d H. split; [apply nth_error_nth; exact H|apply nth_error_Some; congruence]. Qed.
Lemma surv_length : forall A drop (l : list A), List.length l = List.length drop -> List.length (keep drop l) = List.length (surv drop).
Proof. intros A drop l H. unfold surv. apply keep_length. rewrite seq_length. exact H. Qed.
Lemma surv_nodup : forall drop, NoDup (surv drop).
Proof. intros. apply keep_nodup, seq_NoDup. Qed.
Lemma nth_keep : forall A drop (l : list A) i d, List.length l = List.length drop -> (i < List.length (surv drop))%nat -> nth i (keep drop l) d = nth (nth i (surv drop) 0%nat) l d.
Proof. intros A drop l i d H Hi. rewrite (keep_surv A drop l d H). apply (nth_map_lt _ _ (fun j => nth j l d) (surv drop) i 0%nat). exact Hi. Qed.
Lemma nodup_map_inj : forall A B (f : A -> B) l, NoDup l -> (forall x y, In x l -> In y l -> f x = f y -> x = y) -> NoDup (map f l).
Proof.
  induction l as [|x l IH]; intros H Hf; [constructor|]. inversion H; subst. cbn [map]. constructor.
  - intro K. apply in_map_iff in K. destruct K as [y [E Hy]]. apply Hf in E; [subst; contradiction|right; exact Hy|left; reflexivity].
  - apply IH; [assumption|]. intros; apply Hf; auto; right; assumption.
Qed.

(** The parts of a successful reading *)
Lemma import_parts : forall A (d : arr A) m d' axes, import_pr d m = Ok (d', axes) ->
  exists ct drop ls,
    let dims := List.length (shape d) in
    let types := keep drop (rev ct) in
    let order := new_order types in
    let src := map (fun o => nth o (surv drop) 0%nat) order in
    let marks := map (fun l => m_eels m && eqb_str l (str "Energy")) ls in
    content_types m dims = Ok ct /\ List.length ct = dims /\ trivial (shape d) (rev ct) = Ok drop /\ List.length drop = dims /\
    labels (default_labels types) (map (fun i => nth i types None) order) = Ok ls /\
    List.length order = List.length (surv drop) /\ List.length types = List.length (surv drop) /\ List.length ls = List.length order /\
    d' = flip marks (moveaxis order (squeeze drop d)) /\
    make_axes ls (shape d') (map (fun i => nth i (keep drop (rev (calibrations m dims))) None) order) marks = Ok axes.
Proof.
  intros A d m d' axes H. unfold import_pr in H. destruct (content_types m (List.length (shape d))) as [ct|] eqn:E1; [|discriminate]. cbn [bind] in H.
  destruct (Nat.eqb (List.length (rev ct)) (List.length (shape d))) eqn:E2; [|discriminate]. cbn [negb] in H. apply Nat.eqb_eq in E2.
  destruct (trivial (shape d) (rev ct)) as [drop|] eqn:E3; [|discriminate]. cbn [bind] in H.
  destruct (labels (default_labels (keep drop (rev ct))) (map (fun i => nth i (keep drop (rev ct)) None) (new_order (keep drop (rev ct))))) as [ls|] eqn:E4; [|discriminate]. cbn [bind] in H.
  match type of H with bind ?x _ = _ => destruct x as [ax|] eqn:E5; [|discriminate] end. cbn [bind] in H. injection H as <- <-.
  destruct (trivial_ok _ _ _ E3 E2) as [L _]. exists ct, drop, ls. cbn zeta.
  assert (Lt : List.length (keep drop (rev ct)) = List.length (surv drop)) by (apply surv_length; lia).
  assert (Lo : List.length (new_order (keep drop (rev ct))) = List.length (surv drop)) by (rewrite (Permutation_length (order_perm _)), seq_length; exact Lt).
  rewrite rev_length in E2. repeat split; try assumption.
  destruct (labels_ok _ _ _ E4) as [K _]. rewrite K, map_length. reflexivity.
Qed.

Definition reversed (m : meta) (a : axis) : bool := m_eels m && eqb_str (a_name a) (str "Energy").
Theorem C63_import : forall A (d : arr A) m d' axes, import_pr d m = Ok (d', axes) ->
  let dims := List.length (shape d) in
  (** where each axis comes from *)
  exists src : list nat,
    NoDup src /\ (forall s, In s src -> (s < dims)%nat) /\
    (forall s, (s < dims)%nat -> ~ In s src -> nth s (shape d) 0 = 1) /\
    (** data and axes agree *)
    List.length axes = List.length src /\
    shape d' = map (fun s => nth s (shape d) 0) src /\ map a_size axes = shape d' /\
    (** navigation first *)
    (exists k l, map a_nav axes = repeat true k ++ repeat false l) /\
    (** numbers *)
    (forall idx from, List.length idx = List.length src -> List.length from = dims ->
       (forall i s a, nth_error src i = Some s -> nth_error axes i = Some a ->
          nth s from 0 = if reversed m a then a_size a - 1 - nth i idx 0 else nth i idx 0) ->
       (forall s, ~ In s src -> nth s from 0 = 0) -> at_ d' idx = at_ d from) /\
    (** names and calibrations: the file lists them from the last axis of the array *)
    (forall i s a, nth_error src i = Some s -> nth_error axes i = Some a ->
       (forall l x, m_types m = Some l -> List.length l = dims -> nth_error l (dims - 1 - s) = Some (Some x) -> a_name a = x) /\
       match m_calib m with
       | None => a_scale a = None
       | Some cs =>
           match nth (dims - 1 - s) cs None with
           | None => a_scale a = None
           | Some c => exists o v, c_offset c = Some o /\ c_value c = Some v /\
               exists offset scale, a_offset a = Some offset /\ a_scale a = Some scale /\ a_units a = c_unit c /\
                 forall j, value_at offset scale j =
                   if reversed m a then - value_at (o * v) scale (a_size a - 1 - j) else value_at (o * v) scale j
           end
       end).
Proof.
  intros A d m d' axes H dims. destruct (import_parts _ _ _ _ _ H) as [ct [drop [ls P]]]. cbn zeta in P. fold dims in P.
  set (types := keep drop (rev ct)) in *. set (order := new_order types) in *. set (marks := map (fun l => m_eels m && eqb_str l (str "Energy")) ls) in *.
  destruct P as [E1 [Lc [E3 [Ld [E4 [Lo [Lt [Ll [Ed Ea]]]]]]]]].
  set (n := List.length (surv drop)) in *.
  assert (Pm : Permutation order (seq 0 n)) by (rewrite <- Lt; apply order_perm).
  assert (Olt : forall o, In o order -> (o < n)%nat) by (intros o Ho; apply (Permutation_in _ Pm), in_seq in Ho; lia).
  set (src := map (fun o => nth o (surv drop) 0%nat) order) in *.
  assert (Ls : List.length src = n) by (unfold src; rewrite map_length; exact Lo).
  assert (Lm : List.length marks = n) by (unfold marks; rewrite map_length; lia).
  assert (Hsrc : forall i s, nth_error src i = Some s -> exists o, nth_error order i = Some o /\ s = nth o (surv drop) 0%nat /\ (o < n)%nat /\ In s (surv drop)).
  { intros i s Hi. unfold src in Hi. rewrite nth_error_map in Hi. destruct (nth_error order i) as [o|] eqn:Eo; [|discriminate]. cbn in Hi. injection Hi as <-.
    assert (Ho : (o < n)%nat) by (apply Olt; eapply nth_error_In; exact Eo). exists o. repeat split; auto. apply nth_In. exact Ho. }
  assert (Rin : forall s, In s src <-> In s (surv drop)).
  { intro s. split; [intro K; apply In_nth_error in K; destruct K as [i Hi]; destruct (Hsrc i s Hi) as [o [_ [_ [_ K]]]]; exact K|].
    intro K. apply (In_nth _ _ 0%nat) in K. destruct K as [o [Ho <-]]. unfold src. apply (in_map (fun o => nth o (surv drop) 0%nat)). apply (Permutation_in _ (Permutation_sym Pm)). apply in_seq. unfold n. lia. }
  assert (Sd : List.length (shape d) = List.length drop) by (unfold dims in Ld; lia).
  assert (Esh : shape d' = map (fun s => nth s (shape d) 0) src).
  { rewrite Ed. unfold flip, moveaxis, squeeze. cbn [shape]. unfold src. rewrite map_map. apply map_ext_in. intros o Ho. apply nth_keep; [exact Sd|apply Olt; exact Ho]. }
  assert (Lsh : List.length (shape d') = n) by (rewrite Esh, map_length; exact Ls).
  destruct (make_axes_ok _ _ _ _ _ Ea) as [La Ha]; [lia|rewrite map_length; lia|lia|].
  assert (Hax : forall i a, nth_error axes i = Some a -> (i < n)%nat /\ a_name a = nth i ls [] /\ a_size a = nth i (shape d') 0 /\ (a_nav a = true <-> navigates (nth i ls [])) /\ reversed m a = nth i marks false).
  { intros i a Hi. assert (Hn : (i < n)%nat) by (assert (Q : (i < List.length axes)%nat) by (apply nth_error_Some; congruence); lia). specialize (Ha i a Hi). apply make_axis_ok in Ha. destruct Ha as [H1 [H2 H3]].
    repeat split; auto; try (apply H3). unfold reversed, marks. rewrite (nth_map_lt _ _ _ ls i []) by lia. rewrite H1. reflexivity. }
  destruct (trivial_ok _ _ _ E3) as [_ Hdrop]; [rewrite rev_length; exact Lc|].
  exists src. split; [|split; [|split; [|split; [|split; [|split; [|split; [|split]]]]]]].
  - unfold src. apply nodup_map_inj; [apply (Permutation_NoDup (Permutation_sym Pm)), seq_NoDup|]. intros x y Hx Hy E. apply (proj1 (NoDup_nth (surv drop) 0%nat) (surv_nodup drop)); [apply Olt; exact Hx|apply Olt; exact Hy|exact E].
  - intros s Hs. apply Rin, surv_in in Hs. rewrite <- Ld. apply nth_error_Some. congruence.
  - intros s Hs Hn. rewrite <- Ld in Hs. apply nth_error_Some in Hs. destruct (nth_error drop s) as [[|]|] eqn:E; [|exfalso; apply Hn, Rin, surv_in; exact E|congruence].
    apply Hdrop. exact E.
  - lia.
  - exact Esh.
  - apply (nth_ext _ _ 0 0); [rewrite map_length; lia|]. intros i Hi. rewrite map_length in Hi.
    destruct (nth_error axes i) as [a|] eqn:E; [|apply nth_error_None in E; lia]. rewrite (nth_error_nth (map a_size axes) i 0 (x := a_size a)); [apply Hax; exact E|]. rewrite nth_error_map, E. reflexivity.
  - apply split_flags. intros i j Hij Hj. rewrite nth_error_map in *. destruct (nth_error axes j) as [b|] eqn:Ej; [|discriminate].
    cbn in Hj. injection Hj as Hj. destruct (Hax j b Ej) as [Jn [_ [_ [Jnav _]]]]. apply Jnav in Hj.
    destruct (nth_error axes i) as [a|] eqn:Ei; [|apply nth_error_None in Ei; lia]. cbn. f_equal. destruct (Hax i a Ei) as [In_ [_ [_ [Inav _]]]]. apply Inav.
    destruct (nth_error order i) as [oi|] eqn:Oi; [|apply nth_error_None in Oi; lia]. destruct (nth_error order j) as [oj|] eqn:Oj; [|apply nth_error_None in Oj; lia].
    pose proof (sorted_nth _ _ i j oi oj (order_sorted types) Hij Oi Oj) as K. cbn beta in K.
    set (ots := map (fun i => nth i types None) order) in *.
    assert (Tj : nth_error ots j = Some (nth oj types None)) by (unfold ots; rewrite nth_error_map, Oj; reflexivity).
    assert (Ti : nth_error ots i = Some (nth oi types None)) by (unfold ots; rewrite nth_error_map, Oi; reflexivity).
    destruct (nth oj types None) as [x|] eqn:Ex.
    + destruct (labels_ok _ _ _ E4) as [_ L1]. pose proof (L1 j x Tj) as Lj. apply (nth_error_nth ls j []) in Lj. rewrite Lj in Hj.
      assert (Kj : key_of (Some x) < 4) by (apply key_nav; exists x; auto).
      assert (Ki : key_of (nth oi types None) < 4) by (clear - K Kj; lia). apply key_nav in Ki. destruct Ki as [y [Ey Hy]].
      rewrite Ey in Ti. pose proof (L1 i y Ti) as Li. apply (nth_error_nth ls i []) in Li. rewrite Li. exact Hy.
    + exfalso. apply (default_not_nav types (nth j ls [])); [|exact Hj]. apply (labels_default _ _ _ j _ E4 Tj). apply nth_error_nth_eq. lia.
  - intros idx from Li Lf Hs Hz. rewrite Ed. unfold flip. cbn [at_]. unfold moveaxis at 1. cbn [at_]. unfold squeeze at 1. cbn [at_]. f_equal.
    assert (Ls1 : List.length (shape (squeeze drop d)) = n) by (unfold squeeze; cbn [shape]; apply surv_length; exact Sd).
    assert (Esh2 : shape (moveaxis order (squeeze drop d)) = shape d') by (rewrite Ed; reflexivity).
    rewrite Esh2, Ls1. rewrite (moved_index order n _ (keep drop from)).
    + apply unsqueeze_keep; [lia|]. intros i Hi. apply Hz. intro K. apply Rin, surv_in in K. congruence.
    + exact Pm.
    + rewrite flip_index_length; lia.
    + apply surv_length. lia.
    + intros i j Hij. destruct (nth_of _ _ _ _ 0%nat Hij) as [_ Hi]. assert (Hj : (j < n)%nat) by (apply Olt; eapply nth_error_In; exact Hij).
      rewrite nth_keep by (try lia; exact Hj). rewrite nth_flip by lia.
      destruct (nth_error axes i) as [a|] eqn:Eax; [|apply nth_error_None in Eax; lia].
      rewrite (Hs i (nth j (surv drop) 0%nat) a); [|unfold src; rewrite nth_error_map, Hij; reflexivity|exact Eax].
      destruct (Hax i a Eax) as [_ [_ [Hsz [_ Hrev]]]]. rewrite Hrev, Hsz. reflexivity.
  - intros i s a Hi Hia. destruct (Hsrc i s Hi) as [o [Ho [Es [On Hin]]]]. destruct (Hax i a Hia) as [In_ [Hname [Hsz [_ Hrev]]]].
    assert (Sl : (s < dims)%nat) by (apply surv_in in Hin; rewrite <- Ld; apply nth_error_Some; congruence).
    split.
    + intros l x Hl Hll Hx. assert (Ect : ct = l).
      { unfold content_types in E1. rewrite Hl in E1. destruct (is_type (m_type m) "1D"); [|congruence].
        destruct (Nat.eqb (List.length l) 1 && Nat.eqb dims 2) eqn:B1; [exfalso; clear - B1 Hll; lia|]. destruct (Nat.eqb (List.length l) 2 && Nat.eqb dims 3) eqn:B2; [exfalso; clear - B2 Hll; lia|].
        destruct (Nat.eqb (List.length l) dims); congruence. }
      subst l. destruct (labels_ok _ _ _ E4) as [_ L1]. rewrite Hname. apply (nth_error_nth ls i []). apply L1. rewrite nth_error_map, Ho. cbn. f_equal.
      unfold types. rewrite nth_keep; [|rewrite rev_length; lia|exact On]. rewrite <- Es. rewrite rev_nth by lia. apply nth_error_nth.
      replace (List.length ct - Datatypes.S s)%nat with (dims - 1 - s)%nat by lia. exact Hx.
    + specialize (Ha i a Hia).
      assert (Ec : nth i (map (fun i => nth i (keep drop (rev (calibrations m dims))) None) order) None = match m_calib m with Some l => nth (dims - 1 - s) l None | None => None end).
      { rewrite (nth_map_lt _ _ _ order i 0%nat) by lia. destruct (nth_of _ _ _ _ 0%nat Ho) as [-> _].
        assert (Lcal : List.length (calibrations m dims) = dims) by (unfold calibrations; rewrite map_length, seq_length; reflexivity).
        rewrite nth_keep; [|rewrite rev_length; lia|exact On]. rewrite <- Es, rev_nth by lia. unfold calibrations. rewrite (nth_map_lt _ _ _ (seq 0 dims) _ 0%nat) by (rewrite seq_length, map_length, seq_length; lia).
        rewrite map_length, seq_length, seq_nth by lia. replace (0 + (dims - Datatypes.S s))%nat with (dims - 1 - s)%nat by lia. reflexivity. }
      rewrite Ec in Ha. destruct (m_calib m) as [cs|]; [|cbn in Ha; injection Ha as <-; reflexivity].
      destruct (nth (dims - 1 - s) cs None) as [c|]; [|cbn in Ha; injection Ha as <-; reflexivity].
      rewrite <- Hrev in Ha. unfold make_axis in Ha. destruct (c_offset c) as [o'|]; [|discriminate]. destruct (c_value c) as [v|]; [|discriminate].
      exists o', v. split; [reflexivity|]. split; [reflexivity|]. set (r := reversed m a) in *. rewrite Hsz. injection Ha as Ha. clearbody r. subst a. cbn [a_offset a_scale a_units].
      eexists _, _. repeat split. intro j. unfold value_at. destruct r; ring.
Qed.

(** Lists of the metadata with one entry for each axis of the file go with the axes when
    only the first axis of the array may have been dropped. *)
Lemma surv_none : forall drop s, (forall i, nth_error drop i <> Some true) -> keep drop (seq s (List.length drop)) = seq s (List.length drop).
Proof.
  induction drop as [|[|] drop IH]; intros s H; [reflexivity|exfalso; apply (H 0%nat); reflexivity|]. cbn [List.length seq keep]. f_equal. apply IH. intros i. exact (H (Datatypes.S i)).
Qed.
Theorem C63_metadata : forall A (l : list A) drop order, List.length l = List.length drop ->
  Permutation order (seq 0 (List.length (surv drop))) ->
  (forall i, (0 < i)%nat -> nth_error drop i <> Some true) ->
  exists r, reorder l order = Ok r /\ List.length r = List.length order /\
    forall i o, nth_error order i = Some o -> nth_error r i = nth_error l (List.length l - 1 - nth o (surv drop) 0%nat).
Proof.
  intros A l drop order L P H.
  assert (K : forall (r : list A), (forall o, In o order -> nth_error r o = nth_error l (List.length l - 1 - nth o (surv drop) 0%nat)) ->
     (forall o, In o order -> (nth o (surv drop) 0%nat < List.length l)%nat) ->
     exists r', mapM (fun o => match nth_error r o with Some x => Ok x | None => Err OtherError end) order = Ok r' /\ List.length r' = List.length order /\
        forall i o, nth_error order i = Some o -> nth_error r' i = nth_error l (List.length l - 1 - nth o (surv drop) 0%nat)).
  { intros r Hr Hb. clear P. induction order as [|o order IH]; [exists []; repeat split; intros [|i]; discriminate|].
    destruct IH as [r' [E1 [E2 E3]]]; [intros; apply Hr; right; assumption|intros; apply Hb; right; assumption|].
    pose proof (Hr o (or_introl eq_refl)) as Ho. pose proof (Hb o (or_introl eq_refl)) as Hbo.
    destruct (nth_error l (List.length l - 1 - nth o (surv drop) 0%nat)) as [x|] eqn:Ex; [|apply nth_error_None in Ex; lia].
    exists (x :: r'). cbn [mapM]. rewrite Ho. cbn [bind]. rewrite E1. cbn [bind]. repeat split; [cbn; lia|].
    intros [|i] o' Hi; cbn [nth_error] in *; [injection Hi as <-; symmetry; exact Ex|apply E3; exact Hi]. }
  assert (Ol : List.length order = List.length (surv drop)) by (rewrite (Permutation_length P), seq_length; reflexivity).
  assert (Oin : forall o, In o order -> (o < List.length (surv drop))%nat) by (intros o Ho; apply (Permutation_in _ P), in_seq in Ho; lia).
  assert (Rev : forall (k : list A) j, (j < List.length k)%nat -> nth_error (rev k) j = nth_error k (List.length k - 1 - j)).
  { intros k j Hj. destruct k as [|a0 k']; [cbn in Hj; lia|]. rewrite (nth_error_nth_eq _ _ j a0) by (rewrite rev_length; exact Hj). rewrite (nth_error_nth_eq _ _ _ a0) by lia. f_equal. rewrite rev_nth by exact Hj. f_equal. lia. }
  unfold reorder. destruct drop as [|[|] drop].
  - destruct l; [|discriminate]. cbn in Ol. destruct order; [|discriminate]. exists []. repeat split. intros [|i]; discriminate.
  - assert (Es : surv (true :: drop) = seq 1 (List.length drop)) by (unfold surv; cbn [List.length seq keep]; apply surv_none; intros i; apply (H (Datatypes.S i)); lia).
    rewrite Es, seq_length in *. cbn [List.length] in L. replace (Nat.eqb (List.length l) (List.length order + 1)) with true by (symmetry; apply Nat.eqb_eq; lia).
    apply K.
    + intros o Ho. specialize (Oin o Ho). rewrite seq_nth by exact Oin.
      destruct (exists_last (l := l)) as [l0 [z El]]; [destruct l; [discriminate|congruence]|]. subst l. rewrite removelast_last. rewrite app_length in *. cbn [List.length] in *.
      rewrite Rev by lia. rewrite nth_error_app1 by lia. f_equal. lia.
    + intros o Ho. specialize (Oin o Ho). rewrite seq_nth by exact Oin. lia.
  - assert (Es : surv (false :: drop) = seq 0 (List.length (false :: drop))) by (apply surv_none; intros [|i]; [discriminate|apply H; lia]).
    rewrite Es, seq_length in *. replace (Nat.eqb (List.length l) (List.length order + 1)) with false by (symmetry; apply Nat.eqb_neq; lia).
    apply K; intros o Ho; specialize (Oin o Ho); rewrite seq_nth by exact Oin; [|lia]. rewrite Rev by lia. f_equal.
Qed.
(** When another axis is dropped they do not. *)
Theorem C63_metadata_refuted : exists (l : list Z) drop order, List.length l = List.length drop /\
  Permutation order (seq 0 (List.length (surv drop))) /\
  exists r, reorder l order = Ok r /\
    exists i o, nth_error order i = Some o /\ nth_error r i <> nth_error l (List.length l - 1 - nth o (surv drop) 0%nat).
Proof.
  exists [10; 20; 30], [false; false; true], [0; 1]%nat. split; [reflexivity|]. split; [apply Permutation_refl|].
  exists [20; 10]. split; [reflexivity|]. exists 0%nat, 0%nat. split; [reflexivity|discriminate].
Qed.
(** Axes of size one without a content type, and more than three axes without one, cannot be read. *)
Theorem C63_untyped_refuted : forall A (f : list Z -> A),
  (exists sh m, Forall (fun n => 0 < n) sh /\ import_pr (Arr sh f) m = Err TypeError) /\
  (exists sh m, Forall (fun n => 1 < n) sh /\ import_pr (Arr sh f) m = Err StopIteration).
Proof.
  intros A f. split.
  - exists [1; 5], {| m_type := None; m_types := None; m_calib := None; m_eels := false |}. split; [repeat constructor|reflexivity].
  - exists [2; 2; 2; 2], {| m_type := None; m_types := Some [None; None; None; None]; m_calib := None; m_eels := false |}. split; [repeat constructor|reflexivity].
Qed.

(** * Writing and reading *)
Lemma insert_last : forall key x acc, (forall y, In y acc -> key y <= key x) -> insert_by key x acc = acc ++ [x].
Proof.
  induction acc as [|y acc IH]; intros H; [reflexivity|]. cbn [insert_by app]. replace (key y <=? key x) with true by (symmetry; apply Z.leb_le; apply H; left; reflexivity).
  rewrite IH; [reflexivity|]. intros; apply H; right; assumption.
Qed.
Lemma sort_id : forall key l acc, sorted_by key (acc ++ l) -> sort_by key l acc = acc ++ l.
Proof.
  induction l as [|x l IH]; intros acc H; [rewrite app_nil_r; reflexivity|]. cbn [sort_by].
  assert (K : forall y, In y acc -> key y <= key x).
  { clear IH. induction acc as [|z acc IHa]; intros y Hy; [destruct Hy|]. cbn [app sorted_by] in H. destruct H as [H1 H2]. destruct Hy as [<-|Hy]; [|apply IHa; assumption].
    rewrite Forall_forall in H1. apply H1. apply in_or_app. right. left. reflexivity. }
  rewrite insert_last by exact K. rewrite IH; rewrite <- app_assoc; [reflexivity|exact H].
Qed.
Fixpoint ascending (ks : list Z) : Prop := match ks with [] => True | k :: ks' => Forall (fun k' => k <= k') ks' /\ ascending ks' end.
Lemma sorted_ascending : forall key l, ascending (map key l) -> sorted_by key l.
Proof. induction l as [|x l IH]; intros H; [exact I|]. destruct H as [H1 H2]. split; [|apply IH; exact H2]. rewrite Forall_map in H1. exact H1. Qed.
Lemma order_id : forall ts, ascending (map key_of ts) -> new_order ts = seq 0 (List.length ts).
Proof.
  intros ts H. unfold new_order. rewrite sort_id; [reflexivity|]. cbn [app]. apply sorted_ascending.
  rewrite <- (map_map (fun i => nth i ts None) key_of). rewrite <- (as_map _ ts None). exact H.
Qed.
Lemma trivial_none : forall sh ts, Forall (fun n => 1 < n) sh -> List.length ts = List.length sh -> trivial sh ts = Ok (repeat false (List.length sh)).
Proof.
  induction sh as [|n sh IH]; intros [|t ts] H L; try discriminate; [reflexivity|]. inversion H; subst. cbn [trivial]. replace (n =? 1) with false by (symmetry; apply Z.eqb_neq; lia). cbn [bind].
  rewrite IH by (try assumption; cbn in L; lia). reflexivity.
Qed.
Lemma keep_all : forall A (l : list A), keep (repeat false (List.length l)) l = l.
Proof. induction l as [|x l IH]; [reflexivity|]. cbn [List.length repeat keep]. rewrite IH. reflexivity. Qed.
Lemma keep_all' : forall A (l : list A) n, n = List.length l -> keep (repeat false n) l = l.
Proof. intros A l n ->. apply keep_all. Qed.
Lemma unsqueeze_all : forall idx, unsqueeze (repeat false (List.length idx)) idx = idx.
Proof. induction idx as [|x l IH]; [reflexivity|]. cbn [List.length repeat unsqueeze]. rewrite IH. reflexivity. Qed.
Lemma flip_none : forall n sh idx, List.length sh = n -> List.length idx = n -> flip_index (repeat false n) sh idx = idx.
Proof. induction n as [|n IH]; intros [|a sh] [|i idx] H1 H2; try discriminate; [reflexivity|]. cbn [repeat flip_index]. rewrite IH by (cbn in *; lia). reflexivity. Qed.
Definition is_nav (l : pystr) : bool := existsb (eqb_str l) navigation_dimensions.
Lemma make_axes_plain : forall ls sh n, List.length sh = List.length ls -> n = List.length ls ->
  exists axes, make_axes ls sh (repeat None n) (repeat false n) = Ok axes /\ map a_nav axes = map is_nav ls.
Proof.
  induction ls as [|l ls IH]; intros [|k sh] n L ->; try discriminate; [exists []; split; reflexivity|].
  destruct (IH sh (List.length ls) ltac:(cbn in L; lia) eq_refl) as [axes [E1 E2]]. cbn [List.length repeat make_axes make_axis bind]. rewrite E1. cbn [bind]. eexists. split; [reflexivity|].
  cbn [map a_nav]. rewrite E2. reflexivity.
Qed.
Lemma import_plain : forall A (d : arr A) m ts ls, m_calib m = None -> content_types m (List.length (shape d)) = Ok (rev ts) ->
  List.length ts = List.length (shape d) -> Forall (fun n => 1 < n) (shape d) -> ascending (map key_of ts) ->
  labels (default_labels ts) ts = Ok ls -> ~ In (str "Energy") ls ->
  exists d' axes, import_pr d m = Ok (d', axes) /\ shape d' = shape d /\ (forall idx, List.length idx = List.length (shape d) -> at_ d' idx = at_ d idx) /\
    map a_nav axes = map is_nav ls.
Proof.
  intros A d m ts ls Hc Ht Hl Hs Ha Hls He. unfold import_pr. rewrite Ht. cbn [bind]. rewrite rev_involutive. rewrite Hl, Nat.eqb_refl. cbn [negb].
  rewrite (trivial_none _ _ Hs Hl). cbn [bind]. rewrite (keep_all' _ ts) by lia. rewrite (order_id ts Ha). rewrite <- (as_map _ ts None). rewrite Hls. cbn [bind].
  destruct (labels_ok _ _ _ Hls) as [Ll _].
  assert (Em : map (fun l => m_eels m && eqb_str l (str "Energy")) ls = repeat false (List.length ls)).
  { clear - He. induction ls as [|l ls IH]; [reflexivity|]. cbn [map List.length repeat]. rewrite IH by (intro; apply He; right; assumption). f_equal.
    destruct (eqb_str l (str "Energy")) eqn:E; [apply eqb_str_spec in E; subst; exfalso; apply He; left; reflexivity|apply andb_false_r]. }
  rewrite Em.
  assert (Esq : shape (squeeze (repeat false (List.length (shape d))) d) = shape d) by (unfold squeeze; cbn [shape]; apply keep_all).
  assert (Esh : shape (moveaxis (seq 0 (List.length ts)) (squeeze (repeat false (List.length (shape d))) d)) = shape d).
  { unfold moveaxis. cbn [shape]. rewrite Esq. symmetry. rewrite Hl. apply as_map. }
  set (d2 := moveaxis (seq 0 (List.length ts)) (squeeze (repeat false (List.length (shape d))) d)) in *.
  set (cals := map (fun i => nth i (keep (repeat false (List.length (shape d))) (rev (calibrations m (List.length (shape d))))) None) (seq 0 (List.length ts))).
  assert (Ec : cals = repeat None (List.length ls)).
  { unfold cals. unfold calibrations. rewrite Hc. assert (Z0 : forall k, map (fun _ : nat => @None calib) (seq 0 k) = repeat None k) by (intro k; generalize 0%nat; induction k as [|k IH]; intro s; cbn [seq map repeat]; [reflexivity|rewrite IH; reflexivity]).
    rewrite Z0, Ll, Hl. transitivity (map (fun _ : nat => @None calib) (seq 0 (List.length (shape d)))); [|apply Z0]. apply map_ext. intro i.
    assert (Q : forall x, In x (keep (repeat false (List.length (shape d))) (rev (repeat (@None calib) (List.length (shape d))))) -> x = None) by (intros x Hx; apply in_keep, in_rev in Hx; apply repeat_spec in Hx; exact Hx).
    destruct (nth_in_or_default i (keep (repeat false (List.length (shape d))) (rev (repeat (@None calib) (List.length (shape d))))) None) as [K|K]; [apply Q; exact K|exact K]. }
  rewrite Ec. destruct (make_axes_plain ls (shape (flip (repeat false (List.length ls)) d2)) (List.length ls)) as [axes [Eax Enav]]; [unfold flip; cbn [shape]; rewrite Esh; lia|reflexivity|].
  rewrite Eax. cbn [bind]. eexists _, axes. split; [reflexivity|]. split; [exact Esh|]. split; [|exact Enav].
  intros idx Hi. unfold flip. cbn [at_]. rewrite Esh. rewrite flip_none by lia. unfold d2, moveaxis. cbn [at_]. rewrite Esq.
  rewrite (moved_index _ _ _ idx); [|rewrite Hl; apply Permutation_refl|rewrite seq_length; lia|lia|].
  - unfold squeeze. cbn [at_]. rewrite <- Hi. rewrite unsqueeze_all. reflexivity.
  - intros i j Hij. assert (Hi2 : (i < List.length ts)%nat) by (rewrite <- (seq_length (List.length ts) 0); apply nth_error_Some; congruence).
    rewrite (nth_error_nth_eq _ _ i 0%nat) in Hij by (rewrite seq_length; exact Hi2). rewrite seq_nth in Hij by exact Hi2. injection Hij as <-. reflexivity.
Qed.

(** Files of type 1D that list no content types, or fewer than they have axes, hold spectra. *)
Theorem C63_spectra : forall A (d : arr A) m, m_type m = Some (str "1D") -> m_calib m = None -> Forall (fun n => 1 < n) (shape d) ->
  let dims := List.length (shape d) in
  dims = 2%nat \/ dims = 3%nat ->
  m_types m = None \/ (exists l, m_types m = Some l /\ List.length l = (dims - 1)%nat) ->
  exists d' axes, import_pr d m = Ok (d', axes) /\ shape d' = shape d /\ (forall idx, List.length idx = dims -> at_ d' idx = at_ d idx) /\
    map a_nav axes = repeat true (dims - 1) ++ [false].
Proof.
  intros A d m Ht Hc Hs dims Hd Hm. destruct Hd as [Hd|Hd].
  - replace (repeat true (dims - 1) ++ [false]) with (map is_nav [str "PlotIndex"; str "X"]) by (rewrite Hd; reflexivity). apply (import_plain A d m [Some (str "PlotIndex"); None] [str "PlotIndex"; str "X"]); auto.
    + fold dims. rewrite Hd. unfold content_types. rewrite Ht. destruct Hm as [->|[l [-> Hl]]]; [reflexivity|]. rewrite Hl, Hd. reflexivity.
    + vm_compute; repeat constructor; discriminate.
    + intros [K|[K|[]]]; discriminate.
  - replace (repeat true (dims - 1) ++ [false]) with (map is_nav [str "Index"; str "PlotIndex"; str "X"]) by (rewrite Hd; reflexivity). apply (import_plain A d m [Some (str "Index"); Some (str "PlotIndex"); None] [str "Index"; str "PlotIndex"; str "X"]); auto.
    + fold dims. rewrite Hd. unfold content_types. rewrite Ht. destruct Hm as [->|[l [-> Hl]]]; [reflexivity|]. rewrite Hl, Hd. reflexivity.
    + vm_compute; repeat constructor; discriminate.
    + intros [K|[K|[K|[]]]]; discriminate.
Qed.

Definition unnamed (a : axis) : Prop := ~ In (a_name a) [str "Energy loss"; str "Energy"; str "ScanX"; str "ScanY"].
Lemma type_for_unnamed : forall a, unnamed a -> type_for (a_name a) = None.
Proof.
  intros a H. unfold type_for, unnamed in *. cbn [In] in H.
  repeat match goal with |- context[eqb_str (a_name a) ?y] => destruct (eqb_str (a_name a) y) eqn:?; [exfalso; apply H; match goal with K : eqb_str _ _ = true |- _ => apply eqb_str_spec in K; rewrite K end; tauto|] end.
  reflexivity.
Qed.
Lemma unnamed_types : forall axes, Forall unnamed axes -> map (fun a => type_for (a_name a)) axes = repeat None (List.length axes).
Proof. induction axes as [|a axes IH]; intros H; [reflexivity|]. inversion H; subst. cbn [map List.length repeat]. rewrite IH, type_for_unnamed by assumption. reflexivity. Qed.
Lemma all_none : forall n, forallb (@is_none pystr) (repeat None n) = true.
Proof. induction n; [reflexivity|]. cbn. assumption. Qed.
Lemma count_signal : forall axes a b, map a_nav axes = repeat true a ++ repeat false b -> List.length (filter (fun x => negb (a_nav x)) axes) = b.
Proof.
  induction axes as [|x axes IH]; intros a b H; [destruct a, b; try discriminate; reflexivity|]. cbn [map] in H. cbn [filter]. destruct a as [|a].
  - destruct b as [|b]; [discriminate|]. cbn in H. injection H as H1 H2. rewrite H1. cbn [negb List.length]. rewrite (IH 0%nat b H2). reflexivity.
  - cbn in H. injection H as H1 H2. rewrite H1. cbn [negb]. apply (IH a b H2).
Qed.

Lemma labels_repeat : forall k x defs ts l, labels defs ts = Ok l -> labels defs (repeat (Some x) k ++ ts) = Ok (repeat x k ++ l).
Proof. induction k as [|k IH]; intros x defs ts l H; [exact H|]. cbn [repeat app labels]. rewrite (IH _ _ _ _ H). reflexivity. Qed.
Lemma filter_repeat_some : forall k (x : pystr) ts, filter (@is_none pystr) (repeat (Some x) k ++ ts) = filter is_none ts.
Proof. induction k as [|k IH]; intros x ts; [reflexivity|]. cbn. apply IH. Qed.
Lemma ascending_repeat : forall k x l, Forall (fun y => x <= y) l -> ascending l -> ascending (repeat x k ++ l).
Proof.
  induction k as [|k IH]; intros x l H1 H2; [exact H2|]. cbn [repeat app ascending]. split; [|apply IH; assumption].
  apply Forall_app. split; [|exact H1]. apply Forall_forall. intros y Hy. apply repeat_spec in Hy. lia.
Qed.
Lemma rev_repeat : forall A (x : A) n, rev (repeat x n) = repeat x n.
Proof. induction n as [|n IH]; [reflexivity|]. cbn [repeat rev]. rewrite IH. symmetry. apply repeat_cons. Qed.
Lemma map_repeat : forall A B (f : A -> B) x n, map f (repeat x n) = repeat (f x) n.
Proof. induction n as [|n IH]; [reflexivity|]. cbn. rewrite IH. reflexivity. Qed.

(** Images with any number of navigation axes, and line profiles with one or two, keep data
    and roles of axes. *)
Theorem C64_round_trip : forall A (d : arr A) axes eels a b, List.length axes = List.length (shape d) -> Forall unnamed axes ->
  Forall (fun n => 1 < n) (shape d) -> map a_nav axes = repeat true a ++ repeat false b ->
  b = 2%nat \/ (b = 1%nat /\ (a = 1%nat \/ a = 2%nat)) ->
  exists d' axes', import_pr d (export_meta eels axes) = Ok (d', axes') /\ shape d' = shape d /\
    (forall idx, List.length idx = List.length (shape d) -> at_ d' idx = at_ d idx) /\
    map a_nav axes' = map a_nav axes.
Proof.
  intros A d axes eels a b L Hu Hs Hn Hab. pose proof (count_signal _ _ _ Hn) as Hc.
  assert (Hd : List.length (shape d) = (a + b)%nat) by (rewrite <- L, <- (map_length a_nav), Hn, app_length, !repeat_length; reflexivity).
  set (dims := List.length (shape d)) in *.
  assert (Hm : export_meta eels axes = {| m_type := if Nat.eqb b 1 then Some (str "1D") else None; m_types := None; m_calib := None; m_eels := eels |}).
  { unfold export_meta. rewrite unnamed_types by exact Hu. rewrite all_none, Hc. reflexivity. }
  rewrite Hm, Hn.
  assert (G : exists ts ls, content_types {| m_type := if Nat.eqb b 1 then Some (str "1D") else None; m_types := None; m_calib := None; m_eels := eels |} dims = Ok (rev ts) /\
     List.length ts = dims /\ ascending (map key_of ts) /\ labels (default_labels ts) ts = Ok ls /\ ~ In (str "Energy") ls /\ map is_nav ls = repeat true a ++ repeat false b).
  { destruct Hab as [->|[-> [->| ->]]].
    - exists (repeat (Some (str "Index")) a ++ [None; None]), (repeat (str "Index") a ++ [str "Y"; str "X"]). split; [|split; [|split; [|split; [|split]]]].
      + rewrite rev_app_distr, rev_repeat. cbn [rev app]. unfold content_types. cbn [m_types m_type is_type Nat.eqb andb orb]. f_equal. rewrite Hd. destruct a as [|a]; [reflexivity|].
        replace (3 <=? Datatypes.S a + 2)%nat with true by (symmetry; apply Nat.leb_le; lia). replace (Datatypes.S a + 2 - 2)%nat with (Datatypes.S a) by lia. reflexivity.
      + rewrite app_length, repeat_length. cbn. lia.
      + rewrite map_app, map_repeat. apply ascending_repeat; [|]; vm_compute; repeat constructor; discriminate.
      + unfold default_labels. rewrite filter_repeat_some. apply labels_repeat. reflexivity.
      + intro K. apply in_app_or in K. destruct K as [K|[K|[K|[]]]]; [apply repeat_spec in K|..]; discriminate.
      + rewrite map_app, map_repeat. reflexivity.
    - exists [Some (str "PlotIndex"); None], [str "PlotIndex"; str "X"]. rewrite Hd. split; [reflexivity|]. split; [reflexivity|].
      split; [vm_compute; repeat constructor; discriminate|]. split; [reflexivity|]. split; [|reflexivity]. intros [K|[K|[]]]; discriminate.
    - exists [Some (str "Index"); Some (str "PlotIndex"); None], [str "Index"; str "PlotIndex"; str "X"]. rewrite Hd. split; [reflexivity|]. split; [reflexivity|].
      split; [vm_compute; repeat constructor; discriminate|]. split; [reflexivity|]. split; [|reflexivity]. intros [K|[K|[K|[]]]]; discriminate. }
  destruct G as [ts [ls [G1 [G2 [G3 [G4 [G5 G6]]]]]]]. rewrite <- G6. apply (import_plain A d _ ts ls); auto.
Qed.

Definition ax (n : string) (nav : bool) (size : Z) : axis := {| a_name := str n; a_nav := nav; a_size := size; a_units := None; a_offset := None; a_scale := None |}.
(** A spectrum, and spectra on three navigation axes, are written but cannot be read. *)
Theorem C64_spectrum_refuted : forall A (f : list Z -> A),
  import_pr (Arr [100] f) (export_meta false [ax "x" false 100]) = Err OtherError /\
  import_pr (Arr [2; 3; 4; 100] f) (export_meta false [ax "z" true 2; ax "y" true 3; ax "x" true 4; ax "e" false 100]) = Err OtherError.
Proof. intros. split; reflexivity. Qed.
(** Scan axes named as the reader names them come back transposed. *)
Theorem C64_scan_refuted : forall A (f : list Z -> A), exists d' axes',
  import_pr (Arr [2; 3; 4; 5] f) (export_meta false [ax "ScanY" true 2; ax "ScanX" true 3; ax "y" false 4; ax "x" false 5]) = Ok (d', axes') /\
  shape d' = [3; 2; 4; 5] /\ forall i j k l, at_ d' [i; j; k; l] = f [j; i; k; l].
Proof. intros A f. eexists _, _. split; [reflexivity|]. split; [reflexivity|]. intros. reflexivity. Qed.
(** A spectrum image with an energy axis comes back with the energy axis first and, when
    it is an EELS spectrum, reversed. *)
Theorem C64_energy_refuted : forall A (f : list Z -> A), exists d' axes',
  import_pr (Arr [2; 3; 4] f) (export_meta true [ax "y" true 2; ax "x" true 3; ax "Energy loss" false 4]) = Ok (d', axes') /\
  shape d' = [4; 2; 3] /\ (forall i j k, at_ d' [k; i; j] = f [i; j; 4 - 1 - k]) /\ map a_nav axes' = [false; false; false].
Proof. intros A f. eexists _, _. split; [reflexivity|]. split; [reflexivity|]. split; [|reflexivity]. intros. reflexivity. Qed.

(** * Examples *)
Definition cal (u : string) (o v : Z) : option calib := Some {| c_unit := Some (str u); c_value := Some v; c_offset := Some o; c_factor := None |}.
(** Spectra on a scan: the file lists Energy, ScanX, ScanY, Index; one value of the index. *)
Definition eels_meta : meta := {| m_type := Some (str "Stack");
  m_types := Some [Some (str "Energy"); Some (str "ScanX"); Some (str "ScanY"); Some (str "Index")];
  m_calib := Some [cal "eV" 5 2; cal "m" 0 3; None]; m_eels := true |}.
Example C63_import_example :
  match import_pr (Arr [1; 2; 3; 4] (fun idx => idx)) eels_meta with
  | Ok (d, axes) => shape d = [2; 3; 4] /\ at_ d [1; 2; 0] = [0; 1; 2; 3] /\
      axes = [{| a_name := str "ScanY"; a_nav := true; a_size := 2; a_units := None; a_offset := None; a_scale := None |};
              {| a_name := str "ScanX"; a_nav := true; a_size := 3; a_units := Some (str "m"); a_offset := Some 0; a_scale := Some 3 |};
              {| a_name := str "Energy"; a_nav := false; a_size := 4; a_units := Some (str "eV"); a_offset := Some (-16); a_scale := Some 2 |}]
  | Err _ => False
  end.
Proof. repeat split. Qed.
Example C63_metadata_example : reorder [10; 20; 30; 40] [1; 0; 2]%nat = Ok [20; 30; 10] /\ surv [true; false; false; false] = [1; 2; 3]%nat.
Proof. split; reflexivity. Qed.
Example C63_spectra_example :
  match import_pr (Arr [2; 3; 4] (fun idx => idx)) {| m_type := Some (str "1D"); m_types := Some [None; None]; m_calib := None; m_eels := false |} with
  | Ok (_, axes) => map a_nav axes = [true; true; false]
  | Err _ => False
  end.
Proof. reflexivity. Qed.
Example C64_example : Forall unnamed [ax "" true 2; ax "x" true 3; ax "y" false 4; ax "z" false 5].
Proof. repeat constructor; unfold unnamed; cbn; intuition discriminate. Qed.

Print Assumptions C63_import.
Print Assumptions C63_metadata.
Print Assumptions C63_spectra.
Print Assumptions C63_metadata_refuted.
Print Assumptions C63_untyped_refuted.
Print Assumptions C64_round_trip.
Print Assumptions C64_spectrum_refuted.
Print Assumptions C64_scan_refuted.
Print Assumptions C64_energy_refuted.
