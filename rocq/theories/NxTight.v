(** C118-C121: further facts about Nexus files. *)
From Coq Require Import QArith.
From Verif Require Import Base Text HierModel DistModel RplModel SfsModel HierProps HierProof Dict LogText NxModel NxProps NxFind NxMeta NxSearch NxAxes NxFile NxDemo.
Local Open Scope Z_scope.

(** * Values *)
Lemma in_lstrip : forall c s, In c (lstrip s) -> In c s.
Proof. induction s as [|x s IH]; cbn; [tauto|]. destruct (is_space x); cbn; tauto. Qed.
(** Texts lose every zero byte and the blanks at their end, and nothing else. *)
Theorem C120_clean : forall s, ~ In 0 (clean s) /\ (forall t c, s = t ++ [c] -> ~ In 0 s -> is_space c = false -> clean s = s).
Proof.
  intros s. split.
  - intros I. unfold clean, rstrip in I. apply in_rev in I. apply in_lstrip in I. apply in_rev in I. apply filter_In in I. destruct I as [_ I]. discriminate.
  - intros t c E N S. unfold clean. assert (F : filter (fun c => negb (c =? 0)) s = s).
    { clear E. induction s as [|x s IH]; [reflexivity|]. cbn [filter]. destruct (Z.eqb_spec x 0) as [->|D]; [exfalso; apply N; left; reflexivity|].
      cbn [negb]. f_equal. apply IH. intros I. apply N. right. exact I. }
    rewrite F. unfold rstrip. subst s. rewrite rev_app_distr. cbn [rev app lstrip]. rewrite S. rewrite <- (rev_involutive t) at 2. reflexivity.
Qed.
(** Of one element, attributes and datasets are that element; nothing is not a dataset; None and dictionaries are not written as values. *)
Theorem C120_single : forall s q sh,
  parse_attr (CTexts false [s]) = MText s /\ parse_attr (CArr [1] [q]) = MNum q /\
  parse_data (CTexts false [s]) = parse_data (CText false s) /\ parse_data (CArr sh [q]) = Ok (MNum q) /\
  parse_data (CTexts false []) = Err ValueError /\ parse_data (CArr sh []) = Err ValueError /\
  to_file MNone = Err TypeError /\ (forall d, to_file (MDict d) = Err TypeError).
Proof. repeat split. Qed.
(** Names are written once. *)
Theorem C120_create : forall k c items, (exists x, lookup k items = Some x) -> create k c items = Err ValueError.
Proof. intros k c items [x H]. unfold create. rewrite H. reflexivity. Qed.
(** Each dictionary of a list gets a group of its own. *)
Theorem C120_groups : forall a b, again [(str "p", MDicts [[(str "x", MNum a)]; [(str "y", MNum b)]])] = Ok [note; (str "_axes_0", MDict [(str "x", MNum a)]); (str "_axes_1", MDict [(str "y", MNum b)])].
Proof. intros a b. reflexivity. Qed.

(** * Axes *)
Lemma plain_nth : forall shape i k n, nth_error shape k = Some n ->
  exists ax, nth_error (plain_axes i shape) k = Some ax /\ x_size ax = n /\ x_index ax = i + Z.of_nat k /\ x_nav ax = true /\ x_name ax = None /\ x_scale ax = 1%Q /\ x_offset ax = 0%Q.
Proof.
  induction shape as [|m shape IH]; intros i [|k] n H; try discriminate; cbn [nth_error plain_axes] in *.
  - injection H as ->. eexists. split; [reflexivity|]. cbn. repeat split. lia.
  - destruct (IH (i + 1) k n H) as (ax & E & S & I & R). exists ax. split; [exact E|]. split; [exact S|]. split; [lia|exact R].
Qed.
Theorem C118_plain : forall shape k n, nth_error shape k = Some n ->
  exists ax, nth_error (plain_axes 0 shape) k = Some ax /\ x_size ax = n /\ x_index ax = Z.of_nat k /\ x_nav ax = true /\ x_name ax = None /\ x_scale ax = 1%Q /\ x_offset ax = 0%Q.
Proof. intros shape k n H. destruct (plain_nth shape 0 k n H) as (ax & E & S & I & R). exists ax. rewrite I. repeat split; tauto. Qed.
(** A signal attribute that is a number stands for "data"; without one there has to be "data". *)
Theorem C118_signal_number : forall a items f s n, lookup (str "signal") a = Some (CText f s) -> parse_int s = Ok n -> data_key a items = Ok (str "data").
Proof. intros a items f s n H P. unfold data_key. rewrite H, P. reflexivity. Qed.
Theorem C118_missing : forall a items, lookup (str "signal") a = None -> has "data" items = false -> data_key a items = Err ValueError.
Proof. intros a items H P. unfold data_key. rewrite H, P. reflexivity. Qed.
(** Uniform axes are the same iff everything in them is; two lists of values cannot be compared. *)
Lemma option_same : forall a b, eqb_option a b = true <-> a = b.
Proof.
  intros [a|] [b|]; cbn; split; intros H; try discriminate; try reflexivity.
  - apply eqb_str_spec in H. congruence.
  - injection H as ->. apply eqb_str_spec. reflexivity.
Qed.
Theorem C121_same : forall a b o s n o' s' n', w_kind a = Uniform o s n -> w_kind b = Uniform o' s' n' ->
  (same_axis a b = Ok true <-> w_name a = w_name b /\ w_units a = w_units b /\ w_nav a = w_nav b /\ (o == o')%Q /\ (s == s')%Q /\ n = n').
Proof.
  intros a b o s n o' s' n' A B. unfold same_axis. rewrite A, B. rewrite <- !option_same, <- !Qeq_bool_iff, <- Nat.eqb_eq, <- (eqb_true_iff (w_nav a)).
  destruct (eqb_option (w_name a) (w_name b)), (eqb_option (w_units a) (w_units b)), (Bool.eqb (w_nav a) (w_nav b)), (Qeq_bool o o'), (Qeq_bool s s'), (n =? n')%nat; cbn; intuition congruence.
Qed.
Theorem C121_lists : forall a b l l', w_kind a = Listed l -> w_kind b = Listed l' -> w_name a = w_name b -> w_units a = w_units b -> w_nav a = w_nav b -> same_axis a b = Err ValueError.
Proof.
  intros a b l l' A B N U V. unfold same_axis. rewrite A, B, V, eqb_reflx. apply option_same in N. apply option_same in U. rewrite N, U. reflexivity.
Qed.
(** The number of an axis is the one of the first axis that is the same. *)
Theorem C121_index : forall before b rest ax n, (forall x, In x before -> same_axis x ax = Ok false) -> same_axis b ax = Ok true -> (List.length before < n)%nat ->
  axis_index 0 n ax (before ++ b :: rest) = Ok (Z.of_nat (List.length before)).
Proof.
  intros before b rest ax. assert (G : forall n i, (forall x, In x before -> same_axis x ax = Ok false) -> same_axis b ax = Ok true -> (List.length before < n)%nat ->
    axis_index i n ax (before ++ b :: rest) = Ok (i + Z.of_nat (List.length before))).
  { induction before as [|x before IH]; intros [|n] i F B L; cbn [List.length] in L; try lia; cbn [app axis_index].
    - rewrite B. cbn. f_equal. lia.
    - rewrite (F x (or_introl eq_refl)). cbn [bind]. rewrite IH; [cbn [List.length]; f_equal; lia|intros y I; apply F; right; exact I|exact B|lia]. }
  intros n F B L. rewrite G by assumption. reflexivity.
Qed.
Theorem C121_function : axis_values Functional = Err ValueError.
Proof. reflexivity. Qed.

(** * Defaults and titles *)
(** Of a file with two defaults, the NXdata whose paths contain them both and none of the other datasets are read. *)
Theorem C119_defaults : forall original nx hdf top e t n s,
  lookup (str "attrs") original = Some (MDict top) -> lookup (str "default") top = Some (MText n) -> n <> [] ->
  lookup n original = Some (MDict e) -> lookup (str "attrs") e = Some (MDict t) -> lookup (str "default") t = Some (MText s) -> s <> [] ->
  exists l, default_paths original nx hdf = Ok (l, []) /\ (forall p, In p l <-> In p nx /\ contains (str "/" ++ n ++ str "/" ++ s) p = true).
Proof.
  intros original nx hdf top e t n s H1 H2 N H3 H4 H5 S. unfold default_paths. rewrite H1, H2. cbn [bind]. destruct n as [|c n]; [congruence|].
  rewrite H3. cbn [bind]. rewrite H4. cbn [bind]. rewrite H5. destruct s as [|x s]; [congruence|]. eexists. split; [reflexivity|]. intros p. rewrite filter_In. reflexivity.
Qed.
(** Datasets outside of NXdata are named by their path. *)
Theorem C119_dataset_title : forall root file path s, read_hdf root file path = Ok (Some s) ->
  s_meta s = [(str "General", MDict [(str "original_filename", MText file); (str "title", MText (replace (str "/") (str "_") (skipn 1 path)))])].
Proof.
  intros root file path s H. unfold read_hdf in H. destruct (get _ root) as [[a items|a c]|]; try discriminate. cbn [bind] in H.
  destruct (get_dataset _ items) as [d|]; try discriminate. cbn [bind] in H. destruct (hdf_signal _ _ _ _) as [[[c l]|]|]; try discriminate. cbn [bind] in H. injection H as <-. reflexivity.
Qed.

Example C120_clean_demo : clean [97; 0; 98; 32; 0] = [97; 98].
Proof. reflexivity. Qed.
Example C118_plain_demo : nth_error [4; 5; 6] 2 = Some 6 /\ parse_int (str "1") = Ok 1.
Proof. split; reflexivity. Qed.
Example C119_defaults_demo : default_paths [(str "attrs", MDict [(str "default", MText (str "entry"))]); (str "entry", MDict [(str "attrs", MDict [(str "default", MText (str "s"))])])]
  [str "/entry/s"; str "/entry/t"; str "/other/s"] [str "/entry/s/data"] = Ok ([str "/entry/s"], []).
Proof. reflexivity. Qed.

Print Assumptions C120_clean.
Print Assumptions C120_single.
Print Assumptions C120_create.
Print Assumptions C120_groups.
Print Assumptions C118_plain.
Print Assumptions C118_signal_number.
Print Assumptions C118_missing.
Print Assumptions C121_same.
Print Assumptions C121_lists.
Print Assumptions C121_index.
Print Assumptions C121_function.
Print Assumptions C119_defaults.
Print Assumptions C119_dataset_title.
