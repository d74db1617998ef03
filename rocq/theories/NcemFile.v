(** Which signals are read of an EMD (Berkeley) file (C113); simulated files, versions, units (C114); what is lost. *)
From Coq Require Import QArith Qabs Qminmax.
From Verif Require Import Base Text HierModel Dict HierProps DistModel RowMajor RplModel RplProps SfsModel ImgModel ImgProps LogText NcemModel NcemProps NcemWrite.
Local Open Scope Z_scope.

(** * Which datasets *)
Definition begins (p s : pystr) : Prop := exists r, s = p ++ r.
Lemma startswith_begins : forall p s, startswith p s = true <-> begins p s.
Proof.
  induction p as [|c p IH]; intro s; [split; [intros _; exists s; reflexivity|reflexivity]|]. destruct s as [|d s]; cbn [startswith]; [split; [discriminate|intros [r R]; discriminate R]|]. rewrite andb_true_iff, IH. split.
  - intros [E [r R]]. exists r. cbn [app]. rewrite R. f_equal. lia.
  - intros [r R]. cbn [app] in R. injection R as <- R. split; [lia|exists r; exact R].
Qed.
(** Datasets named data..., counted_datacube..., diffractionslice..., realslice... or pointlist... in groups marked as EMD groups *)
Definition is_data (name : pystr) : Prop := exists p, In p (map str ["data"; "counted_datacube"; "diffractionslice"; "realslice"; "pointlist"]%string) /\ begins p name.
Lemma supported_spec : forall name, existsb (fun p => startswith p name) supported = true <-> is_data name.
Proof.
  intro name. rewrite existsb_exists. split.
  - intros (p & I & B). apply startswith_begins in B. destruct I as [<-|[<-|[<-|[<-|[<-|[<-|[<-|[]]]]]]]].
    + exists (str "data"). split; [left; reflexivity|exact B].
    + exists (str "counted_datacube"). split; [right; left; reflexivity|exact B].
    + exists (str "data"). split; [left; reflexivity|]. destruct B as [r ->]. exists (str "cube" ++ r). reflexivity.
    + exists (str "diffractionslice"). split; [right; right; left; reflexivity|exact B].
    + exists (str "realslice"). split; [do 3 right; left; reflexivity|exact B].
    + exists (str "pointlist"). split; [do 4 right; left; reflexivity|]. destruct B as [r ->]. exists (str "array" ++ r). reflexivity.
    + exists (str "pointlist"). split; [do 4 right; left; reflexivity|exact B].
  - intros (p & I & B). exists p. split; [|apply startswith_begins; exact B]. destruct I as [<-|[<-|[<-|[<-|[<-|[]]]]]]; [left|right; left|do 3 right; left|do 4 right; left|do 6 right; left]; reflexivity.
Qed.
Definition to_read (f : file) (p : pystr) : Prop := (exists d, In (p, Dataset d) (f_items f)) /\ is_data (basename p) /\ exists a, get f (dirname p) = Some (Group true a).
Lemma found_list : forall f l r, find_paths f l = Ok r -> forall p, In p r <-> (exists d, In (p, Dataset d) l) /\ is_data (basename p) /\ exists a, get f (dirname p) = Some (Group true a).
Proof.
  intros f l. induction l as [|[q o] l IH]; intros r H p; cbn [find_paths] in H.
  - injection H as <-. split; [intros []|intros ((d & []) & _)].
  - destruct o as [emd a|d].
    + rewrite (IH r H p). split; intros ((e & E) & R); (split; [exists e|exact R]); [right; exact E|]. destruct E as [E|E]; [discriminate E|exact E].
    + destruct (existsb (fun p => startswith p (basename q)) supported) eqn:S.
      * apply bind_ok in H. destruct H as (emd & M & H). apply bind_ok in H. destruct H as (r0 & R0 & H). specialize (IH r0 R0 p). assert (Q : emd = true <-> exists a, get f (dirname q) = Some (Group true a)). { destruct (get f (dirname q)) as [[e a|d0]|]; try discriminate M; injection M as <-; [split; [intros ->; exists a; reflexivity|intros (b & B); congruence]|split; [discriminate|intros (b & B); discriminate B]]. }
        apply supported_spec in S. destruct emd; injection H as <-.
        -- cbn [In]. rewrite IH. split.
           ++ intros [<-|((e & E) & R)]; [split; [exists d; left; reflexivity|split; [exact S|apply Q; reflexivity]]|split; [exists e; right; exact E|exact R]].
           ++ intros ((e & [E|E]) & R); [injection E as <- <-; left; reflexivity|right; split; [exists e; exact E|exact R]].
        -- rewrite IH. split; [intros ((e & E) & R); split; [exists e; right; exact E|exact R]|]. intros ((e & [E|E]) & R); [|split; [exists e; exact E|exact R]]. injection E as <- <-. destruct R as [_ R]. apply Q in R. discriminate R.
      * rewrite (IH r H p). split; [intros ((e & E) & R); split; [exists e; right; exact E|exact R]|]. intros ((e & [E|E]) & R); [|split; [exists e; exact E|exact R]]. injection E as <- <-. destruct R as [R _]. apply supported_spec in R. congruence.
Qed.
Theorem C113_found : forall f, (forall p d, In (p, Dataset d) (f_items f) -> get f (dirname p) <> None) -> exists r, find_paths f (f_items f) = Ok r /\ forall p, In p r <-> to_read f p.
Proof.
  intros f H. assert (E : exists r, find_paths f (f_items f) = Ok r); [|destruct E as [r R]; exists r; split; [exact R|exact (found_list f _ r R)]].
  revert H. generalize (f_items f) as l. induction l as [|[p o] l IH]; intro H; [exists []; reflexivity|]. destruct IH as [r R]; [intros q d I; apply (H q d); right; exact I|]. cbn [find_paths]. destruct o as [emd a|d]; [exists r; exact R|]. destruct (existsb _ supported); [|exists r; exact R].
  pose proof (H p d (or_introl eq_refl)) as N. destruct (get f (dirname p)) as [[e a|d0]|]; [| |congruence]; cbn [bind]; rewrite R; cbn [bind]; eexists; reflexivity.
Qed.

(** * Which signals *)
Section Reading.
  Variable pint : pystr -> option pystr.
  Variable f : file.
  Variable om : original.
  Hypothesis info : original_metadata f = Ok om.
  (** The name groups are compared by: without the last four characters in simulated files, except of potentials *)
  Definition shortened (path : pystr) : Prop := is_prismatic f = true /\ ~ occurs (str "ppotential") path.
  Definition base (path : pystr) (b : pystr) : Prop :=
    (shortened path -> exists number, dirname path = b ++ number /\ List.length number = 4%nat) /\ (~ shortened path -> b = dirname path).
  (** Classes of paths: the paths of a class contain the name of its first one, those of later classes do not *)
  Inductive classes : list (list pystr) -> Prop :=
  | no_class : classes []
  | one_class : forall p q b l, base p b -> Forall (fun x => x <> p /\ occurs b x) q -> Forall (fun x => ~ occurs b x) (List.concat l) -> classes l -> classes ((p :: q) :: l).
  Definition read_class (stacked : bool) (c : list pystr) (s : signal) : Prop :=
    exists p b, hd_error c = Some p /\ base p b /\ let title := if stacked then basename b else basename (dirname p) in
      read_groups pint f (map dirname c) (basename p) title (o_simulation om) = Ok (s_data s, s_axes s) /\
      s_title s = replace (str "_depth") [] title /\ (s_type s = str "electron_diffraction" /\ occurs (str "CBED") (dirname p) \/ s_type s = [] /\ ~ occurs (str "CBED") (dirname p)) /\ s_om s = om.
  Lemma shortened_spec : forall p, is_prismatic f && negb (contains (str "ppotential") p) = true <-> shortened p.
  Proof. intro p. unfold shortened. rewrite andb_true_iff, negb_true_iff, contains_not. reflexivity. Qed.
  Lemma base_fun : forall p b, base p b -> (if is_prismatic f && negb (contains (str "ppotential") p) then firstn (List.length (dirname p) - 4) (dirname p) else dirname p) = b.
  Proof.
    intros p b [A B]. destruct (is_prismatic f && negb (contains (str "ppotential") p)) eqn:E.
    - apply shortened_spec in E. destruct (A E) as (n & D & L). rewrite D, app_length, L. replace (List.length b + 4 - 4)%nat with (List.length b) by lia. rewrite firstn_app, Nat.sub_diag, firstn_all. cbn [firstn]. apply app_nil_r.
    - symmetry. apply B. intro S. apply shortened_spec in S. congruence.
  Qed.
  Lemma filter_all : forall A (h : A -> bool) l, (forall x, In x l -> h x = true) -> filter h l = l.
  Proof. intros A h l. induction l as [|x l IH]; intro H; [reflexivity|]. cbn [filter]. rewrite (H x (or_introl eq_refl)), IH; [reflexivity|]. intros y Y. apply H. right. exact Y. Qed.
  Lemma filter_none : forall A (h : A -> bool) l, (forall x, In x l -> h x = false) -> filter h l = [].
  Proof. intros A h l. induction l as [|x l IH]; intro H; [reflexivity|]. cbn [filter]. rewrite (H x (or_introl eq_refl)). apply IH. intros y Y. apply H. right. exact Y. Qed.
  Lemma read_first : forall fuel stacked p q rest b s ss, base p b -> (stacked = true -> Forall (fun x => x <> p /\ occurs b x) q) -> (stacked = true -> Forall (fun x => ~ occurs b x) rest) -> (stacked = false -> q = []) ->
    read_class stacked (p :: q) s -> read_paths pint fuel f stacked rest = Ok ss -> read_paths pint (S fuel) f stacked (p :: q ++ rest) = Ok (s :: ss).
  Proof.
    intros fuel stacked p q rest b s ss B Q R NQ (p' & b' & HD & B' & C1 & C2 & C3 & C4) SS. cbn [hd_error] in HD. injection HD as <-. cbn [read_paths]. rewrite (base_fun p b B). assert (b' = b) by (rewrite <- (base_fun p b B), <- (base_fun p b' B'); reflexivity). subst b'.
    set (mine := fun x => stacked && negb (eqb_str p x) && contains b x).
    assert (MQ : forall x, In x q -> mine x = true). { intros x X. unfold mine. destruct stacked; [|rewrite (NQ eq_refl) in X; contradiction]. pose proof (proj1 (Forall_forall _ _) (Q eq_refl) x X) as [N O]. replace (eqb_str p x) with false by (symmetry; apply eqb_str_neq; congruence). cbn [andb negb]. apply contains_spec. exact O. }
    assert (MR : forall x, In x rest -> mine x = false). { intros x X. unfold mine. destruct stacked; [|reflexivity]. pose proof (proj1 (Forall_forall _ _) (R eq_refl) x X) as N. apply contains_not in N. rewrite N. apply andb_false_r. }
    change (filter (fun p0 : pystr => negb (stacked && negb (eqb_str p p0) && contains b p0)) (q ++ rest)) with (filter (fun x => negb (mine x)) (q ++ rest)).
    rewrite !filter_app, (filter_all _ mine q MQ), (filter_none _ mine rest MR), app_nil_r. rewrite (filter_none _ (fun x => negb (mine x)) q), (filter_all _ (fun x => negb (mine x)) rest); [|intros x X; rewrite (MR x X); reflexivity|intros x X; rewrite (MQ x X); reflexivity]. cbn [app]. rewrite info. cbn [bind]. cbn [map] in C1. rewrite C1. cbn [bind fst snd]. rewrite SS. cbn [bind]. do 2 f_equal. destruct s as [da ax ti ty o]. cbn [s_data s_axes s_title s_type s_om] in *. subst ti o. f_equal. destruct C3 as [[-> O]|[-> O]]; [apply contains_spec in O|apply contains_not in O]; rewrite O; reflexivity.
  Qed.
  (** One signal for each class, of the datasets of the class in their order *)
  Theorem C113_classes : forall cs ss, classes cs -> Forall2 (read_class true) cs ss -> find_paths f (f_items f) = Ok (List.concat cs) -> ncem_reader pint f All None = Ok ss /\ ncem_reader pint f All (Some true) = Ok ss.
  Proof.
    intros cs ss C R F. assert (H : forall fuel, (List.length (List.concat cs) < fuel)%nat -> read_paths pint fuel f true (List.concat cs) = Ok ss); [|unfold ncem_reader; rewrite F; cbn [bind]; rewrite H by lia; split; reflexivity].
    clear F. revert ss R. induction C as [|p q b l B Q N C IH]; intros ss R fuel L; inversion R as [|c s cs' ss' R1 R2]; subst; (destruct fuel as [|fuel]; [lia|]).
    - reflexivity.
    - change (List.concat ((p :: q) :: l)) with (p :: q ++ List.concat l). cbn [List.concat app List.length] in L. rewrite app_length in L. apply (read_first fuel true p q _ b); try assumption; try (intros _; assumption); [discriminate|]. apply IH; [exact R2|lia].
  Qed.
  (** Named datasets, or all of them without stacking: one signal for each path *)
  Lemma separate : forall l ss fuel, (List.length l < fuel)%nat -> Forall2 (fun p => read_class false [p]) l ss -> read_paths pint fuel f false l = Ok ss.
  Proof.
    induction l as [|p l IH]; intros ss fuel L R; inversion R as [|? s ? ss' R1 R2]; subst; (destruct fuel as [|fuel]; [cbn in L; lia|]); [reflexivity|]. cbn [List.length] in L. pose proof R1 as (p' & b & HD & B & _). injection HD as <-. change (p :: l) with (p :: [] ++ l). apply (read_first fuel false p [] l b s ss'); try assumption; try discriminate; [reflexivity|]. apply IH; [lia|exact R2].
  Qed.
  Theorem C113_separate : forall w l ss opt, Forall2 (fun p => read_class false [p]) l ss ->
    (w = Many l \/ (exists p, w = One p /\ l = [p] /\ opt <> Some true) \/ w = All /\ find_paths f (f_items f) = Ok l /\ opt = Some false) -> ncem_reader pint f w opt = Ok ss.
  Proof.
    intros w l ss opt R [->|[(p & -> & -> & O)|(-> & F & ->)]]; unfold ncem_reader.
    - cbn [bind]. apply separate; [lia|exact R].
    - cbn [bind]. replace (match opt with Some b => b | None => false end) with false by (destruct opt as [[|]|]; congruence). apply separate; [lia|exact R].
    - rewrite F. cbn [bind]. apply separate; [lia|exact R].
  Qed.
  (** A dataset which is not there *)
  Theorem C113_missing : forall p opt, get f (dirname p ++ slash ++ basename p) = None -> ncem_reader pint f (One p) opt = Err IOError.
  Proof.
    intros p opt G. unfold ncem_reader. cbn [bind List.length read_paths filter map]. rewrite info. cbn [bind]. unfold read_groups. cbn [mapM]. unfold read_dataset at 1. rewrite G. cbn [bind all_there]. reflexivity.
  Qed.
End Reading.

(** * Simulated files, versions, units *)
Definition close (a b rel : Q) : Prop := (Qabs (a - b) <= rel * Qmax (Qabs a) (Qabs b))%Q.
Lemma qabs_is : forall q, (qabs q == Qabs q)%Q.
Proof. exact qabs_spec. Qed.
Lemma isclose_spec : forall a b rel, (0 <= rel)%Q -> isclose a b rel = true <-> close a b rel.
Proof.
  intros a b rel R. unfold isclose, close. rewrite orb_true_iff, Qeq_bool_iff, Qle_bool_iff, qmax_spec, (qabs_spec (a - b)), (qmax_comp _ _ _ _ (qabs_spec a) (qabs_spec b)). split; [|right; assumption]. intros [E|E]; [|exact E]. rewrite E. setoid_replace (b - b)%Q with 0%Q by ring. change (Qabs 0) with 0%Q. apply Qmult_le_0_compat; [exact R|]. apply (Qle_trans _ (Qabs b)); [apply Qabs_nonneg|apply Q.le_max_l].
Qed.
(** The depth axis: slices of a simulation *)
Theorem C114_depth : forall f n title om slices thickness start tile cell, is_prismatic f = true -> occurs (str "depth") title ->
  lookup (str "numSlices") om = Some (Number slices) -> lookup (str "sliceThickness") om = Some (Number thickness) -> lookup (str "zStart") om = Some (Number start) ->
  lookup (str "tile") om = Some (Numbers tile) -> lookup (str "cellDimension") om = Some (Numbers cell) -> forall t0 t1 t2 tr c0 cr, tile = t0 :: t1 :: t2 :: tr -> cell = c0 :: cr ->
  exists x, stack_axis f n title om = Ok x /\ x_name x = Some title /\ x_size x = n /\ x_navigate x = true /\
    (close (t2 * c0) (inject_Z n * (slices * thickness)) (1 # 10000) -> x_scale x = Some (slices * thickness)%Q /\ x_units x = Some [197] /\ ((start == 0)%Q -> x_offset x = (slices * thickness)%Q) /\ (~ (start == 0)%Q -> x_offset x = start)) /\
    (~ close (t2 * c0) (inject_Z n * (slices * thickness)) (1 # 10000) -> x_scale x = Some 1%Q /\ x_units x = None /\ x_offset x = 0%Q).
Proof.
  intros f n title om slices thickness start tile cell P D H1 H2 H3 H4 H5 t0 t1 t2 tr c0 cr -> ->. unfold stack_axis. apply contains_spec in D. rewrite P, D. cbn [andb]. unfold depth, number, component. rewrite H1, H2, H3, H4, H5. cbn [bind]. unfold item. cbn [nth_error bind].
  pose proof (isclose_spec (t2 * c0) (inject_Z n * (slices * thickness)) (1 # 10000)) as C. specialize (C ltac:(discriminate)). destruct (isclose _ _ _) eqn:E; cbn [bind]; (eexists; split; [reflexivity|]; cbn [x_name x_size x_navigate x_scale x_units x_offset]; repeat (split; [reflexivity|]); split; intro K).
  - split; [reflexivity|]. split; [reflexivity|]. split; intro Z; destruct (Qeq_bool start 0) eqn:QE; try reflexivity; [apply Qeq_bool_neq in QE; contradiction|apply Qeq_bool_iff in QE; contradiction].
  - exfalso. apply K. apply C. reflexivity.
  - apply C in K. discriminate K.
  - repeat split; reflexivity.
Qed.
Theorem C114_plain_stack : forall f n title om, is_prismatic f = false \/ ~ occurs (str "depth") title -> exists x, stack_axis f n title om = Ok x /\ x_name x = Some title /\ x_size x = n /\ x_offset x = 0%Q /\ x_scale x = Some 1%Q /\ x_units x = None /\ x_navigate x = true.
Proof.
  intros f n title om H. unfold stack_axis. replace (is_prismatic f && contains (str "depth") title) with false; [cbn [bind]; eexists; repeat split; reflexivity|]. symmetry. destruct H as [H|H]; [rewrite H; reflexivity|]. apply contains_not in H. rewrite H. apply andb_false_r.
Qed.
(** Parameters of simulations have their long names *)
Lemma renamed_keep : forall (a d : attributes) k, (forall x, In x (map fst a) -> (match lookup x md_mapping with Some y => y | None => x end) <> k) ->
  lookup k (fold_left (fun d p => put (match lookup (fst p) md_mapping with Some y => y | None => fst p end) (snd p) d) a d) = lookup k d.
Proof. induction a as [|[x v] a IH]; intros d k H; [reflexivity|]. cbn [fold_left fst snd]. rewrite IH; [|intros y Y; apply H; right; exact Y]. rewrite lookup_put. replace (eqb_str k _) with false; [reflexivity|]. symmetry. apply eqb_str_neq. intro E. exact (H x (or_introl eq_refl) (eq_sym E)). Qed.
Theorem C114_parameters : forall a b k v long, lookup k md_mapping = Some long \/ lookup k md_mapping = None /\ long = k ->
  (forall x, In x (map fst b) -> lookup x md_mapping <> Some long) -> ~ In long (map fst b) -> lookup long (renamed (a ++ (k, v) :: b)) = Some v.
Proof.
  intros a b k v long L N1 N2. unfold renamed. rewrite fold_left_app. cbn [fold_left fst snd]. rewrite renamed_keep.
  - rewrite lookup_put. replace (match lookup k md_mapping with Some y => y | None => k end) with long by (destruct L as [L|[L L']]; rewrite L; [reflexivity|exact L']). rewrite eqb_str_refl. reflexivity.
  - intros x X E. destruct (lookup x md_mapping) as [y|] eqn:Y; [subst y; exact (N1 x X Y)|subst x; exact (N2 X)].
Qed.
(** Which of the parameters of a simulation the depth axis is made of *)
Theorem C114_short_names : map (fun k => lookup (str k) md_mapping) ["ns"; "s"; "zs"; "t"; "c"]%string = map (fun k => Some (str k)) ["numSlices"; "sliceThickness"; "zStart"; "tile"; "cellDimension"]%string.
Proof. reflexivity. Qed.
(** The title of depth sections *)
Theorem C114_title : forall a, contains (str "_depth") (a ++ str "_dept") = false -> replace (str "_depth") [] (a ++ str "_depth") = a.
Proof.
  intros a H. unfold replace. rewrite app_length. change (List.length (str "_depth")) with 6%nat. revert H. assert (G : forall n, (List.length a + 7 <= n)%nat -> contains (str "_depth") (a ++ str "_dept") = false -> replace_sub n (str "_depth") [] (a ++ str "_depth") = a); [|apply G; lia].
  induction a as [|c a IH]; intros n L H; (destruct n as [|n]; [cbn in L; lia|]).
  - cbn [app]. destruct n as [|n]; [cbn in L; lia|]. reflexivity.
  - cbn [List.length] in L. cbn [app]. cbn [app contains] in H. apply orb_false_iff in H. destruct H as [H1 H2]. rewrite replace_step; [f_equal; apply IH; [lia|exact H2]|]. destruct (startswith (str "_depth") (c :: a ++ str "_depth")) eqn:E; [|reflexivity]. exfalso.
    apply startswith_begins in E. destruct E as [r E]. apply not_true_iff_false in H1. apply H1. clear H1 IH. apply startswith_begins.
    assert (LR : List.length (c :: a ++ str "_depth") = (6 + List.length r)%nat) by (rewrite E, app_length; reflexivity). cbn [List.length] in LR. rewrite app_length in LR. change (List.length (str "_depth")) with 6%nat in LR.
    exists (firstn (List.length a) r). apply (f_equal (firstn (List.length a + 6))) in E. rewrite firstn_app in E. change (List.length (str "_depth")) with 6%nat in E. rewrite (firstn_all2 (str "_depth")) in E by (cbn; lia). replace (List.length a + 6 - 6)%nat with (List.length a) in E by lia. rewrite <- E. replace (List.length a + 6)%nat with (S (List.length a + 5)) by lia. cbn [firstn]. f_equal. rewrite firstn_app. rewrite firstn_all2 by lia. replace (List.length a + 5 - List.length a)%nat with 5%nat by lia. reflexivity.
Qed.
(** A file is of this kind if both numbers of its version are there, in the root or in a group of the root *)
Theorem C114_kind : forall root groups, is_ncem root groups = true <-> exists v, In v (root :: groups) /\ fst v <> None /\ snd v <> None.
Proof.
  intros root groups. unfold is_ncem. assert (H : forall v, has_version v = true <-> fst v <> None /\ snd v <> None) by (intros [[a|] [b|]]; cbn; split; intuition congruence). rewrite orb_true_iff, existsb_exists, H. cbn [In]. split; [intros [R|(v & I & V)]; [exists root; tauto|exists v; rewrite <- H; tauto]|]. intros (v & [<-|I] & V); [left; exact V|right; exists v; rewrite H; tauto].
Qed.
(** The units A and A^-1 of files of py4DSTEM *)
Theorem C114_angstrom : forall pint, parse_units pint (str "A") = short pint [197] /\ parse_units pint (str "A^-1") = short pint (197 :: str "^-1").
Proof. intro pint. split; reflexivity. Qed.
Lemma findall_none : forall n v, ~ In 91 v -> findall n v = [].
Proof. induction n as [|n IH]; intros v H; [reflexivity|]. destruct v as [|c v]; [reflexivity|]. cbn [findall]. replace (c =? 91) with false by (cbn [In] in H; lia). apply IH. cbn [In] in H. tauto. Qed.
Theorem C114_no_brackets : forall pint v, ~ In 91 v -> v <> str "A" -> v <> str "A^-1" -> parse_units pint v = short pint v.
Proof. intros pint v H A B. unfold parse_units. apply eqb_str_neq in A, B. rewrite A, B. cbn [orb]. rewrite findall_none by exact H. reflexivity. Qed.
