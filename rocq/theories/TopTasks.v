(** Property C88: which datasets of a Topspin file are read, and images. *)
From Coq Require Import QArith Permutation Sorting.Sorted Qabs.
From Verif Require Import Base Text Bytes RowMajor HierModel SfsModel SfsProps BcfUnpack SurFloat RenBlocks XmlModel QuadModel QuadSac TopModel TopScan TopFile.
Local Open Scope Z_scope.

(** A name of five groups of letters *)
Theorem C88_guid : forall name, guid name = true <-> exists a b c d e, name = a ++ [45] ++ b ++ [45] ++ c ++ [45] ++ d ++ [45] ++ e /\ ~ In 45 (a ++ b ++ c ++ d ++ e) /\ zlen a = 8 /\ zlen b = 4 /\ zlen c = 4 /\ zlen d = 4 /\ zlen e = 12.
Proof.
  intro name. unfold guid. destruct (list_eq_dec _ _ _) as [E|N].
  - split; [intros _|reflexivity]. destruct (split_char 45 name) as [|a [|b [|c [|d [|e [|f r]]]]]] eqn:S; try discriminate E. cbn [map] in E. injection E as La Lb Lc Ld Le. exists a, b, c, d, e.
    assert (J : forall s l, split_char 45 s = l -> s = join_char 45 l /\ Forall (fun w => ~ In 45 w) l).
    { clear. induction s as [|x s IH]; intros l H; cbn [split_char] in H.
      - subst l. split; [reflexivity|repeat constructor; intros []].
      - destruct (x =? 45) eqn:X.
        + subst l. destruct (IH _ eq_refl) as [J F]. apply Z.eqb_eq in X. subst x. destruct (split_char 45 s) as [|w r] eqn:Q; [destruct (split_char_ne 45 s Q)|]. split; [cbn [join_char app]; f_equal; exact J|constructor; [intros []|exact F]].
        + destruct (split_char 45 s) as [|w r] eqn:Q; [destruct (split_char_ne 45 s Q)|]. subst l. destruct (IH _ eq_refl) as [J F]. assert (FF : ~ In 45 w /\ Forall (fun w => ~ In 45 w) r) by (inversion F; auto). destruct FF as [F1 F2]. split; [rewrite J at 1; destruct r; reflexivity|]. constructor; [intros [H|H]; [lia|contradiction]|exact F2]. }
    destruct (J _ _ S) as [-> F]. inversion F as [|? ? Fa F1]; inversion F1 as [|? ? Fb F2]; inversion F2 as [|? ? Fc F3]; inversion F3 as [|? ? Fd F4]; inversion F4 as [|? ? Fe _]; subst. split; [reflexivity|]. split; [|repeat split; assumption]. intro I. repeat (apply in_app_or in I; destruct I as [I|I]; [contradiction|]). contradiction.
  - split; [discriminate|]. intros [a [b [c [d [e [-> [NI [La [Lb [Lc [Ld Le]]]]]]]]]]]. exfalso. apply N. repeat rewrite in_app_iff in NI. cbn [app]. rewrite !split_char_app by tauto. rewrite split_char_nosep by tauto. cbn [map]. rewrite La, Lb, Lc, Ld, Le. reflexivity.
Qed.

Section Tasks.
Variable number : pystr -> res Z.
Variable unit : positive.
(** * Images *)
Fixpoint descendants (x : xml) : list xml := let '(Elem _ _ _ _ cs) := x in flat_map (fun c => c :: descendants c) cs.
Definition values (root : xml) : list xml := filter (fun e => eqb_str (x_tag e) (str "Value")) (descendants root).
Definition describes (name : pystr) (v : xml) : Prop := lookup (str "Serializer") (x_attrs v) = Some (str "ImageDataSerializer") /\ exists c r, x_children v = c :: r /\ x_text c = name.
Definition other (name : pystr) (v : xml) : Prop := exists s, lookup (str "Serializer") (x_attrs v) = Some s /\ (s <> str "ImageDataSerializer" \/ exists c r, x_children v = c :: r /\ x_text c <> name).
(** the only child with a tag *)
Definition only (x : xml) (tag : string) (c : xml) : Prop := exists a b, x_children x = a ++ c :: b /\ x_tag c = str tag /\ Forall (fun e => x_tag e <> str tag) (a ++ b).
Definition quantity (cal : xml) (a b : string) (n : Z) : Prop := exists e f, only cal a e /\ only e b f /\ x_text f <> [] /\ number (x_text f) = Ok n.
Definition calibration (root : xml) (name : pystr) (r : option (Z * Z * Z * Z)) : Prop :=
  match r with
  | None => Forall (other name) (values root)
  | Some (xs, xo, ys, yo) => exists pre v post cal, values root = pre ++ v :: post /\ Forall (other name) pre /\ describes name v /\ only v "Calibration" cal /\ quantity cal "X" "Scale" xs /\ quantity cal "X" "Offset" xo /\ quantity cal "Y" "Scale" ys /\ quantity cal "Y" "Offset" yo
  end.
Lemma below_descendants : forall tag x, below tag x = filter (fun e => eqb_str (x_tag e) tag) (descendants x).
Proof.
  intro tag. fix IH 1. intros [t a tx tl cs]. cbn [below descendants]. induction cs as [|c cs IHc]; [reflexivity|]. cbn [flat_map]. rewrite filter_app. cbn [filter]. rewrite IHc. rewrite (IH c). destruct (eqb_str (x_tag c) tag); reflexivity.
Qed.
Lemma find_only : forall x tag c, only x tag c -> find x tag = Some c /\ filter (fun c => eqb_str (x_tag c) (str tag)) (x_children x) = [c].
Proof.
  intros x tag c [a [b [E [T F]]]]. unfold find. rewrite E. apply Forall_app in F. destruct F as [FA FB]. rewrite filter_app. cbn [filter]. rewrite T, eqb_str_refl.
  assert (N : forall l, Forall (fun e => x_tag e <> str tag) l -> filter (fun c => eqb_str (x_tag c) (str tag)) l = []). { intros l H. induction H as [|e l H _ IH]; [reflexivity|]. cbn [filter]. rewrite (proj2 (eqb_str_neq _ _) H). exact IH. }
  rewrite (N a FA), (N b FB). split; [|reflexivity]. clear E. induction FA as [|e l H _ IH]; cbn [app List.find]; [rewrite T, eqb_str_refl; reflexivity|]. rewrite (proj2 (eqb_str_neq _ _) H). exact IH.
Qed.
Lemma number_quantity : forall cal a b n, quantity cal a b n -> number_at number unit cal a b = Ok (nano unit n).
Proof.
  intros cal a b n [e [f [O1 [O2 [N H]]]]]. unfold number_at, find2. destruct (find_only _ _ _ O1) as [_ E]. rewrite E. cbn [flat_map]. rewrite app_nil_r. destruct (find_only _ _ _ O2) as [F _]. unfold find in F. rewrite F. unfold float_of. destruct (x_text f); [contradiction|]. rewrite H. reflexivity.
Qed.
Lemma other_skip : forall name l r, Forall (other name) l -> image_value name (l ++ r) = image_value name r.
Proof.
  intros name l r F. induction F as [|v l [s [L H]] F IH]; [reflexivity|]. cbn [app image_value]. unfold attr. rewrite L. cbn [bind]. destruct H as [H | [c [r' [C T]]]].
  - rewrite (proj2 (eqb_str_neq _ _) H). exact IH.
  - unfold child. rewrite C. cbn [nth_error bind]. rewrite (proj2 (eqb_str_neq _ _) T). destruct (eqb_str s (str "ImageDataSerializer")); exact IH.
Qed.
Definition nm (n : Z) : Q := ((n # unit) * inject_Z (10 ^ 9))%Q.
(** What is stored for X becomes the y axis, and the other way round *)
Theorem C88_image : forall root name r, calibration root name r ->
  exists y x, axes_2d number unit root name = Ok [y; x] /\ a_name y = str "y" /\ a_name x = str "x" /\ a_index y = 0 /\ a_index x = 1 /\ a_units y = str "nm" /\ a_units x = str "nm" /\ a_navigate y = false /\ a_navigate x = false /\
  match r with None => a_scale y = Some 0%Q /\ a_offset y = 0%Q /\ a_scale x = Some 0%Q /\ a_offset x = 0%Q
  | Some (xs, xo, ys, yo) => a_scale y = Some (nm xs) /\ a_offset y = nm xo /\ a_scale x = Some (nm ys) /\ a_offset x = nm yo end.
Proof.
  intros root name [[[[xs xo] ys] yo]|] H; unfold axes_2d; rewrite below_descendants; fold (values root); cbn [calibration] in H.
  - destruct H as [pre [v [post [cal [E [F [[L [c [r [C T]]]] [O [Q1 [Q2 [Q3 Q4]]]]]]]]]]]. rewrite E. rewrite (other_skip name pre (v :: post) F). cbn [image_value]. unfold attr. rewrite L. cbn [bind]. rewrite eqb_str_refl. unfold child. rewrite C. cbn [nth_error bind]. rewrite T, eqb_str_refl. destruct (find_only _ _ _ O) as [FO _]. rewrite FO. cbn [bind].
    rewrite (number_quantity _ _ _ _ Q1). cbn [bind]. rewrite (number_quantity _ _ _ _ Q2). cbn [bind]. rewrite (number_quantity _ _ _ _ Q3). cbn [bind]. rewrite (number_quantity _ _ _ _ Q4). cbn [bind]. eexists _, _. split; [reflexivity|]. repeat split; reflexivity.
  - pose proof (other_skip name (values root) [] H) as E. rewrite app_nil_r in E. rewrite E. cbn [image_value bind]. eexists _, _. split; [reflexivity|]. repeat split; reflexivity.
Qed.

(** * Datasets of a session *)
Definition node_ok (file : list Z) (meta : xml) (name : pystr) (n : h5) : Prop :=
  match n with
  | Group l => exists s root w s0 s1 pos, raster number l s /\ first_root l root w s0 s1 /\ pattern_ok number root /\ stored file l w s0 s1 pos
  | Array w shape o data => (exists n0 n1, shape = [n0; n1]) /\ exists r, calibration meta name r
  | Meta _ => False
  end.
Definition scale_of (n d : Z) (c : option Q) : Prop := if n =? 1 then True else exists q, c = Some q /\ about unit q d.
Definition scan_of (file : list Z) (l : list (pystr * h5)) (d : dataset) : Prop :=
  exists s root w s0 s1 pos y x ky kx, raster number l s /\ first_root l root w s0 s1 /\ stored file l w s0 s1 pos /\
    scan_axis unit "y" 0 (ny s) (y0 s) (scale_of (ny s) (dy s)) y /\ scan_axis unit "x" 1 (nx s) (x0 s) (scale_of (nx s) (dx s)) x /\ pattern_axis number unit "ky" 2 s0 root 0 ky /\ pattern_axis number unit "kx" 3 s1 root 1 kx /\
    d_data d = patterns file (nx s * ny s) w s0 s1 pos /\ d_shape d = map a_size (d_axes d) /\ Forall2 same_axis (d_axes d) (filter stays [y; x; ky; kx]) /\ n_diffraction (d_entry d) = true.
Definition image_of (meta : xml) (name : pystr) (shape : list Z) (data : list (list Z)) (d : dataset) : Prop :=
  d_shape d = shape /\ d_data d = data /\ n_diffraction (d_entry d) = false /\ exists y x, d_axes d = [y; x] /\ [a_size y; a_size x] = shape /\ a_name y = str "y" /\ a_name x = str "x".
Definition dataset_of (file : list Z) (meta : xml) (p : pystr * h5) (d : dataset) : Prop :=
  original number meta = Ok (n_original (d_entry d)) /\ general_of (n_original (d_entry d)) = Ok (n_general (d_entry d)) /\
  match snd p with Group l => scan_of file l d | Array w shape o data => image_of meta (fst p) shape data d | Meta _ => False end.
Definition session_ok (file : list Z) (top : list (pystr * h5)) (meta : xml) : Prop :=
  lookup (str "Metadata") top = Some (Meta meta) /\ NoDup (map fst top) /\ Forall (fun p => ~ In 47 (fst p)) top /\ (exists all g, original number meta = Ok all /\ general_of all = Ok g) /\
  forall p, In p top -> guid (fst p) = true -> node_ok file meta (fst p) (snd p).
Lemma lookup_unique : forall A (l : list (pystr * A)) k v, NoDup (map fst l) -> In (k, v) l -> lookup k l = Some v.
Proof.
  intros A l k v N I. induction l as [|[k' v'] l IH]; [destruct I|]. cbn [map fst] in N. inversion N as [|? ? N1 N2]; subst. cbn [lookup]. destruct I as [E|I].
  - injection E as -> ->. rewrite eqb_str_refl. reflexivity.
  - destruct (eqb_str k k') eqn:E; [|apply IH; assumption]. apply eqb_str_spec in E. subst k'. exfalso. apply N1. apply in_map_iff. exists (k, v). split; [reflexivity|exact I].
Qed.
Lemma read_and_load : forall file h meta name n t all g, name = last (split_char 47 (fst t)) [] -> get_path h (path (snd t)) = Ok (Meta meta) -> get_path h (path (fst t)) = Ok n -> original number meta = Ok all -> general_of all = Ok g -> node_ok file meta name n ->
  exists e d, read_entry number unit h t = Ok e /\ load file h t e = Ok d /\ dataset_of file meta (name, n) d.
Proof.
  intros file h meta name n t all g -> GM GN HA HG OK. unfold read_entry. rewrite GM. cbn [bind text_of]. rewrite HA. cbn [bind]. rewrite HG. cbn [bind]. rewrite GN. cbn [bind]. destruct n as [l|x|w shape o data].
  - cbn [node_ok] in OK. destruct OK as [s [root [w [s0 [s1 [pos [R [FR [PO ST]]]]]]]]]. destruct (C87_axes number unit l s root w s0 s1 R FR PO) as [y [x [ky [kx [EA [SY [SX [PY PX]]]]]]]]. rewrite EA. cbn [bind]. eexists. 
    set (e := {| n_original := all; n_general := g; n_diffraction := true; n_axes := [y; x; ky; kx] |}).
    assert (Hy : a_name y = str "y" /\ a_size y = ny s /\ a_navigate y = true /\ a_index y = 0) by (destruct SY as [? [? [? [? [? _]]]]]; auto). assert (Hx : a_name x = str "x" /\ a_size x = nx s /\ a_navigate x = true /\ a_index x = 1) by (destruct SX as [? [? [? [? [? _]]]]]; auto).
    assert (Hky : a_size ky = s0 /\ a_navigate ky = false /\ a_index ky = 2) by (destruct PY as [? [? [? [? _]]]]; auto). assert (Hkx : a_size kx = s1 /\ a_navigate kx = false /\ a_index kx = 3) by (destruct PX as [? [? [? [? _]]]]; auto).
    assert (LEN : zlen l = nx s * ny s) by apply R.
    destruct (C87_load file h t e l root w s0 s1 pos y x ky kx GN FR ST eq_refl) as [d [LD [DE [DD [DS [DA _]]]]]]; try tauto.
    { destruct Hy as [_ [-> _]]. destruct Hx as [_ [-> _]]. lia. }
    { cbn [n_axes e map]. destruct Hy as [_ [_ [_ ->]]]. destruct Hx as [_ [_ [_ ->]]]. destruct Hky as [_ [_ ->]]. destruct Hkx as [_ [_ ->]]. reflexivity. }
    exists d. split; [reflexivity|]. split; [exact LD|]. unfold dataset_of. rewrite DE. cbn [n_original n_general e snd]. split; [exact HA|]. split; [exact HG|]. exists s, root, w, s0, s1, pos, y, x, ky, kx.
    split; [exact R|]. split; [exact FR|]. split; [exact ST|]. split.
    { unfold scan_axis in *. destruct SY as [A1 [A2 [A3 [A4 [A5 [A6 A7]]]]]]. repeat (split; [assumption|]). unfold scale_of. destruct (ny s =? 1); [exact I|exact A7]. }
    split. { unfold scan_axis in *. destruct SX as [A1 [A2 [A3 [A4 [A5 [A6 A7]]]]]]. repeat (split; [assumption|]). unfold scale_of. destruct (nx s =? 1); [exact I|exact A7]. }
    split; [exact PY|]. split; [exact PX|]. split; [rewrite DD, LEN; reflexivity|]. split; [exact DS|]. split; [exact DA|]. rewrite DE. reflexivity.
  - destruct OK.
  - cbn [node_ok] in OK. destruct OK as [[n0 [n1 ->]] [r C]]. destruct (C88_image meta _ r C) as [y [x [EA [N1 [N2 _]]]]]. rewrite EA. cbn [bind array_of fst snd size_at nth_error]. eexists. eexists. split; [reflexivity|]. unfold load. rewrite GN. cbn [bind n_axes array_of fst snd]. split; [reflexivity|].
    unfold dataset_of. cbn [d_entry n_original n_general snd]. split; [exact HA|]. split; [exact HG|]. unfold image_of. cbn [d_shape d_data d_entry n_diffraction d_axes]. do 3 (split; [reflexivity|]). eexists _, _. split; [reflexivity|]. cbn [with_size a_size a_name]. repeat split; assumption.
Qed.
Lemma mapM_forall2 : forall A B (f : A -> res B) (P : A -> B -> Prop) l, (forall x, In x l -> exists y, f x = Ok y /\ P x y) -> exists r, mapM f l = Ok r /\ Forall2 P l r.
Proof.
  intros A B f P l H. induction l as [|x l IH]; [exists []; split; [reflexivity|constructor]|]. destruct (H x (or_introl eq_refl)) as [y [E Q]]. destruct IH as [r [E2 Q2]]; [intros z Z; apply H; right; exact Z|]. exists (y :: r). cbn [mapM]. rewrite E. cbn [bind]. rewrite E2. split; [reflexivity|constructor; assumption].
Qed.
Lemma mapM_combine : forall A B C (f : A -> B -> res C) (P : A -> B -> Prop) (Q : A -> C -> Prop) l r, Forall2 P l r -> (forall x y, In x l -> P x y -> exists z, f x y = Ok z /\ Q x z) -> exists s, mapM (fun t => f (fst t) (snd t)) (combine l r) = Ok s /\ Forall2 Q l s.
Proof.
  intros A B C f P Q l r F. induction F as [|x y l r H F IH]; intro K; [exists []; split; [reflexivity|constructor]|]. destruct (K x y (or_introl eq_refl) H) as [z [E Z]]. destruct IH as [s [E2 Z2]]; [intros; apply K; [right|]; assumption|]. exists (z :: s). cbn [combine mapM fst snd]. rewrite E. cbn [bind]. rewrite E2. split; [reflexivity|constructor; assumption].
Qed.
Lemma existsb_lookup : forall A k (l : list (pystr * A)) v, lookup k l = Some v -> existsb (fun p => eqb_str (fst p) k) l = true.
Proof. intros A k l v. induction l as [|[k' v'] l IH]; cbn [lookup existsb fst]; [discriminate|]. destruct (eqb_str k k') eqn:E; intro H; [apply eqb_str_spec in E; subst k'; rewrite eqb_str_refl; reflexivity|rewrite (IH H); apply orb_true_r]. Qed.
Lemma filter_fst : forall A (f : pystr -> bool) (l : list (pystr * A)), filter f (map fst l) = map fst (filter (fun p => f (fst p)) l).
Proof. intros A f l. induction l as [|p l IH]; [reflexivity|]. cbn [map filter]. rewrite IH. destruct (f (fst p)); reflexivity. Qed.
Lemma existsb_map : forall A B (g : A -> B) f l, existsb f (map g l) = existsb (fun x => f (g x)) l.
Proof. intros A B g f l. induction l as [|x l IH]; [reflexivity|]. cbn [map existsb]. rewrite IH. reflexivity. Qed.
Lemma path_plain : forall k, ~ In 47 k -> path k = [k].
Proof. intros k H. apply split_char_nosep. exact H. Qed.
Lemma Forall2_map_l : forall A B C (g : A -> B) (P : B -> C -> Prop) l r, Forall2 P (map g l) r -> Forall2 (fun x y => P (g x) y) l r.
Proof. intros A B C g P l. induction l as [|x l IH]; intros r F; inversion F; subst; constructor; auto. Qed.
Lemma session_tasks : forall file top meta, session_ok file top meta -> tasks (Group top) = Ok (map (fun p => (fst p, str "Metadata")) (filter (fun p => guid (fst p)) top)).
Proof.
  intros file top meta [M _]. unfold tasks, keys. cbn [bind]. rewrite existsb_map. rewrite (existsb_lookup _ _ _ _ M). rewrite filter_fst, map_map. reflexivity.
Qed.
(** Every named dataset of a session is read, in the order of the file *)
Theorem C88_session : forall file top meta, session_ok file top meta -> exists ds, file_reader number unit file (Group top) None false = Ok ds /\ Forall2 (dataset_of file meta) (filter (fun p => guid (fst p)) top) ds.
Proof.
  intros file top meta OK. pose proof OK as [M [ND [NS [[all [g [HA HG]]] H]]]]. unfold file_reader. cbn [bind]. rewrite (session_tasks file top meta OK). cbn [bind]. set (gs := filter (fun p => guid (fst p)) top).
  assert (IN : forall p, In p gs -> In p top /\ guid (fst p) = true) by (intros p P; apply filter_In in P; exact P).
  assert (EACH : forall p, In p gs -> exists e d, read_entry number unit (Group top) (fst p, str "Metadata") = Ok e /\ load file (Group top) (fst p, str "Metadata") e = Ok d /\ dataset_of file meta p d).
  { intros [k n] P. destruct (IN _ P) as [I G]. cbn [fst]. rewrite Forall_forall in NS. pose proof (NS _ I) as NK. cbn [fst] in NK. apply (read_and_load file (Group top) meta k n (k, str "Metadata") all g); cbn [fst snd].
    - rewrite split_char_nosep by exact NK. reflexivity.
    - change (path (str "Metadata")) with [str "Metadata"]. cbn [get_path get]. rewrite M. reflexivity.
    - rewrite path_plain by exact NK. cbn [get_path get]. rewrite (lookup_unique _ _ _ _ ND I). reflexivity.
    - exact HA.
    - exact HG.
    - apply (H _ I G). }
  destruct (mapM_forall2 _ _ (read_entry number unit (Group top)) (fun t e => forall p, In p gs -> t = (fst p, str "Metadata") -> exists d, load file (Group top) t e = Ok d /\ dataset_of file meta p d) (map (fun p => (fst p, str "Metadata")) gs)) as [es [ES FE]].
  { intros t T. apply in_map_iff in T. destruct T as [p [<- P]]. destruct (EACH p P) as [e [d [R [L D]]]]. exists e. split; [exact R|]. intros q Q E. injection E as E. destruct (EACH q Q) as [e' [d' [R' [L' D']]]]. rewrite <- E in R', L'. rewrite R in R'. injection R' as <-. exists d'. split; assumption. }
  rewrite ES. cbn [bind]. apply Forall2_map_l in FE. assert (X : forall l, combine (map (fun p : pystr * h5 => (fst p, str "Metadata")) l) es = map (fun pe => ((fst (fst pe), str "Metadata"), snd pe)) (combine l es)). { clear. intro l. revert es. induction l as [|p l IH]; intros [|e es]; [reflexivity..|]. cbn [map combine fst snd]. rewrite IH. reflexivity. }
  rewrite X. assert (MM : forall A B C (g : A -> B) (f : B -> res C) l, mapM f (map g l) = mapM (fun x => f (g x)) l). { clear. intros A B C g f l. induction l as [|x l IH]; [reflexivity|]. cbn [map mapM]. rewrite IH. reflexivity. }
  rewrite MM. cbn [fst snd]. apply (mapM_combine _ _ _ (fun p e => load file (Group top) (fst p, str "Metadata") e) _ (dataset_of file meta) gs es FE). intros p e P K. apply (K p P eq_refl).
Qed.
(** A session of a file of several sessions *)
Theorem C88_chosen : forall file h p l, get_path h (path p) = Ok (Group l) -> (exists m, lookup (str "Metadata") l = Some m) -> forall dry, file_reader number unit file h (Some p) dry = file_reader number unit file (Group l) None dry.
Proof. intros file h p l G [m M] dry. unfold file_reader. rewrite G. cbn [bind has_metadata]. rewrite (existsb_lookup _ _ _ _ M). reflexivity. Qed.

(** * Files of several sessions *)
Lemma run : forall file h X (task : X -> pystr * pystr) (P : X -> dataset -> Prop) xs, (forall x, In x xs -> exists e d, read_entry number unit h (task x) = Ok e /\ load file h (task x) e = Ok d /\ P x d) ->
  exists es ds, mapM (read_entry number unit h) (map task xs) = Ok es /\ mapM (fun te => load file h (fst te) (snd te)) (combine (map task xs) es) = Ok ds /\ Forall2 P xs ds.
Proof.
  intros file h X task P xs H. induction xs as [|x xs IH]; [exists [], []; split; [reflexivity|split; [reflexivity|constructor]]|]. destruct (H x (or_introl eq_refl)) as [e [d [R [L D]]]]. destruct IH as [es [ds [A [B C]]]]; [intros y Y; apply H; right; exact Y|]. exists (e :: es), (d :: ds). cbn [map mapM combine fst snd]. rewrite R. cbn [bind]. rewrite A. cbn [bind]. rewrite L. cbn [bind]. rewrite B. split; [reflexivity|]. split; [reflexivity|constructor; assumption].
Qed.
Definition group_list (n : h5) : list (pystr * h5) := match n with Group l => l | _ => [] end.
Definition named {A} (l : list (pystr * A)) : list (pystr * A) := filter (fun p => guid (fst p)) l.
Definition sessions_ok (file : list Z) (tops : list (pystr * h5)) (meta : pystr -> xml) : Prop :=
  NoDup (map fst tops) /\ ~ In (str "Metadata") (map fst tops) /\ forall k n, In (k, n) tops -> guid k = true -> ~ In 47 k /\ exists l, n = Group l /\ session_ok file l (meta k).
Definition members (tops : list (pystr * h5)) : list (pystr * (pystr * h5)) := flat_map (fun top => map (pair (fst top)) (named (group_list (snd top)))) (named tops).
Definition address (x : pystr * (pystr * h5)) : pystr := fst x ++ [47] ++ fst (snd x).
Definition task_of (x : pystr * (pystr * h5)) : pystr * pystr := (address x, fst x ++ [47] ++ str "Metadata").
Lemma sessions_tasks : forall file tops meta, sessions_ok file tops meta -> tasks (Group tops) = Ok (map task_of (members tops)).
Proof.
  intros file tops meta [ND [NM H]]. unfold tasks, keys. cbn [bind]. replace (existsb _ (map fst tops)) with false.
  2:{ symmetry. apply not_true_is_false. intro E. apply existsb_exists in E. destruct E as [k [K E]]. apply eqb_str_spec in E. subst k. contradiction. }
  rewrite filter_fst. fold (named tops). assert (IN : forall p, In p (named tops) -> In p tops /\ guid (fst p) = true) by (intros p P; apply filter_In in P; exact P). unfold members. set (f := fun top : pystr => _).
  assert (MM : forall l, (forall p, In p l -> In p (named tops)) -> mapM f (map fst l) = Ok (map (fun top => map task_of (map (pair (fst top)) (named (group_list (snd top))))) l)).
  { induction l as [|[k n] l IH]; intro I; [reflexivity|]. cbn [map mapM fst snd]. rewrite IH by (intros p P; apply I; right; exact P). destruct (IN _ (I _ (or_introl eq_refl))) as [I1 G]. destruct (H k n I1 G) as [NS [m [-> _]]]. unfold f at 1. cbn [get]. rewrite (lookup_unique _ _ _ _ ND I1). cbn [bind keys group_list]. rewrite filter_fst, map_map. fold (named m). rewrite map_map. reflexivity. }
  rewrite (MM (named tops)) by auto. cbn [bind]. rewrite flat_map_concat_map, concat_map, map_map. reflexivity.
Qed.
Lemma member_loads : forall file tops meta x, sessions_ok file tops meta -> In x (members tops) -> exists e d, read_entry number unit (Group tops) (task_of x) = Ok e /\ load file (Group tops) (task_of x) e = Ok d /\ dataset_of file (meta (fst x)) (snd x) d.
Proof.
  intros file tops meta [k [nm n]] [ND [_ H]] I. unfold members in I. apply in_flat_map in I. destruct I as [[k' g] [I1 I2]]. apply in_map_iff in I2. cbn [fst snd] in I2. destruct I2 as [q [E I2]]. injection E as -> ->. apply filter_In in I1. destruct I1 as [I1 G1]. cbn [fst] in G1. destruct (H k g I1 G1) as [NK [m [-> [M [ND2 [NS2 [[all [ge [HA HG]]] H2]]]]]]]. cbn [group_list] in I2. apply filter_In in I2. destruct I2 as [I2 G2]. cbn [fst] in G2.
  rewrite Forall_forall in NS2. pose proof (NS2 _ I2) as NN. cbn [fst] in NN. cbn [fst snd].
  assert (P1 : forall z, ~ In 47 z -> path (k ++ [47] ++ z) = [k; z]). { intros z Z. unfold path. cbn [app]. rewrite split_char_app by exact NK. rewrite split_char_nosep by exact Z. reflexivity. }
  apply (read_and_load file (Group tops) (meta k) nm n (task_of (k, (nm, n))) all ge); unfold task_of, address; cbn [fst snd].
  - pose proof (P1 nm NN) as E. unfold path in E. rewrite E. reflexivity.
  - rewrite P1 by (intro Z; vm_compute in Z; intuition congruence). cbn [get_path get]. rewrite (lookup_unique _ _ _ _ ND I1). cbn [bind get]. rewrite M. reflexivity.
  - rewrite P1 by exact NN. cbn [get_path get]. rewrite (lookup_unique _ _ _ _ ND I1). cbn [bind get]. rewrite (lookup_unique _ _ _ _ ND2 I2). reflexivity.
  - exact HA.
  - exact HG.
  - apply (H2 _ I2 G2).
Qed.
Theorem C88_sessions : forall file tops meta, sessions_ok file tops meta -> exists ds, file_reader number unit file (Group tops) None false = Ok ds /\ Forall2 (fun x d => dataset_of file (meta (fst x)) (snd x) d) (members tops) ds.
Proof.
  intros file tops meta OK. unfold file_reader. cbn [bind]. rewrite (sessions_tasks file tops meta OK). cbn [bind]. destruct (run file (Group tops) _ task_of (fun x d => dataset_of file (meta (fst x)) (snd x) d) (members tops)) as [es [ds [A [B C]]]].
  - intros x X. apply (member_loads file tops meta x OK X).
  - rewrite A. cbn [bind]. exists ds. split; assumption.
Qed.
Lemma address_inj : forall x y, ~ In 47 (fst x) -> ~ In 47 (fst y) -> address x = address y -> fst x = fst y /\ fst (snd x) = fst (snd y).
Proof.
  intros [a [b n]] [c [d m]] A C E. unfold address in E. cbn [fst snd] in *. revert c C E. induction a as [|z a IH]; intros c C E; destruct c as [|w c].
  - cbn [app] in E. injection E as E. split; [reflexivity|exact E].
  - cbn [app] in E. injection E as E1 E2. exfalso. apply C. left. symmetry. exact E1.
  - cbn [app] in E. injection E as E1 E2. exfalso. apply A. left. exact E1.
  - cbn [app] in E. injection E as -> E. destruct (IH (fun I => A (or_intror I)) c (fun I => C (or_intror I)) E) as [E1 E2]. split; [f_equal; exact E1|exact E2].
Qed.
(** One scan of a file, by its address *)
Theorem C88_one : forall file tops meta x l, sessions_ok file tops meta -> In x (members tops) -> snd (snd x) = Group l -> lookup (str "Metadata") l = None ->
  exists d, file_reader number unit file (Group tops) (Some (address x)) false = Ok [d] /\ dataset_of file (meta (fst x)) (snd x) d.
Proof.
  intros file tops meta [k [nm n]] l OK I E NM. cbn [snd] in E. subst n. pose proof OK as [ND [_ H]].
  assert (MEM : forall y, In y (members tops) -> exists g m, In (fst y, g) tops /\ g = Group m /\ session_ok file m (meta (fst y)) /\ ~ In 47 (fst y) /\ In (snd y) m /\ guid (fst (snd y)) = true).
  { intros [k2 [nm2 n2]] Y. unfold members in Y. apply in_flat_map in Y. destruct Y as [[k' g] [I1 I2]]. apply in_map_iff in I2. cbn [fst snd] in I2. destruct I2 as [q [E I2]]. injection E as -> ->. apply filter_In in I1. destruct I1 as [I1 G1]. cbn [fst] in G1. destruct (H k2 g I1 G1) as [NK [m [-> S]]]. cbn [group_list] in I2. apply filter_In in I2. destruct I2 as [I2 G2]. exists (Group m), m. cbn [fst snd]. repeat split; auto; apply S. }
  destruct (MEM _ I) as [g [m [I1 [-> [S [NK [I2 G2]]]]]]]. cbn [fst snd] in *. pose proof S as [M [ND2 [NS2 _]]]. rewrite Forall_forall in NS2. pose proof (NS2 _ I2) as NN. cbn [fst] in NN.
  assert (GP : get_path (Group tops) (path (address (k, (nm, Group l)))) = Ok (Group l)).
  { unfold path, address. cbn [fst snd app]. rewrite split_char_app by exact NK. rewrite split_char_nosep by exact NN. cbn [get_path get]. rewrite (lookup_unique _ _ _ _ ND I1). cbn [bind get]. rewrite (lookup_unique _ _ _ _ ND2 I2). reflexivity. }
  unfold file_reader. rewrite GP. cbn [bind has_metadata]. replace (existsb _ l) with false.
  2:{ symmetry. clear - NM. induction l as [|[k v] l IH]; [reflexivity|]. cbn [lookup existsb fst] in *. destruct (eqb_str (str "Metadata") k) eqn:E; [discriminate NM|]. rewrite IH by exact NM. replace (eqb_str k (str "Metadata")) with false; [reflexivity|]. symmetry. apply eqb_str_neq. apply eqb_str_neq in E. congruence. }
  rewrite (sessions_tasks file tops meta OK). cbn [bind].
  assert (NDM : NoDup (members tops)).
  { unfold members. assert (NT : NoDup (map fst (named tops))). { unfold named. clear - ND. induction tops as [|p tops IH]; [constructor|]. cbn [map] in ND. inversion ND as [|? ? N1 N2]; subst. cbn [filter]. destruct (guid (fst p)); [|apply IH; exact N2]. cbn [map]. constructor; [|apply IH; exact N2]. intro J. apply N1. apply in_map_iff in J. destruct J as [q [<- J]]. apply filter_In in J. apply in_map. apply J. }
    assert (SUB : forall p, In p (named tops) -> NoDup (named (group_list (snd p)))).
    { intros [k2 g] P. apply filter_In in P. destruct P as [P1 P2]. cbn [fst snd] in *. destruct (H k2 g P1 P2) as [_ [m2 [-> [_ [N2 _]]]]]. cbn [group_list]. apply NoDup_filter. apply NoDup_map_inv in N2. exact N2. }
    generalize dependent (named tops). clear. induction l as [|[k g] l IH]; intros NT SUB; [constructor|]. cbn [flat_map map fst snd] in *. inversion NT as [|? ? N1 N2]; subst. specialize (IH N2 (fun p P => SUB p (or_intror P))).
    assert (NP : NoDup (map (pair k) (named (group_list g)))). { apply FinFun.Injective_map_NoDup; [intros a b E; congruence|]. apply (SUB (k, g)). left. reflexivity. }
    assert (APP : forall A (a b : list A), NoDup a -> NoDup b -> (forall x, In x a -> ~ In x b) -> NoDup (a ++ b)).
    { clear. intros A a b NA NB D. induction NA as [|x a X NA IH]; [exact NB|]. cbn [app]. constructor; [|apply IH; intros y Y; apply D; right; exact Y]. rewrite in_app_iff. intros [K|K]; [contradiction|]. apply (D x); [left; reflexivity|exact K]. }
    apply APP; [exact NP|exact IH|]. intros x X Y. apply in_map_iff in X. destruct X as [p [<- P]]. apply in_flat_map in Y. destruct Y as [[k2 g2] [Y1 Y2]]. apply in_map_iff in Y2. destruct Y2 as [q [E Q]]. cbn [fst] in E. injection E as -> ->. apply N1. apply in_map_iff. exists (k, g2). split; [reflexivity|exact Y1]. }
  assert (ONE : filter (fun t => eqb_str (fst t) (address (k, (nm, Group l)))) (map task_of (members tops)) = map task_of [(k, (nm, Group l))]).
  { assert (U : forall y, In y (members tops) -> address y = address (k, (nm, Group l)) -> y = (k, (nm, Group l))).
    { intros [k2 [nm2 n2]] Y E. destruct (MEM _ Y) as [g2 [m2 [J1 [-> [S2 [NK2 [J2 G3]]]]]]]. cbn [fst snd] in *. destruct (address_inj (k2, (nm2, n2)) (k, (nm, Group l)) NK2 NK E) as [E1 E2]. cbn [fst snd] in E1, E2. subst k2 nm2. pose proof (lookup_unique _ _ _ _ ND I1) as X1. rewrite (lookup_unique _ _ _ _ ND J1) in X1. injection X1 as ->. pose proof (lookup_unique _ _ _ _ ND2 I2) as X2. rewrite (lookup_unique _ _ _ _ ND2 J2) in X2. injection X2 as ->. reflexivity. }
    clear - I NDM U. induction (members tops) as [|y ms IH]; [destruct I|]. inversion NDM as [|? ? N1 N2]; subst. cbn [map filter]. change (fst (task_of y)) with (address y). destruct (eqb_str (address y) (address (k, (nm, Group l)))) eqn:E.
    - apply eqb_str_spec in E. rewrite (U y (or_introl eq_refl) E) in *. f_equal.
      assert (Z : forall z, In z ms -> eqb_str (address z) (address (k, (nm, Group l))) = false). { intros z Z. apply eqb_str_neq. intro K. apply N1. rewrite <- (U z (or_intror Z) K). exact Z. }
      clear - Z. induction ms as [|z ms IH]; [reflexivity|]. cbn [map filter]. change (fst (task_of z)) with (address z). rewrite (Z z (or_introl eq_refl)). apply IH. intros w W. apply Z. right. exact W.
    - destruct I as [-> | I]; [rewrite eqb_str_refl in E; discriminate E|]. apply IH; [exact I|exact N2|]. intros z Z. apply U. right. exact Z. }
  rewrite ONE. destruct (member_loads file tops meta _ OK I) as [e [d [R [L D]]]]. exists d. cbn [map mapM combine fst snd]. rewrite R. cbn [bind combine mapM fst snd]. rewrite L. cbn [bind]. split; [reflexivity|exact D].
Qed.
(** A dry run reads no data *)
Theorem C88_dry : forall file h p ds, file_reader number unit file h p true = Ok ds -> ds = [].
Proof.
  intros file h p ds H. unfold file_reader in H. destruct (match p with Some _ => _ | None => _ end) as [[h' single]|]; [|discriminate H]. cbn [bind] in H. destruct (tasks h'); [|discriminate H]. cbn [bind] in H. destruct (mapM _ _) in H; [|discriminate H]. cbn [bind] in H. destruct (forallb _ _) in H; [|discriminate H]. congruence.
Qed.
End Tasks.
