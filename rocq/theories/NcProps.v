(** Property C98: EELSLab netCDF files. *)
From Coq Require Import QArith.
From Verif Require Import Base Text HierModel HierProps SfsModel NcModel.
Local Open Scope Z_scope.

(** * Specification *)
(** The (first) value of an attribute *)
Definition attribute (c : cube) (name : pystr) (v : scalar) : Prop := In (name, One v) (c_attrs c) \/ exists l, In (name, Array (v :: l)) (c_attrs c).
Definition missing (c : cube) (name : pystr) : Prop := ~ In name (map fst (c_attrs c)).
Definition cube_ok (c : cube) : Prop := NoDup (map fst (c_attrs c)) /\ Forall (fun p => snd p <> Array []) (c_attrs c) /\ (1 <= List.length (c_shape c) <= 3)%nat.
(** Names of the last axes, and the prefix of their attributes *)
Definition all_axes (type : pystr) : list (pystr * pystr) := map (fun p => (str (fst p), str (snd p))) (if eqb_str type (str "image") then [("Z", "z"); ("Y", "y"); ("X", "x")] else [("Y", "y"); ("X", "x"); ("Energy", "energy")])%string.
Definition axes_of (c : cube) (type : pystr) (l : list (pystr * pystr)) : Prop := exists a, all_axes type = a ++ l /\ List.length l = List.length (c_shape c).
(** A calibration is that of the attributes if no axis lacks it *)
Definition calibrated (c : cube) (axes : list (pystr * pystr)) (suffix : string) (default : scalar) (l : list scalar) : Prop :=
  (Forall2 (fun a v => attribute c (snd a ++ str suffix) v) axes l \/ (Exists (fun a => missing c (snd a ++ str suffix)) axes /\ l = map (fun _ => default) axes)).
Definition calibration_names : list (string * string) := [("energyorigin", "energy_origin"); ("energyscale", "energy_scale"); ("energyunits", "energy_units"); ("xorigin", "x_origin"); ("xscale", "x_scale"); ("xunits", "x_units"); ("yorigin", "y_origin"); ("yscale", "y_scale"); ("yunits", "y_units"); ("zorigin", "z_origin"); ("zscale", "z_scale"); ("zunits", "z_units"); ("exposure", "exposure"); ("title", "title"); ("binning", "binning"); ("readout_frequency", "readout_frequency"); ("ccd_height", "ccd_height"); ("blanking", "blanking")]%string.
Definition acquisition_names : list (string * string) := map (fun s => (s, s)) ["exposure"; "binning"; "readout_frequency"; "ccd_height"; "blanking"; "gain"; "pppc"]%string.
(** A dictionary of the named attributes and nothing else *)
Definition dictionary (c : cube) (names : list (string * string)) (d : list (pystr * scalar)) : Prop :=
  (forall k n v, In (k, n) names -> attribute c (str n) v -> lookup (str k) d = Some v) /\ (forall k v, lookup k d = Some v -> exists k' n, k = str k' /\ In (k', n) names /\ attribute c (str n) v).

(** * Dictionaries *)
Lemma lookup_in : forall A (l : list (pystr * A)) k v, NoDup (map fst l) -> (In (k, v) l <-> lookup k l = Some v).
Proof.
  intros A l k v. induction l as [|[x w] l IH]; intro D; cbn [lookup In]; [split; [intros []|discriminate]|]. inversion D as [|? ? D1 D2]; subst. destruct (eqb_str k x) eqn:E.
  - apply eqb_str_spec in E. subst x. split; [intros [K|K]; [injection K as <-; reflexivity|exfalso; apply D1; apply (in_map fst) in K; exact K]|]. intro K. injection K as <-. left. reflexivity.
  - rewrite <- IH by exact D2. split; [intros [K|K]; [injection K as <- <-; rewrite eqb_str_refl in E; discriminate E|exact K]|]. intro K. right. exact K.
Qed.
Lemma lookup_out : forall A (l : list (pystr * A)) k, ~ In k (map fst l) -> lookup k l = None.
Proof. intros A l k. induction l as [|[x w] l IH]; intro D; cbn [lookup]; [reflexivity|]. cbn [map fst In] in D. destruct (eqb_str k x) eqn:E; [apply eqb_str_spec in E; subst x; tauto|]. apply IH. tauto. Qed.
Lemma attribute_first : forall c n v, cube_ok c -> attribute c n v <-> exists a, lookup n (c_attrs c) = Some a /\ first_value a = Ok v.
Proof.
  intros c n v (D & F & _). unfold attribute. split.
  - intros [H|[l H]]; apply (lookup_in _ _ _ _ D) in H; eexists; (split; [exact H|reflexivity]).
  - intros (a & L & V). apply (lookup_in _ _ _ _ D) in L. destruct a as [s|[|s l]]; cbn [first_value] in V; try discriminate V; injection V as ->; [left; exact L|right; exists l; exact L].
Qed.
Lemma no_empty : forall c n a, cube_ok c -> lookup n (c_attrs c) = Some a -> exists v, first_value a = Ok v.
Proof.
  intros c n a (D & F & _) L. apply (lookup_in _ _ _ _ D) in L. rewrite Forall_forall in F. specialize (F _ L). cbn [snd] in F. destruct a as [s|[|s l]]; [exists s|congruence|exists s]; reflexivity.
Qed.
Lemma collect_read : forall A (f : attr -> res A) attrs names d, (forall n a, lookup n attrs = Some a -> exists v, f a = Ok v) ->
  exists d', collect f attrs names d = Ok d' /\ forall k, ~ In k (map fst names) -> lookup k d' = lookup k d.
Proof.
  intros A f attrs names. induction names as [|[k n] names IH]; intros d H; [exists d; split; [reflexivity|tauto]|]. cbn [collect]. destruct (lookup n attrs) as [a|] eqn:L.
  - destruct (H n a L) as [v V]. rewrite V. cbn [bind]. destruct (IH (put k v d) H) as (d' & E & O). exists d'. split; [exact E|]. intros x X. cbn [map fst In] in X. rewrite O by tauto. rewrite lookup_put. replace (eqb_str x k) with false; [reflexivity|]. symmetry. apply eqb_str_neq. intros ->. tauto.
  - destruct (IH d H) as (d' & E & O). exists d'. split; [exact E|]. intros x X. cbn [map fst In] in X. apply O. tauto.
Qed.
Lemma collect_in : forall A (f : attr -> res A) attrs names d d', (forall n a, lookup n attrs = Some a -> exists v, f a = Ok v) -> NoDup (map fst names) -> collect f attrs names d = Ok d' ->
  forall k n, In (k, n) names -> lookup k d' = match lookup n attrs with Some a => match f a with Ok v => Some v | Err _ => None end | None => lookup k d end.
Proof.
  intros A f attrs names. induction names as [|[k n] names IH]; intros d d' H D E x m X; [destruct X|]. cbn [map fst] in D. inversion D as [|? ? D1 D2]; subst. cbn [collect] in E.
  assert (OUT : forall e e', collect f attrs names e = Ok e' -> lookup k e' = lookup k e) by (intros e e' C; destruct (collect_read A f attrs names e H) as (g & G & O); rewrite G in C; injection C as <-; apply O; exact D1).
  destruct (lookup n attrs) as [a|] eqn:L.
  - destruct (H n a L) as [v V]. rewrite V in E. cbn [bind] in E. destruct X as [X|X]; [injection X as <- <-; rewrite L, V, (OUT _ _ E), lookup_put, eqb_str_refl; reflexivity|]. rewrite (IH _ _ H D2 E x m X). destruct (lookup m attrs); [reflexivity|]. rewrite lookup_put. replace (eqb_str x k) with false; [reflexivity|]. symmetry. apply eqb_str_neq. intros ->. apply D1. apply (in_map fst) in X. exact X.
  - destruct X as [X|X]; [injection X as <- <-; rewrite L; exact (OUT _ _ E)|]. exact (IH _ _ H D2 E x m X).
Qed.
Lemma dictionary_read : forall c names d, cube_ok c -> NoDup (map fst (map (fun p => (str (fst p), str (snd p))) names)) -> collect first_value (c_attrs c) (map (fun p => (str (fst p), str (snd p))) names) [] = Ok d -> dictionary c names d.
Proof.
  intros c names d C D E. assert (NE : forall n a, lookup n (c_attrs c) = Some a -> exists v, first_value a = Ok v) by (intros; eapply no_empty; eassumption). split.
  - intros k n v I AT. apply (attribute_first _ _ _ C) in AT. destruct AT as (a & L & V). rewrite (collect_in _ _ _ _ _ _ NE D E (str k) (str n)); [rewrite L, V; reflexivity|]. apply in_map_iff. exists (k, n). split; [reflexivity|exact I].
  - intros k v L. destruct (in_dec (list_eq_dec Z.eq_dec) k (map fst (map (fun p => (str (fst p), str (snd p))) names))) as [I|I].
    + apply in_map_iff in I. destruct I as ([k' n'] & <- & I). pose proof I as I2. apply in_map_iff in I2. destruct I2 as ([k0 n0] & E0 & I0). injection E0 as <- <-. cbn [fst snd] in *. rewrite (collect_in _ _ _ _ _ _ NE D E _ _ I) in L. exists k0, n0. split; [reflexivity|]. split; [exact I0|]. apply (attribute_first _ _ _ C). destruct (lookup (str n0) (c_attrs c)) as [a|] eqn:LA; [|discriminate L]. exists a. split; [reflexivity|]. destruct (first_value a); [injection L as <-; reflexivity|discriminate L].
    + destruct (collect_read _ first_value (c_attrs c) (map (fun p => (str (fst p), str (snd p))) names) [] NE) as (d' & E' & O). rewrite E' in E. injection E as <-. rewrite (O k I) in L. discriminate L.
Qed.

(** * Axes *)
Lemma mapM_keys : forall c d (l : list (pystr * pystr)) pref suf, cube_ok c -> (forall a v, In a l -> (lookup (snd a ++ str pref) d = Some v <-> attribute c (snd a ++ str suf) v)) ->
  forall default n, n = map (fun _ => default) l -> calibrated c l suf default (keys d (map (fun a : pystr * pystr => snd a ++ str pref) l) n).
Proof.
  intros c d l pref suf C H default n ->. unfold calibrated, keys.
  assert (G : (exists vs, mapM (fun k => match lookup k d with Some v => Ok v | None => Err KeyError end) (map (fun a : pystr * pystr => snd a ++ str pref) l) = Ok vs /\ Forall2 (fun a v => attribute c (snd a ++ str suf) v) l vs) \/ (exists e, mapM (fun k => match lookup k d with Some v => Ok v | None => Err KeyError end) (map (fun a : pystr * pystr => snd a ++ str pref) l) = Err e /\ Exists (fun a => missing c (snd a ++ str suf)) l)).
  { induction l as [|a l IH]; [left; exists []; split; [reflexivity|constructor]|]. cbn [map mapM]. destruct (lookup (snd a ++ str pref) d) as [v|] eqn:L.
    - cbn [bind]. apply (H a v (or_introl eq_refl)) in L. destruct (IH (fun b w I => H b w (or_intror I))) as [(vs & E & F)|(e & E & F)]; rewrite E; cbn [bind]; [left; eexists; split; [reflexivity|constructor; assumption]|right; eexists; split; [reflexivity|constructor 2; exact F]].
    - right. eexists. split; [reflexivity|]. constructor. unfold missing. intro I. apply in_map_iff in I. destruct I as ([n at0] & E & I). cbn [fst] in E. subst n. destruct C as (D & F & S). apply (lookup_in _ _ _ _ D) in I. destruct (no_empty c _ _ (conj D (conj F S)) I) as [v V]. assert (K : attribute c (snd a ++ str suf) v) by (apply (attribute_first _ _ _ (conj D (conj F S))); exists at0; split; assumption). apply (H a v (or_introl eq_refl)) in K. congruence. }
  destruct G as [(vs & E & F)|(e & E & F)]; rewrite E; [left; exact F|right; split; [exact F|reflexivity]].
Qed.
Lemma names_distinct : NoDup (map fst (map (fun p => (str (fst p), str (snd p))) calibration_names)) /\ NoDup (map fst (map (fun p => (str (fst p), str (snd p))) acquisition_names)).
Proof. split; repeat (apply NoDup_cons; [intro K; repeat (destruct K as [K|K]; [discriminate K|]); exact K|]); apply NoDup_nil. Qed.
Definition axis_ok (r : nc) (i : nat) (a : pystr * pystr) (sc o u : scalar) (x : axis) : Prop := nth_error (r_shape r) i = Some (x_size x) /\ x_index x = Z.of_nat i /\ x_name x = fst a /\ x_scale x = sc /\ x_offset x = o /\ x_units x = u.
Lemma key_names : forall c d (l : list (pystr * pystr)) suf1 suf2, cube_ok c -> dictionary c calibration_names d -> (forall a, In a l -> exists k n, snd a ++ str suf1 = str k /\ snd a ++ str suf2 = str n /\ In (k, n) calibration_names) -> forall a v, In a l -> (lookup (snd a ++ str suf1) d = Some v <-> attribute c (snd a ++ str suf2) v).
Proof.
  intros c d l suf1 suf2 C (D1 & D2) H a v I. destruct (H a I) as (k & n & K & N & KN). rewrite K, N. split; [|apply D1; exact KN]. intro L. destruct (D2 _ _ L) as (k' & n' & E & I' & A). assert (EQ : str n = str n').
  { clear - KN I' E. assert (F : forall p q, In p calibration_names -> In q calibration_names -> str (fst p) = str (fst q) -> str (snd p) = str (snd q)). { intros p q P Q EE. assert (B : forallb (fun p => forallb (fun q => implb (eqb_str (str (fst p)) (str (fst q))) (eqb_str (str (snd p)) (str (snd q)))) calibration_names) calibration_names = true) by (vm_compute; reflexivity). rewrite forallb_forall in B. specialize (B p P). rewrite forallb_forall in B. specialize (B q Q). rewrite EE, eqb_str_refl in B. apply eqb_str_spec. exact B. } exact (F (k, n) (k', n') KN I' E). }
  rewrite EQ. exact A.
Qed.
Definition suffixes : list (string * string) := [("scale", "_scale"); ("origin", "_origin"); ("units", "_units")]%string.
Lemma known_names : forall type a s, In a (all_axes type) -> In s suffixes -> exists k n, snd a ++ str (fst s) = str k /\ snd a ++ str (snd s) = str n /\ In (k, n) calibration_names.
Proof.
  intros type a s A S. assert (B : forall p, In p [("z", "z"); ("y", "y"); ("x", "x"); ("energy", "energy")]%string -> exists k n, str (fst p) ++ str (fst s) = str k /\ str (fst p) ++ str (snd s) = str n /\ In (k, n) calibration_names).
  { intros p P. assert (T : forall q, existsb (fun q => eqb_str (str (fst p) ++ str (fst s)) (str (fst q)) && eqb_str (str (fst p) ++ str (snd s)) (str (snd q))) calibration_names = true -> exists k n, str (fst p) ++ str (fst s) = str k /\ str (fst p) ++ str (snd s) = str n /\ In (k, n) calibration_names \/ q = 1). { intros q K. apply existsb_exists in K. destruct K as ([k n] & I & K). apply andb_true_iff in K. destruct K as [K1 K2]. apply eqb_str_spec in K1. apply eqb_str_spec in K2. exists k, n. left. auto. }
    destruct (T 0) as (k & n & [K|K]); [|exists k, n; exact K|discriminate K]. clear T. assert (F : forallb (fun p => forallb (fun s => existsb (fun q => eqb_str (str (fst p) ++ str (fst s)) (str (fst q)) && eqb_str (str (fst p) ++ str (snd s)) (str (snd q))) calibration_names) suffixes) [("z", "z"); ("y", "y"); ("x", "x"); ("energy", "energy")]%string = true) by (vm_compute; reflexivity). rewrite forallb_forall in F. specialize (F p P). rewrite forallb_forall in F. exact (F s S). }
  unfold all_axes in A. destruct (eqb_str type (str "image")); cbn [map In fst snd] in A.
  - destruct A as [<- | [<- | [<- | []]]]; cbn [snd]; [apply (B ("z", "z")%string)|apply (B ("y", "y")%string)|apply (B ("x", "x")%string)]; cbn; auto.
  - destruct A as [<- | [<- | [<- | []]]]; cbn [snd]; [apply (B ("y", "y")%string)|apply (B ("x", "x")%string)|apply (B ("energy", "energy")%string)]; cbn; auto 6.
Qed.
Lemma tail_of : forall A (l : list A) n, List.length l = 3%nat -> (1 <= n <= 3)%nat -> tail3 (Z.of_nat n) l = skipn (3 - n) l.
Proof. intros A l n L N. unfold tail3. replace (3 <? Z.of_nat n) with false by lia. f_equal. lia. Qed.
Lemma calibrated_length : forall c l suf default vs, calibrated c l suf default vs -> List.length vs = List.length l.
Proof. intros c l suf default vs [F|[_ ->]]; [|apply map_length]. induction F as [|a v l vs A F IH]; [reflexivity|]. cbn [List.length]. rewrite IH. reflexivity. Qed.
(** Each axis has the size of its dimension, its name and its calibration *)
Theorem C98_file : forall f c type l, n_version f = Some (str "EELSLab 0.1") -> n_cube f = Some c -> n_type f = Some type -> cube_ok c -> axes_of c type l ->
  exists r scales offsets units, nc_reader false f = Ok r /\ r_shape r = rev (c_shape c) /\ (forall i, r_at r i = c_at c (rev i)) /\ r_record_by r = type /\ List.length (r_axes r) = List.length (c_shape c) /\
    calibrated c l "_scale" (Num 1) scales /\ calibrated c l "_origin" (Num 0) offsets /\ calibrated c l "_units" (Txt []) units /\
    (forall i a sc o u, nth_error l i = Some a -> nth_error scales i = Some sc -> nth_error offsets i = Some o -> nth_error units i = Some u -> exists x, nth_error (r_axes r) i = Some x /\ axis_ok r i a sc o u x) /\
    dictionary c calibration_names (r_calibration r) /\ dictionary c acquisition_names (r_acquisition r) /\
    (forall n, In n ["dark_current"; "readout"]%string -> lookup (str n) (r_treatments r) = lookup (str n) (c_attrs c)).
Proof.
  intros f c type l V CU TY CO (pre & AX & LN). unfold nc_reader. rewrite V, CU, TY, eqb_str_refl. unfold nc_reader_01. assert (NE : forall n a, lookup n (c_attrs c) = Some a -> exists v, first_value a = Ok v) by (intros; eapply no_empty; eassumption).
  destruct names_distinct as [ND1 ND2]. destruct (collect_read _ first_value (c_attrs c) attrib2netcdf [] NE) as (cal & E1 & _). destruct (collect_read _ first_value (c_attrs c) acquisition2netcdf [] NE) as (acq & E2 & _). destruct (collect_read _ (@Ok attr) (c_attrs c) treatments2netcdf []) as (tr & E3 & _); [intros n a _; exists a; reflexivity|].
  rewrite E1, E2, E3. cbn [bind type_of]. cbv zeta. unfold nc_axes. cbv zeta. assert (ZL : zlen (rev (c_shape c)) = zlen (c_shape c)) by (unfold zlen; rewrite rev_length; reflexivity). rewrite ZL. pose proof (dictionary_read c calibration_names cal CO ND1 E1) as DC. pose proof (dictionary_read c acquisition_names acq CO ND2 E2) as DA.
  pose proof CO as (_ & _ & SH). set (n := List.length (c_shape c)) in *.
  assert (LL : l = skipn (3 - n) (all_axes type)). { assert (L3 : List.length (all_axes type) = 3%nat) by (unfold all_axes; destruct (eqb_str type (str "image")); reflexivity). rewrite AX in L3 |- *. rewrite app_length in L3. rewrite skipn_app. replace (3 - n - List.length pre)%nat with 0%nat by lia. rewrite skipn_all2 by lia. reflexivity. }
  assert (KEY : forall s, tail3 (zlen (c_shape c)) (map (fun x => x ++ str s) (map str (if eqb_str type (str "image") then ["z"; "y"; "x"] else ["y"; "x"; "energy"])%string)) = map (fun a : pystr * pystr => snd a ++ str s) l).
  { intro s. unfold zlen. fold n. rewrite tail_of by (rewrite ?map_length; try exact SH; destruct (eqb_str type (str "image")); reflexivity). rewrite LL. rewrite <- skipn_map. f_equal. unfold all_axes. destruct (eqb_str type (str "image")); reflexivity. }
  assert (NAMES : tail3 (zlen (c_shape c)) (map str (if eqb_str type (str "image") then ["Z"; "Y"; "X"] else ["Y"; "X"; "Energy"])%string) = map fst l).
  { unfold zlen. fold n. rewrite tail_of by (rewrite ?map_length; try exact SH; destruct (eqb_str type (str "image")); reflexivity). rewrite LL. rewrite <- skipn_map. f_equal. unfold all_axes. destruct (eqb_str type (str "image")); reflexivity. }
  rewrite NAMES, !KEY. assert (IL : forall a, In a l -> In a (all_axes type)) by (intros a A; rewrite AX; apply in_or_app; right; exact A).
  assert (DEF : forall s : scalar, tail3 (zlen (c_shape c)) [s; s; s] = map (fun _ => s) l). { intro s. unfold zlen. fold n. rewrite tail_of by (try exact SH; reflexivity). fold n in LN. clear - LN SH. destruct l as [|a [|b [|d [|e l]]]]; cbn [List.length] in LN; rewrite <- LN in *; try lia; reflexivity. }
  rewrite !DEF.
  assert (CS : calibrated c l "_scale" (Num 1) (keys cal (map (fun a : pystr * pystr => snd a ++ str "scale") l) (map (fun _ => Num 1) l))) by (apply mapM_keys; [exact CO| |reflexivity]; apply (key_names c cal l); [exact CO|exact DC|]; intros a A; exact (known_names type a ("scale", "_scale")%string (IL a A) ltac:(cbn; auto))).
  assert (CK : calibrated c l "_origin" (Num 0) (keys cal (map (fun a : pystr * pystr => snd a ++ str "origin") l) (map (fun _ => Num 0) l))) by (apply mapM_keys; [exact CO| |reflexivity]; apply (key_names c cal l); [exact CO|exact DC|]; intros a A; exact (known_names type a ("origin", "_origin")%string (IL a A) ltac:(cbn; auto))).
  assert (CW : calibrated c l "_units" (Txt []) (keys cal (map (fun a : pystr * pystr => snd a ++ str "units") l) (map (fun _ => Txt []) l))) by (apply mapM_keys; [exact CO| |reflexivity]; apply (key_names c cal l); [exact CO|exact DC|]; intros a A; exact (known_names type a ("units", "_units")%string (IL a A) ltac:(cbn; auto))).
  assert (CU2 : exists more, keys cal (map (fun a : pystr * pystr => snd a ++ str "units") l) [Txt []; Txt []; Txt []] = keys cal (map (fun a : pystr * pystr => snd a ++ str "units") l) (map (fun _ => Txt []) l) ++ more).
  { unfold keys. destruct (mapM _ _); [exists []; rewrite app_nil_r; reflexivity|]. fold n in LN. clear - LN SH. destruct l as [|a [|b [|d [|e l]]]]; cbn [List.length] in LN; try lia; [exists [Txt []; Txt []]|exists [Txt []]|exists []]; reflexivity. }
  destruct CU2 as [more CU2]. rewrite CU2. set (scales := keys cal (map (fun a : pystr * pystr => snd a ++ str "scale") l) _) in *. set (offsets := keys cal (map (fun a : pystr * pystr => snd a ++ str "origin") l) _) in *. set (units := keys cal (map (fun a : pystr * pystr => snd a ++ str "units") l) (map _ l)) in *. clearbody scales offsets units.
  assert (LS : List.length scales = n) by (rewrite (calibrated_length _ _ _ _ _ CS); exact LN). assert (LO : List.length offsets = n) by (rewrite (calibrated_length _ _ _ _ _ CK); exact LN). assert (LU : List.length units = n) by (rewrite (calibrated_length _ _ _ _ _ CW); exact LN).
  set (nav := if eqb_str type (str "image") then [true; false; false] else [true; true; false]). assert (LV : List.length nav = 3%nat) by (unfold nav; destruct (eqb_str type (str "image")); reflexivity). clearbody nav.
  assert (MK : forall i, (i < n)%nat -> exists x, make_axis (rev (c_shape c)) (map fst l) scales offsets (units ++ more) nav i = Ok x /\ nth_error (rev (c_shape c)) i = Some (x_size x) /\ x_index x = Z.of_nat i /\ nth_error (map fst l) i = Some (x_name x) /\ nth_error scales i = Some (x_scale x) /\ nth_error offsets i = Some (x_offset x) /\ nth_error units i = Some (x_units x)).
  { intros i I. assert (SOME : forall A (m : list A), (i < List.length m)%nat -> exists y, nth_error m i = Some y) by (intros A m M; destruct (nth_error m i) eqn:E; [eexists; reflexivity|apply nth_error_None in E; lia]).
    destruct (SOME _ (rev (c_shape c)) ltac:(rewrite rev_length; fold n; lia)) as [s S]. destruct (SOME _ (map fst l) ltac:(rewrite map_length; lia)) as [nm NM]. destruct (SOME _ scales ltac:(lia)) as [sc SC]. destruct (SOME _ offsets ltac:(lia)) as [o O]. destruct (SOME _ units ltac:(lia)) as [u U]. destruct (SOME _ nav ltac:(lia)) as [v W].
    unfold make_axis, item. rewrite S, NM, SC, O, W. rewrite nth_error_app1 by lia. rewrite U. cbn [bind]. eexists. split; [reflexivity|]. cbn [x_size x_index x_name x_scale x_offset x_units]. repeat split; assumption. }
  rewrite rev_length. fold n.
  assert (MM : forall k m, (k + m <= n)%nat -> exists xs, mapM (make_axis (rev (c_shape c)) (map fst l) scales offsets (units ++ more) nav) (seq k m) = Ok xs /\ List.length xs = m /\ forall j, (j < m)%nat -> exists x, nth_error xs j = Some x /\ make_axis (rev (c_shape c)) (map fst l) scales offsets (units ++ more) nav (k + j) = Ok x).
  { intros k m. revert k. induction m as [|m IH]; intros k K; [exists []; split; [reflexivity|split; [reflexivity|intros; lia]]|]. cbn [seq mapM]. destruct (MK k ltac:(lia)) as (x & X & _). rewrite X. cbn [bind]. destruct (IH (S k) ltac:(lia)) as (xs & XS & LX & NX). rewrite XS. cbn [bind]. exists (x :: xs). split; [reflexivity|]. split; [cbn [List.length]; lia|]. intros [|j] J; [exists x; rewrite Nat.add_0_r; split; [reflexivity|exact X]|]. destruct (NX j ltac:(lia)) as (y & Y1 & Y2). exists y. split; [exact Y1|]. rewrite Nat.add_succ_r. exact Y2. }
  destruct (MM 0%nat n ltac:(lia)) as (xs & XS & LX & NX). rewrite XS. cbn [bind]. eexists. exists scales, offsets, units. split; [reflexivity|]. cbn [r_shape r_at r_record_by r_axes r_calibration r_acquisition r_treatments]. split; [reflexivity|]. split; [reflexivity|]. split; [reflexivity|]. split; [exact LX|]. split; [exact CS|]. split; [exact CK|]. split; [exact CW|]. split; [|split; [exact DC|split; [exact DA|]]].
  - intros i a sc o u A SC O U. assert (I : (i < n)%nat) by (rewrite <- LN; apply nth_error_Some; rewrite A; discriminate). destruct (NX i I) as (x & X1 & X2). destruct (MK i I) as (x' & X3 & Y1 & Y2 & Y3 & Y4 & Y5 & Y6). cbn [Nat.add] in X2. rewrite X2 in X3. injection X3 as <-. exists x. split; [exact X1|]. unfold axis_ok. cbn [r_shape]. split; [exact Y1|]. split; [exact Y2|]. assert (NM : nth_error (map fst l) i = Some (fst a)) by exact (map_nth_error fst i l A). split; [congruence|]. split; [congruence|]. split; congruence.
  - intros m M. assert (IT : In (str m, str m) treatments2netcdf) by (apply in_map_iff; exists m; split; [reflexivity|exact M]). assert (NT : NoDup (map fst treatments2netcdf)) by (repeat (apply NoDup_cons; [intro K; repeat (destruct K as [K|K]; [discriminate K|]); exact K|]); apply NoDup_nil). rewrite (collect_in _ _ _ _ _ _ (fun n a _ => ex_intro _ a eq_refl) NT E3 _ _ IT). destruct (lookup (str m) (c_attrs c)); reflexivity.
Qed.
(** Which axes navigate, in three dimensions *)
Lemma bind_ok : forall A B (r : res A) (f : A -> res B) y, bind r f = Ok y -> exists x, r = Ok x /\ f x = Ok y.
Proof. intros A B [x|e] f y H; [exists x; split; [reflexivity|exact H]|discriminate H]. Qed.
Lemma axis_navigates : forall s n a b u nav i x, make_axis s n a b u nav i = Ok x -> nth_error nav i = Some (x_navigate x).
Proof.
  intros s n a b u nav i x M. unfold make_axis, item in M. destruct (nth_error s i); [|discriminate M]. cbn [bind] in M. destruct (nth_error n i); [|discriminate M]. cbn [bind] in M. destruct (nth_error a i); [|discriminate M]. cbn [bind] in M. destruct (nth_error b i); [|discriminate M]. cbn [bind] in M. destruct (nth_error u i); [|discriminate M]. cbn [bind] in M. destruct (nth_error nav i); [|discriminate M]. cbn [bind] in M. injection M as <-. reflexivity.
Qed.
Lemma axes_navigate : forall s n a b u nav axes, mapM (make_axis s n a b u nav) (seq 0 3) = Ok axes -> List.length nav = 3%nat -> map x_navigate axes = nav.
Proof.
  intros s n a b u nav axes H L. cbn [seq mapM] in H. apply bind_ok in H. destruct H as (x0 & M0 & H). apply bind_ok in H. destruct H as (l0 & H & E0). apply bind_ok in H. destruct H as (x1 & M1 & H). apply bind_ok in H. destruct H as (l1 & H & E1). apply bind_ok in H. destruct H as (x2 & M2 & H). injection E0 as <-. injection E1 as <-. injection H as <-. apply axis_navigates in M0. apply axis_navigates in M1. apply axis_navigates in M2. destruct nav as [|p [|q [|r [|t nav]]]]; try discriminate L. cbn [nth_error] in *. injection M0 as ->. injection M1 as ->. injection M2 as ->. reflexivity.
Qed.
Lemma three_navigate : forall cal type shape axes, nc_axes cal type shape = Ok axes -> List.length shape = 3%nat -> map x_navigate axes = if eqb_str type (str "image") then [true; false; false] else [true; true; false].
Proof.
  intros cal type shape axes H L. unfold nc_axes in H. cbv zeta in H. rewrite L in H. apply axes_navigate in H; [exact H|]. destruct (eqb_str type (str "image")); reflexivity.
Qed.
Lemma reader_eq : forall c t, nc_reader_01 c t = ltac:(let x := eval cbv delta [nc_reader_01] beta in (nc_reader_01 c t) in exact x).
Proof. reflexivity. Qed.
Lemma axes_made : forall c type r, nc_reader_01 c (Some type) = Ok r -> exists cal, nc_axes cal type (rev (c_shape c)) = Ok (r_axes r).
Proof.
  intros c type r H. rewrite reader_eq in H. apply bind_ok in H. destruct H as (cal & _ & H). apply bind_ok in H. destruct H as (acq & _ & H). apply bind_ok in H. destruct H as (tr & _ & H). apply bind_ok in H. destruct H as (t & T & H). injection T as <-. apply bind_ok in H. destruct H as (axes & M & H). injection H as <-. exists cal. exact M.
Qed.
Theorem C98_navigate : forall f c type r, n_cube f = Some c -> n_type f = Some type -> nc_reader false f = Ok r -> List.length (c_shape c) = 3%nat -> map x_navigate (r_axes r) = if eqb_str type (str "image") then [true; false; false] else [true; true; false].
Proof.
  intros f c type r CU TY H L. unfold nc_reader in H. rewrite CU, TY in H. destruct (n_version f) as [v|]; [|discriminate H]. destruct (eqb_str v (str "EELSLab 0.1")); [|discriminate H]. destruct (axes_made c type r H) as (cal & M). apply (three_navigate _ _ _ _ M). rewrite rev_length. exact L.
Qed.
(** With fewer dimensions the energy is a navigation axis *)
Definition spectrum (shape : list Z) : cube := {| c_shape := shape; c_at := fun i => inject_Z (fold_right (fun x s => x + 10 * s) 0 i); c_attrs := [(str "energy_scale", Array [Num (1 # 2)]); (str "energy_origin", One (Num 100)); (str "energy_units", One (Txt (str "eV"))); (str "exposure", One (Num 3)); (str "dark_current", One (Num 7))] |}.
Definition demo_nc (shape : list Z) : nc_file := {| n_version := Some (str "EELSLab 0.1"); n_type := Some (str "spectrum"); n_cube := Some (spectrum shape) |}.
Theorem C98_navigate_refuted : (exists r, nc_reader false (demo_nc [7]) = Ok r /\ map (fun x => (x_name x, x_navigate x)) (r_axes r) = [(str "Energy", true)]) /\ (exists r, nc_reader false (demo_nc [7; 2]) = Ok r /\ map (fun x => (x_name x, x_navigate x)) (r_axes r) = [(str "X", true); (str "Energy", true)]).
Proof. split; eexists; (split; [vm_compute; reflexivity|vm_compute; reflexivity]). Qed.
(** A missing calibration of x takes the calibration of the energy away *)
Theorem C98_missing_refuted : exists r, nc_reader false (demo_nc [7; 2]) = Ok r /\ attribute (spectrum [7; 2]) (str "energy_scale") (Num (1 # 2)) /\ map (fun x => (x_name x, x_scale x, x_offset x)) (r_axes r) = [(str "X", Num 1, Num 0); (str "Energy", Num 1, Num 0)].
Proof. eexists. split; [vm_compute; reflexivity|]. split; [right; exists []; cbn; auto|]. vm_compute. reflexivity. Qed.
(** More dimensions are an IndexError *)
Theorem C98_more_refuted : forall type w c, (4 <= List.length (c_shape c) <= 5)%nat -> cube_ok {| c_shape := [1]; c_at := c_at c; c_attrs := c_attrs c |} -> nc_reader false {| n_version := Some (str "EELSLab 0.1"); n_type := Some type; n_cube := Some c |} = w -> w = Err IndexError.
Proof.
  intros type w c L (D & F & S) <-. set (c1 := {| c_shape := [1]; c_at := c_at c; c_attrs := c_attrs c |}) in *. unfold nc_reader. cbn [n_version n_cube n_type]. rewrite eqb_str_refl. unfold nc_reader_01. assert (NE : forall n a, lookup n (c_attrs c) = Some a -> exists v, first_value a = Ok v) by (intros n a LK; exact (no_empty c1 n a (conj D (conj F S)) LK)).
  destruct (collect_read _ first_value (c_attrs c) attrib2netcdf [] NE) as (cal & E1 & _). destruct (collect_read _ first_value (c_attrs c) acquisition2netcdf [] NE) as (acq & E2 & _). destruct (collect_read _ (@Ok attr) (c_attrs c) treatments2netcdf []) as (tr & E3 & _); [intros n a _; exists a; reflexivity|]. rewrite E1, E2, E3. cbn [bind type_of]. cbv zeta. unfold nc_axes. cbv zeta. assert (ZL : zlen (rev (c_shape c)) = zlen (c_shape c)) by (unfold zlen; rewrite rev_length; reflexivity). rewrite ZL, rev_length.
  set (names := tail3 (zlen (c_shape c)) (map str (if eqb_str type (str "image") then ["Z"; "Y"; "X"] else ["Y"; "X"; "Energy"])%string)). assert (LN : (List.length names < 3)%nat). { unfold names, tail3, zlen. replace (3 <? Z.of_nat (List.length (c_shape c))) with true by lia. rewrite skipn_length, map_length. destruct (eqb_str type (str "image")); cbn [List.length]; lia. }
  clearbody names. set (scales := keys cal _ _). set (offsets := keys cal _ _). set (units := keys cal _ _). set (nav := if eqb_str type (str "image") then _ else _).
  assert (BAD : forall i, (List.length names <= i)%nat -> make_axis (rev (c_shape c)) names scales offsets units nav i = Err IndexError). { intros i I. unfold make_axis, item. destruct (nth_error (rev (c_shape c)) i); [|reflexivity]. cbn [bind]. replace (nth_error names i) with (@None pystr) by (symmetry; apply nth_error_None; exact I). reflexivity. }
  assert (ONLY : forall i e, make_axis (rev (c_shape c)) names scales offsets units nav i = Err e -> e = IndexError). { intros i e M. unfold make_axis, item in M. destruct (nth_error (rev (c_shape c)) i); [|injection M as <-; reflexivity]. cbn [bind] in M. destruct (nth_error names i); [|injection M as <-; reflexivity]. cbn [bind] in M. destruct (nth_error scales i); [|injection M as <-; reflexivity]. cbn [bind] in M. destruct (nth_error offsets i); [|injection M as <-; reflexivity]. cbn [bind] in M. destruct (nth_error units i); [|injection M as <-; reflexivity]. cbn [bind] in M. destruct (nth_error nav i); [discriminate M|injection M as <-; reflexivity]. }
  assert (G : forall l, (exists i, In i l /\ (List.length names <= i)%nat) -> mapM (make_axis (rev (c_shape c)) names scales offsets units nav) l = Err IndexError). { induction l as [|j l IH]; intros (i & I & B); [destruct I|]. cbn [mapM]. destruct (make_axis (rev (c_shape c)) names scales offsets units nav j) as [x|e] eqn:M; [|rewrite (ONLY j e M); reflexivity]. cbn [bind]. destruct I as [-> | I]; [rewrite (BAD i B) in M; discriminate M|]. rewrite IH by (exists i; split; assumption). reflexivity. }
  rewrite G; [reflexivity|]. exists 3%nat. split; [apply in_seq; lia|lia].
Qed.
(** Other files are refused *)
Theorem C98_refused : (forall f, nc_reader true f = Err NotImplementedError) /\ (forall f, n_version f <> Some (str "EELSLab 0.1") -> nc_reader false f = Err IOError).
Proof.
  split; [reflexivity|]. intros f H. unfold nc_reader. destruct (n_version f) as [v|]; [|reflexivity]. destruct (eqb_str v (str "EELSLab 0.1")) eqn:E; [apply eqb_str_spec in E; congruence|reflexivity].
Qed.

(** * Examples *)
Example C98_demo : cube_ok (spectrum [7; 2]) /\ axes_of (spectrum [7; 2]) (str "spectrum") [(str "X", str "x"); (str "Energy", str "energy")].
Proof.
  split; [|exists [(str "Y", str "y")]; split; reflexivity]. split; [|split; [repeat (apply Forall_cons; [discriminate|]); apply Forall_nil|cbn; lia]]. repeat (apply NoDup_cons; [intro K; repeat (destruct K as [K|K]; [discriminate K|]); exact K|]); apply NoDup_nil.
Qed.
Example C98_navigate_demo : exists r, nc_reader false (demo_nc [7; 2; 3]) = Ok r /\ r_shape r = [3; 2; 7].
Proof. eexists. split; vm_compute; reflexivity. Qed.
Example C98_calibrated_demo : exists r, nc_reader false (demo_nc [7]) = Ok r /\ map x_scale (r_axes r) = [Num (1 # 2)] /\ map x_units (r_axes r) = [Txt (str "eV")] /\ lookup (str "exposure") (r_acquisition r) = Some (Num 3).
Proof. eexists. split; [vm_compute; reflexivity|]. repeat split; vm_compute; reflexivity. Qed.
Example C98_more_demo : cube_ok {| c_shape := [1]; c_at := c_at (spectrum [2; 2; 2; 2]); c_attrs := c_attrs (spectrum [2; 2; 2; 2]) |} /\ nc_reader false (demo_nc [2; 2; 2; 2]) = Err IndexError.
Proof. split; [|vm_compute; reflexivity]. destruct C98_demo as [(A & B & _) _]. split; [exact A|]. split; [exact B|]. cbn. lia. Qed.
Print Assumptions C98_file.
Print Assumptions C98_navigate.
Print Assumptions C98_navigate_refuted.
Print Assumptions C98_missing_refuted.
Print Assumptions C98_more_refuted.
Print Assumptions C98_refused.
