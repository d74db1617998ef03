(** C140: kind, axes, title of images of Digital Micrograph files. *)
From Coq Require Import QArith.
From Verif Require Import Base Text HierModel SfsModel RplModel DmModel DmImageModel DmMetaModel LogText ProtoFile.
Local Open Scope Z_scope.

(** What lies at the end of a path of names *)
Fixpoint below (p : list string) (v x : dval) : Prop :=
  match p with [] => v = x | k :: p' => exists d y, v = DDict d /\ lookup (str k) d = Some y /\ below p' y x end.
Definition tags (p : list string) (im x : dval) : Prop := below ("ImageTags"%string :: p) im x.
Definition present (p : list string) (im : dval) : Prop := exists x, tags p im x.
Lemma get_spec : forall p v x, get p v = Some x <-> below p v x.
Proof.
  induction p as [|k p IH]; intros v x; [cbn; split; [intro H; injection H as <-; reflexivity|intros ->; reflexivity]|].
  cbn [below]. unfold get. cbn [map walk]. split.
  - intro H. destruct v; try discriminate. destruct (lookup (str k) d) as [y|] eqn:L; [|discriminate]. exists d, y. split; [reflexivity|]. split; [exact L|]. apply IH. exact H.
  - intros (d & y & -> & L & B). rewrite L. apply IH. exact B.
Qed.
Lemma has_spec : forall p im, has_path ("ImageTags"%string :: p) im = true <-> present p im.
Proof.
  intros p im. unfold has_path, present, tags. destruct (get _ im) as [x|] eqn:G; split; intro H; try reflexivity; try discriminate.
  - exists x. apply get_spec. exact G.
  - destruct H as [x H]. apply get_spec in H. congruence.
Qed.
Lemma text_spec : forall s p im, is_text s (get p im) = true <-> below p im (DStr (str s)).
Proof.
  intros s p im. rewrite <- get_spec. unfold is_text. destruct (get p im) as [[]|]; split; intro H; try discriminate.
  - apply eqb_str_spec in H. subst. reflexivity.
  - injection H as ->. apply eqb_str_refl.
Qed.
Lemma bfalse : forall b (P : Prop), (b = true <-> P) -> b = false -> ~ P.
Proof. intros b P H E p. apply H in p. congruence. Qed.
Lemma orb_spec : forall a b (P Q : Prop), (a = true <-> P) -> (b = true <-> Q) -> (a || b = true <-> P \/ Q).
Proof. intros a b P Q HA HB. rewrite Bool.orb_true_iff, HA, HB. reflexivity. Qed.

(** * Kind *)
Definition told (im : dval) (s : string) : Prop := tags ["Meta Data"; "Signal"]%string im (DStr (str s)).
Inductive kind (im : dval) : string -> Prop :=
| x_ray : told im "X-ray" -> kind im "EDS_TEM"
| light : ~ told im "X-ray" -> told im "CL" \/ present ["Acquisition"; "Monarc Spectrometer"]%string im -> kind im "CL"
| loss : ~ told im "X-ray" -> ~ (told im "CL" \/ present ["Acquisition"; "Monarc Spectrometer"]%string im) -> told im "EELS" \/ present ["spim"; "eels"]%string im -> kind im "EELS"
| unknown : ~ told im "X-ray" -> ~ (told im "CL" \/ present ["Acquisition"; "Monarc Spectrometer"]%string im) -> ~ (told im "EELS" \/ present ["spim"; "eels"]%string im) -> kind im "".
Theorem C140_kind : forall im, exists k, kind im k /\ signal_type im = str k.
Proof.
  intro im. unfold signal_type.
  pose proof (text_spec "X-ray" ["ImageTags"; "Meta Data"; "Signal"]%string im) as X.
  pose proof (orb_spec _ _ _ _ (text_spec "CL" ["ImageTags"; "Meta Data"; "Signal"]%string im) (has_spec ["Acquisition"; "Monarc Spectrometer"]%string im)) as C.
  pose proof (orb_spec _ _ _ _ (text_spec "EELS" ["ImageTags"; "Meta Data"; "Signal"]%string im) (has_spec ["spim"; "eels"]%string im)) as L.
  destruct (is_text "X-ray" (get ["ImageTags"; "Meta Data"; "Signal"]%string im)) eqn:E1; [exists "EDS_TEM"%string; split; [apply x_ray, X; first [exact E1|reflexivity]|reflexivity]|]. pose proof (bfalse _ _ X ltac:(first [exact E1|reflexivity])) as NX.
  destruct (is_text "CL" _ || _) eqn:E2; [exists "CL"%string; split; [apply light; [exact NX|apply C; first [exact E2|reflexivity]]|reflexivity]|]. pose proof (bfalse _ _ C ltac:(first [exact E2|reflexivity])) as NC.
  destruct (is_text "EELS" _ || _) eqn:E3; [exists "EELS"%string; split; [apply loss; [exact NX|exact NC|apply L; first [exact E3|reflexivity]]|reflexivity]|]. pose proof (bfalse _ _ L ltac:(first [exact E3|reflexivity])) as NL.
  exists ""%string. split; [apply unknown; assumption|reflexivity].
Qed.
Lemma kind_fun : forall im a b, kind im a -> kind im b -> a = b.
Proof. intros im a b A B. inversion A; inversion B; subst; try reflexivity; tauto. Qed.

(** * Names *)
(** The axis of the spectrum: its unit and name *)
Inductive spectral : string -> string -> string -> Prop :=
| eels_axis : spectral "EELS" "eV" "Energy loss"
| cl_axis : spectral "CL" "nm" "Wavelength".
(** The first axis with a unit *)
Definition first_with (u : string) (us : list dval) (i : Z) : Prop := exists a b, us = a ++ DStr (str u) :: b /\ zlen a = i /\ ~ In (DStr (str u)) a.
(** The name of the axis that has j others to its right *)
Definition letter (j : Z) (o : option string) : Prop := (j = 0 /\ o = Some "x"%string) \/ (j = 1 /\ o = Some "y"%string) \/ (j = 2 /\ o = Some "z"%string) \/ (2 < j /\ o = None).
Lemma index_spec : forall u us, match index_of (str u) us with Some i => first_with u us i | None => ~ In (DStr (str u)) us end.
Proof.
  intros u us. induction us as [|x us IH]; [cbn; tauto|].
  assert (SKIP : x <> DStr (str u) -> match match index_of (str u) us with Some i => Some (i + 1) | None => None end with Some i => first_with u (x :: us) i | None => ~ In (DStr (str u)) (x :: us) end).
  { intro N. destruct (index_of (str u) us) as [i|].
    - destruct IH as (a & b & -> & L & NI). exists (x :: a), b. split; [reflexivity|]. split; [unfold zlen in *; cbn [List.length]; lia|]. intros [K|K]; [exact (N K)|exact (NI K)].
    - intros [K|K]; [exact (N K)|exact (IH K)]. }
  cbn [index_of]. destruct x; try (apply SKIP; discriminate).
  destruct (eqb_str s (str u)) eqn:E.
  - apply eqb_str_spec in E. subst s. exists [], us. split; [reflexivity|]. split; [reflexivity|]. intros [].
  - apply SKIP. intro K. injection K as ->. rewrite eqb_str_refl in E. discriminate.
Qed.
Lemma zl_app : forall A k a b (L : list A), ~ In k a -> zlookup k (combine (a ++ k :: b) L) = nth_error L (List.length a).
Proof.
  intros A k a. induction a as [|x a IH]; intros b L N; destruct L as [|y L]; cbn [app combine zlookup List.length nth_error]; try reflexivity.
  - rewrite Z.eqb_refl. reflexivity.
  - destruct (Z.eqb_spec x k) as [->|]; [exfalso; apply N; left; reflexivity|]. apply IH. intro K. apply N. right. exact K.
Qed.
Lemma letter_spec : forall j, letter (Z.of_nat j) (nth_error ["x"; "y"; "z"]%string j).
Proof. intro j. destruct j as [|[|[|j]]]; unfold letter; cbn [nth_error]; [left; split; [lia|reflexivity]|right; left; split; [lia|reflexivity]|right; right; left; split; [lia|reflexivity]|]. right; right; right. split; [lia|]. destruct j; reflexivity. Qed.
Lemma cut_at : forall a n k, a <= k < a + Z.of_nat n -> zseq a n = zseq a (Z.to_nat (k - a)) ++ k :: zseq (k + 1) (n - Z.to_nat (k - a) - 1).
Proof.
  intros a n k H. replace n with (Z.to_nat (k - a) + S (n - Z.to_nat (k - a) - 1))%nat at 1 by lia. rewrite zseq_app. f_equal. cbn [zseq]. f_equal; [lia|]. f_equal. lia.
Qed.
Lemma filter_out : forall a n i, ~ (a <= i < a + Z.of_nat n) -> filter (fun k => negb (k =? i)) (zseq a n) = zseq a n.
Proof.
  intros a n i. revert a. induction n as [|n IH]; intros a H; [reflexivity|]. cbn [zseq filter]. destruct (Z.eqb_spec a i); [lia|]. cbn [negb]. f_equal. apply IH. lia.
Qed.
Lemma place_plain : forall n k, 0 <= k < n -> letter (n - 1 - k) (zlookup k (combine (rev (zseq 0 (Z.to_nat n))) ["x"; "y"; "z"]%string)).
Proof.
  intros n k H. rewrite (cut_at 0 (Z.to_nat n) k) by lia. rewrite rev_app_distr. cbn [rev]. rewrite <- app_assoc. cbn [app]. rewrite zl_app by (rewrite <- in_rev; intro K; apply in_zseq in K; lia).
  rewrite rev_length, zseq_length. replace (n - 1 - k) with (Z.of_nat (Z.to_nat n - Z.to_nat (k - 0) - 1)) by lia. apply letter_spec.
Qed.
Lemma place_rest : forall n i k, 0 <= k < n -> 0 <= i < n -> k <> i ->
  letter (n - 1 - k - (if k <? i then 1 else 0)) (zlookup k (combine (rev (filter (fun k => negb (k =? i)) (zseq 0 (Z.to_nat n)))) ["x"; "y"; "z"]%string)).
Proof.
  intros n i k H I N. rewrite (cut_at 0 (Z.to_nat n) k) by lia. rewrite filter_app. cbn [filter]. destruct (Z.eqb_spec k i); [contradiction|]. cbn [negb]. rewrite rev_app_distr. cbn [rev]. rewrite <- app_assoc. cbn [app].
  rewrite zl_app by (rewrite <- in_rev; intro K; apply filter_In in K; destruct K as [K _]; apply in_zseq in K; lia). rewrite rev_length.
  destruct (Z.ltb_spec k i) as [LT|GE].
  - rewrite (cut_at (k + 1) _ i) by lia. rewrite filter_app. cbn [filter]. rewrite Z.eqb_refl. cbn [negb]. rewrite !filter_out by lia. rewrite app_length, !zseq_length.
    match goal with |- letter _ (nth_error _ ?m) => replace (n - 1 - k - 1) with (Z.of_nat m) by lia end. apply letter_spec.
  - rewrite filter_out by lia. rewrite zseq_length. match goal with |- letter _ (nth_error _ ?m) => replace (n - 1 - k - 0) with (Z.of_nat m) by lia end. apply letter_spec.
Qed.
Definition plain_names (n : Z) (l : list (option string)) : Prop := zlen l = n /\ forall k, 0 <= k < n -> exists o, nth_error l (Z.to_nat k) = Some o /\ letter (n - 1 - k) o.
Lemma nth_zseq_map : forall A (f : Z -> A) n k, 0 <= k < n -> nth_error (map f (zseq 0 (Z.to_nat n))) (Z.to_nat k) = Some (f k).
Proof.
  intros A f n k H. apply map_nth_error. rewrite (cut_at 0 (Z.to_nat n) k) by lia. rewrite nth_error_app2 by (rewrite zseq_length; lia). rewrite zseq_length. replace (Z.to_nat k - Z.to_nat (k - 0))%nat with 0%nat by lia. reflexivity.
Qed.
Lemma plain_ok : forall n, 0 <= n -> plain_names n (map (fun k => zlookup k (combine (rev (zseq 0 (Z.to_nat n))) ["x"; "y"; "z"]%string)) (zseq 0 (Z.to_nat n))).
Proof.
  intros n H. split; [unfold zlen; rewrite map_length, zseq_length; lia|]. intros k K. rewrite nth_zseq_map by exact K. eexists. split; [reflexivity|]. apply place_plain. exact K.
Qed.
(** The axis with the unit of the spectrum has its name, the others are x, y and z from the last to the first *)
Theorem C140_names : forall im sh l, shape im = Ok sh -> names im = Ok l ->
  (forall k u name us i, kind im k -> spectral k u name -> units im = Ok us -> first_with u us i ->
     i < zlen sh /\ zlen l = zlen sh /\ nth_error l (Z.to_nat i) = Some (Some name) /\
     forall j, 0 <= j < zlen sh -> j <> i -> exists o, nth_error l (Z.to_nat j) = Some o /\ letter (zlen sh - 1 - j - (if j <? i then 1 else 0)) o) /\
  (forall k u name us, kind im k -> spectral k u name -> units im = Ok us -> ~ In (DStr (str u)) us -> plain_names (zlen sh) l) /\
  (forall k, kind im k -> (forall u name, ~ spectral k u name) -> plain_names (zlen sh) l).
Proof.
  intros im sh l ES H. unfold names in H. rewrite ES in H. cbn [bind] in H. destruct (C140_kind im) as (k0 & K0 & ST). rewrite ST in H.
  assert (N0 : 0 <= zlen sh) by (unfold zlen; lia).
  split; [|split].
  - intros k u name us i K SP EU FW. rewrite (kind_fun im k k0 K K0) in SP.
    assert (S : special (str k0) = Some (u, name)) by (destruct SP; reflexivity). rewrite S, EU in H. cbn [bind] in H. unfold names_of in H. rewrite S in H.
    pose proof (index_spec u us) as I. destruct (index_of (str u) us) as [i'|]; [|exfalso; apply I; destruct FW as (a & b & -> & _); apply in_or_app; right; left; reflexivity].
    assert (i' = i).
    { destruct I as (a & b & E1 & L1 & N1). destruct FW as (a' & b' & E2 & L2 & N2). rewrite E1 in E2. clear - E2 L1 L2 N1 N2. revert a' i i' L1 L2 N1 N2 E2. induction a as [|x a IH]; intros [|y a'] i i' L1 L2 N1 N2 E2.
      - unfold zlen in *. cbn in *. lia.
      - cbn in E2. injection E2 as <- E2. exfalso. apply N2. left. reflexivity.
      - cbn in E2. injection E2 as -> E2. exfalso. apply N1. left. reflexivity.
      - cbn in E2. injection E2 as -> E2. assert (i' - 1 = i - 1); [|lia]. apply (IH a'); unfold zlen in *; cbn [List.length] in *; try lia; try exact E2; intro Q; [apply N1|apply N2]; right; exact Q. }
    subst i'. assert (I0 : 0 <= i) by (destruct I as (a & b & _ & <- & _); unfold zlen; lia).
    destruct (Z.leb_spec (zlen sh) i); [discriminate|]. cbn [bind] in H. injection H as <-. split; [lia|]. split; [unfold zlen; rewrite map_length, zseq_length; lia|]. split.
    + rewrite nth_zseq_map by lia. cbn [zlookup]. rewrite Z.eqb_refl. reflexivity.
    + intros j J N. rewrite nth_zseq_map by exact J. cbn [zlookup]. destruct (Z.eqb_spec i j); [congruence|]. eexists. split; [reflexivity|]. apply place_rest; lia.
  - intros k u name us K SP EU NI. rewrite (kind_fun im k k0 K K0) in SP.
    assert (S : special (str k0) = Some (u, name)) by (destruct SP; reflexivity). rewrite S, EU in H. cbn [bind] in H. unfold names_of in H. rewrite S in H.
    pose proof (index_spec u us) as I. destruct (index_of (str u) us) as [i'|]; [destruct I as (a & b & -> & _); exfalso; apply NI; apply in_or_app; right; left; reflexivity|].
    cbn [bind] in H. injection H as <-. apply plain_ok. exact N0.
  - intros k K NS. rewrite (kind_fun im k k0 K K0) in NS.
    assert (S : special (str k0) = None) by (inversion K0; subst; try reflexivity; exfalso; eapply NS; constructor). rewrite S in H. cbn [bind] in H. unfold names_of in H. rewrite S in H. cbn [bind] in H. injection H as <-. apply plain_ok. exact N0.
Qed.

(** * Axes *)
(** Calibration of an axis that has one *)
Definition blank (v : dval) : Prop := v = DStr [] \/ v = DList [] \/ v = DTuple [] \/ v = DInt 0 \/ v = DDict [] \/ exists n, v = DFloat n 0.
Definition calibrated (E : env) (c : dval) (a : axis) : Prop :=
  exists vs vo vu s o, field (str "Scale") c = Ok vs /\ e_num E vs = Some s /\ field (str "Origin") c = Ok vo /\ e_num E vo = Some o /\ field (str "Units") c = Ok vu /\
    a_scale a = s /\ (a_offset a == - (o * s))%Q /\ (a_units a = vu \/ blank vu /\ a_units a = DStr []).
Definition uncalibrated (a : axis) : Prop := (a_scale a == 1)%Q /\ (a_offset a == 0)%Q /\ a_units a = DStr [].
Lemma unit_spec : forall c u, unit_of c = Ok u -> exists v, field (str "Units") c = Ok v /\ (u = v \/ blank v /\ u = DStr []).
Proof.
  intros c u H. unfold unit_of in H. match type of H with bind ?r _ = _ => destruct r as [v|] end; [|discriminate]. cbn [bind] in H. injection H as <-. exists v. split; [reflexivity|].
  destruct (truthy v) eqn:T; [left; reflexivity|right]. split; [|reflexivity]. unfold blank. destruct v; cbn [truthy] in T; try discriminate; apply Bool.negb_false_iff, Z.eqb_eq in T.
  - subst. tauto.
  - subst. do 5 right. eexists. reflexivity.
  - destruct s; [tauto|unfold zlen in T; cbn [List.length] in T; lia].
  - destruct l; [tauto|unfold zlen in T; cbn [List.length] in T; lia].
  - destruct l; [tauto|unfold zlen in T; cbn [List.length] in T; lia].
  - destruct d; [tauto|unfold zlen in T; cbn [List.length] in T; lia].
Qed.
Lemma mapM_all : forall A B (f : A -> res B) l ys, mapM f l = Ok ys -> Forall2 (fun x y => f x = Ok y) l ys.
Proof. intros A B f l. induction l as [|x l IH]; intros ys H; cbn [mapM] in H; [injection H as <-; constructor|]. destruct (f x) as [y|] eqn:F; [|discriminate]. cbn [bind] in H. destruct (mapM f l) as [r|]; [|discriminate]. cbn [bind] in H. injection H as <-. constructor; [exact F|apply IH; reflexivity]. Qed.
Lemma number_spec : forall E k c q, number_of E k c = Ok q -> exists v, field (str k) c = Ok v /\ e_num E v = Some q.
Proof. intros E k c q H. unfold number_of in H. match type of H with bind ?r _ = _ => destruct r as [v|] end; [|discriminate]. cbn [bind] in H. exists v. destruct (e_num E v); [injection H as ->; tauto|discriminate]. Qed.
Lemma f2_len : forall A B (R : A -> B -> Prop) l m, Forall2 R l m -> List.length l = List.length m.
Proof. intros A B R l m F. induction F; cbn; congruence. Qed.
Lemma f2_nth : forall A B (R : A -> B -> Prop) l m i x, Forall2 R l m -> nth_error l i = Some x -> exists y, nth_error m i = Some y /\ R x y.
Proof. intros A B R l m i x F. revert i. induction F as [|a b l m Rab F IH]; intros i N; [destruct i; discriminate|]. destruct i as [|i]; cbn in *; [injection N as <-; exists b; tauto|apply IH; exact N]. Qed.
Lemma nth_rev : forall A (l : list A) i, (i < List.length l)%nat -> nth_error (rev l) i = nth_error l (List.length l - 1 - i).
Proof.
  intros A l i H. destruct l as [|d l0] eqn:EL; [cbn in H; lia|]. rewrite <- EL in *. rewrite (nth_error_nth' _ d) by (rewrite rev_length; exact H). rewrite rev_nth by exact H. rewrite (nth_error_nth' l d) by lia. f_equal. f_equal. lia.
Qed.
Lemma nth_repeat : forall A (x : A) n i, (i < n)%nat -> nth_error (repeat x n) i = Some x.
Proof. intros A x n. induction n as [|n IH]; intros i H; [lia|]. destruct i; [reflexivity|]. cbn. apply IH. lia. Qed.
Lemma zip6_nth : forall n s c o u v i k, forall n1 s1 c1 o1 u1 v1, nth_error n k = Some n1 -> nth_error s k = Some s1 -> nth_error c k = Some c1 -> nth_error o k = Some o1 -> nth_error u k = Some u1 -> nth_error v k = Some v1 ->
  nth_error (zip6 i n s c o u v) k = Some {| a_name := n1; a_size := s1; a_index := i + Z.of_nat k; a_scale := c1; a_offset := o1; a_units := u1; a_nav := v1 |}.
Proof.
  induction n as [|n0 n IH]; intros [|s0 s] [|c0 c] [|o0 o] [|u0 u] [|v0 v] i k n1 s1 c1 o1 u1 v1 N S C O U V; destruct k as [|k]; cbn [nth_error] in *; try discriminate.
  - injection N as ->. injection S as ->. injection C as ->. injection O as ->. injection U as ->. injection V as ->. cbn [zip6 nth_error]. rewrite Z.add_0_r. reflexivity.
  - cbn [zip6 nth_error]. rewrite (IH s c o u v (i + 1) k _ _ _ _ _ _ N S C O U V). do 2 f_equal. lia.
Qed.
Lemma zip6_len : forall n s c o u v i m, List.length n = m -> List.length s = m -> List.length c = m -> List.length o = m -> List.length u = m -> List.length v = m -> List.length (zip6 i n s c o u v) = m.
Proof. induction n as [|n0 n IH]; intros [|s0 s] [|c0 c] [|o0 o] [|u0 u] [|v0 v] i m N S C O U V; cbn [List.length zip6] in *; subst m; try discriminate; try reflexivity. f_equal. apply IH; lia. Qed.
Lemma nav_nth : forall sp sh cs k, (List.length cs <= List.length sh)%nat -> (k < List.length sh)%nat ->
  nth_error (navigate sp sh cs) k = Some (k <? List.length sh - (if ((List.length sh =? 1) || (sp && (List.length sh =? 2)))%nat then 1 else 2))%nat /\ List.length (navigate sp sh cs) = List.length sh.
Proof.
  intros sp sh cs k HC HK. unfold navigate. rewrite Nat.max_l by exact HC. remember (List.length sh) as n eqn:En. destruct ((n =? 1) || (sp && (n =? 2)))%nat eqn:B.
  - split; [|rewrite app_length, firstn_length, repeat_length; cbn; lia]. destruct (Nat.ltb_spec k (n - 1)).
    + rewrite nth_error_app1 by (rewrite firstn_length, repeat_length; lia). rewrite <- (nth_repeat _ true n k HK). clear - H. revert k H. set (L := repeat true n). generalize (n - 1)%nat. generalize L. clear. induction L as [|x L IH]; intros m k H; destruct m; [lia|destruct k; reflexivity|lia|]. destruct k; [reflexivity|]. cbn. apply IH. lia.
    + rewrite nth_error_app2 by (rewrite firstn_length, repeat_length; lia). rewrite firstn_length, repeat_length. replace (k - Nat.min (n - 1) n)%nat with 0%nat by lia. reflexivity.
  - assert (n <> 1)%nat by (intros ->; discriminate). split; [|rewrite app_length, firstn_length, repeat_length; cbn; lia]. destruct (Nat.ltb_spec k (n - 2)).
    + rewrite nth_error_app1 by (rewrite firstn_length, repeat_length; lia). rewrite <- (nth_repeat _ true n k HK). clear - H0. revert k H0. set (L := repeat true n). generalize (n - 2)%nat. generalize L. clear. induction L as [|x L IH]; intros m k H; destruct m; [lia|destruct k; reflexivity|lia|]. destruct k; [reflexivity|]. cbn. apply IH. lia.
    + rewrite nth_error_app2 by (rewrite firstn_length, repeat_length; lia). rewrite firstn_length, repeat_length. assert (D : (k - Nat.min (n - 2) n = 0 \/ k - Nat.min (n - 2) n = 1)%nat) by lia. destruct D as [-> | ->]; reflexivity.
Qed.
(** A spectrum by its format, or by Orsay's tags *)
Definition is_format (im : dval) (s : string) : Prop := tags ["Meta Data"; "Format"]%string im (DStr (str s)).
Definition spectra (im : dval) : Prop := is_format im "Spectrum image" \/ is_format im "Spectrum" \/ present ["spim"]%string im.
Lemma names_len : forall im sh l, shape im = Ok sh -> names im = Ok l -> List.length l = List.length sh.
Proof.
  intros im sh l ES H. unfold names in H. rewrite ES in H. cbn [bind] in H. match type of H with bind ?r _ = _ => destruct r as [us|] end; [|discriminate]. cbn [bind] in H. unfold names_of in H.
  match type of H with bind ?r _ = _ => destruct r as [f|] end; [|discriminate]. cbn [bind] in H. injection H as <-. rewrite map_length, zseq_length. unfold zlen. lia.
Qed.
Theorem C140_axes : forall E im sh cs l, shape im = Ok sh -> calibrations im = Ok cs -> (List.length cs <= List.length sh)%nat -> get_axes E im = Ok l ->
  List.length l = List.length sh /\
  forall k n, nth_error sh k = Some n -> exists a ns, nth_error l k = Some a /\ a_size a = n /\ a_index a = Z.of_nat k /\ names im = Ok ns /\ nth_error ns k = Some (a_name a) /\
    (forall c, nth_error cs (List.length sh - 1 - k) = Some c -> calibrated E c a) /\
    ((List.length cs <= List.length sh - 1 - k)%nat -> uncalibrated a) /\
    (a_nav a = false <-> k = List.length sh - 1 \/ k = List.length sh - 2 /\ ~ (spectra im /\ List.length sh = 2))%nat.
Proof.
  intros E im sh cs l ES EC LE H. unfold get_axes in H.
  destruct (names im) as [ns|] eqn:EN; [|discriminate]. cbn [bind] in H. rewrite ES in H. cbn [bind] in H.
  destruct (scales E im) as [sc|] eqn:ESC; [|discriminate]. cbn [bind] in H. destruct (offsets E im) as [os|] eqn:EO; [|discriminate]. cbn [bind] in H.
  destruct (units im) as [us|] eqn:EU; [|discriminate]. cbn [bind] in H. destruct (navigated E im) as [nv|] eqn:EV; [|discriminate]. cbn [bind] in H. injection H as <-.
  unfold scales in ESC. rewrite ES, EC in ESC. cbn [bind] in ESC. destruct (mapM (number_of E "Scale") cs) as [ls|] eqn:MS; [|discriminate]. cbn [bind] in ESC. injection ESC as <-.
  unfold offsets in EO. rewrite ES, EC in EO. cbn [bind] in EO. destruct (mapM (number_of E "Origin") cs) as [lo|] eqn:MO; [|discriminate]. cbn [bind] in EO. unfold scales in EO. rewrite ES, EC in EO. cbn [bind] in EO. rewrite MS in EO. cbn [bind] in EO. injection EO as <-.
  unfold units in EU. rewrite ES, EC in EU. cbn [bind] in EU. destruct (mapM unit_of cs) as [lu|] eqn:MU; [|discriminate]. cbn [bind] in EU. injection EU as <-.
  unfold navigated in EV. rewrite ES, EC in EV. cbn [bind] in EV. unfold scales in EV. rewrite ES, EC in EV. cbn [bind] in EV. rewrite MS in EV. cbn [bind] in EV. injection EV as <-.
  apply mapM_all in MS. apply mapM_all in MO. apply mapM_all in MU.
  pose proof (f2_len _ _ _ _ _ MS) as L1. pose proof (f2_len _ _ _ _ _ MO) as L2. pose proof (f2_len _ _ _ _ _ MU) as L3.
  set (d := (List.length sh - List.length cs)%nat) in *.
  assert (LS : List.length (ls ++ repeat 1%Q d) = List.length sh) by (rewrite app_length, repeat_length; lia).
  assert (LO : List.length (lo ++ repeat 0%Q d) = List.length sh) by (rewrite app_length, repeat_length; lia).
  assert (LU : List.length (lu ++ repeat (DStr []) d) = List.length sh) by (rewrite app_length, repeat_length; lia).
  pose proof (names_len im sh ns ES EN) as LN.
  set (sp := is_text "Spectrum image" (format im) || is_text "Spectrum" (format im) || spim im) in *.
  assert (SPE : sp = true <-> spectra im).
  { unfold sp, spectra. rewrite (orb_spec _ _ _ _ (orb_spec _ _ _ _ (text_spec "Spectrum image" ["ImageTags"; "Meta Data"; "Format"]%string im) (text_spec "Spectrum" ["ImageTags"; "Meta Data"; "Format"]%string im)) (has_spec ["spim"]%string im)). unfold is_format, tags. tauto. }
  split.
  - destruct (List.length sh) eqn:Z0.
    + destruct ns; [|cbn in LN; lia]. reflexivity.
    + apply zip6_len; [lia|lia|rewrite rev_length; lia|rewrite map_length, combine_length, !rev_length; lia|rewrite rev_length; lia|]. rewrite <- Z0. apply (nav_nth sp sh cs 0); lia.
  - intros k n N. assert (K : (k < List.length sh)%nat) by (apply nth_error_Some; congruence). set (r := (List.length sh - 1 - k)%nat).
    destruct (nth_error ns k) as [nm|] eqn:NK; [|apply nth_error_None in NK; lia].
    destruct (nth_error (ls ++ repeat 1%Q d) r) as [q|] eqn:QK; [|apply nth_error_None in QK; lia].
    destruct (nth_error (lo ++ repeat 0%Q d) r) as [o|] eqn:OK; [|apply nth_error_None in OK; lia].
    destruct (nth_error (lu ++ repeat (DStr []) d) r) as [u|] eqn:UK; [|apply nth_error_None in UK; lia].
    assert (SR : nth_error (rev (ls ++ repeat 1%Q d)) k = Some q) by (rewrite nth_rev by lia; rewrite LS; exact QK).
    assert (OR : nth_error (rev (lo ++ repeat 0%Q d)) k = Some o) by (rewrite nth_rev by lia; rewrite LO; exact OK).
    assert (UR : nth_error (rev (lu ++ repeat (DStr []) d)) k = Some u) by (rewrite nth_rev by lia; rewrite LU; exact UK).
    assert (CR : nth_error (map (fun '(o, c) => (-1 * o * c)%Q) (combine (rev (lo ++ repeat 0%Q d)) (rev (ls ++ repeat 1%Q d)))) k = Some (-1 * o * q)%Q).
    { rewrite (map_nth_error (fun '(o, c) => (-1 * o * c)%Q) k _ (d := (o, q))); [reflexivity|]. clear - OR SR. revert k OR SR. generalize (rev (lo ++ repeat 0%Q d)) as a. generalize (rev (ls ++ repeat 1%Q d)) as b. intros b a. revert b. induction a as [|x a IH]; intros b k OR SR; [destruct k; discriminate|]. destruct b as [|y b]; [destruct k; discriminate|]. destruct k; cbn [nth_error combine] in *; [injection OR as ->; injection SR as ->; reflexivity|]. apply IH; assumption. }
    destruct (nav_nth sp sh cs k LE K) as [NV _].
    exists {| a_name := nm; a_size := n; a_index := 0 + Z.of_nat k; a_scale := q; a_offset := (-1 * o * q)%Q; a_units := u; a_nav := (k <? List.length sh - (if ((List.length sh =? 1) || (sp && (List.length sh =? 2)))%nat then 1 else 2))%nat |}, ns.
    split; [exact (zip6_nth _ _ _ _ _ _ 0 k _ _ _ _ _ _ NK N SR CR UR NV)|]. split; [reflexivity|]. split; [cbn [a_index]; lia|]. split; [reflexivity|]. split; [exact NK|]. split; [|split].
    + intros c CK. fold r in CK. assert (RC : (r < List.length cs)%nat) by (apply nth_error_Some; rewrite CK; discriminate).
      destruct (f2_nth _ _ _ _ _ _ _ MS CK) as (q' & Q1 & Q2). destruct (f2_nth _ _ _ _ _ _ _ MO CK) as (o' & O1 & O2). destruct (f2_nth _ _ _ _ _ _ _ MU CK) as (u' & U1 & U2).
      rewrite nth_error_app1 in QK by lia. rewrite nth_error_app1 in OK by lia. rewrite nth_error_app1 in UK by lia. rewrite Q1 in QK. rewrite O1 in OK. rewrite U1 in UK. injection QK as ->. injection OK as ->. injection UK as ->.
      apply number_spec in Q2. apply number_spec in O2. apply unit_spec in U2. destruct Q2 as (vs & A1 & A2). destruct O2 as (vo & B1 & B2). destruct U2 as (vu & C1 & C2).
      exists vs, vo, vu, q, o. repeat (split; [assumption|]). split; [reflexivity|]. split; [cbn [a_offset]; ring|]. exact C2.
    + intro GE. fold r in GE. rewrite nth_error_app2 in QK by lia. rewrite nth_error_app2 in OK by lia. rewrite nth_error_app2 in UK by lia. rewrite nth_repeat in QK by lia. rewrite nth_repeat in OK by lia. rewrite nth_repeat in UK by lia. injection QK as <-. injection OK as <-. injection UK as <-.
      split; [reflexivity|]. split; [cbn [a_offset]; ring|reflexivity].
    + cbn [a_nav]. rewrite Nat.ltb_ge. destruct (Nat.eqb_spec (List.length sh) 1) as [E1|E1]; [cbn [orb]; lia|]. cbn [orb]. destruct (Nat.eqb_spec (List.length sh) 2) as [E2|E2].
      * rewrite Bool.andb_true_r. destruct sp.
        -- assert (S : spectra im) by (apply SPE; reflexivity). split; intro Q; [left; lia|]. destruct Q as [Q|[Q R]]; [lia|]. exfalso. apply R. split; assumption.
        -- assert (S : ~ spectra im) by (intro Q; apply SPE in Q; discriminate). split; intro Q; [|lia]. destruct (Nat.eq_dec k 1); [left; lia|right; split; [lia|]]. intros [R _]. exact (S R).
      * rewrite Bool.andb_false_r. split; intro Q; [|lia]. destruct (Nat.eq_dec k (List.length sh - 1)); [left; assumption|right; split; [lia|]]. intros [_ R]. exact (E2 R).
Qed.
(** Cubes of spectra are turned so that the spectrum comes last *)
Theorem C140_turned : forall E im sh cs b, shape im = Ok sh -> calibrations im = Ok cs -> (List.length cs <= List.length sh)%nat -> to_spectrum E im = Ok b ->
  (b = true <-> (is_format im "Spectrum image" \/ present ["spim"]%string im) /\ (2 < List.length sh)%nat).
Proof.
  intros E im sh cs b ES EC LE H. unfold to_spectrum in H.
  pose proof (orb_spec _ _ _ _ (text_spec "Spectrum image" ["ImageTags"; "Meta Data"; "Format"]%string im) (has_spec ["spim"]%string im)) as O. unfold format, spim in H.
  destruct (_ || _) in H, O.
  - unfold scales in H. rewrite ES, EC in H. cbn [bind] in H. destruct (mapM (number_of E "Scale") cs) as [ls|] eqn:MS; [|discriminate]. cbn [bind] in H. injection H as <-. apply mapM_all, f2_len in MS. unfold zlen. rewrite rev_length, app_length, repeat_length, Z.ltb_lt. unfold is_format, tags. split; [intro Q; split; [apply O; reflexivity|lia]|intros [_ Q]; lia].
  - injection H as <-. split; [discriminate|]. intros [Q _]. apply O in Q. exact Q.
Qed.
Theorem C140_title : forall d, (forall t, lookup (str "Name") d = Some (DStr t) -> title (DDict d) = DStr t) /\ (lookup (str "Name") d = Some (DList []) \/ lookup (str "Name") d = None -> title (DDict d) = DStr []).
Proof.
  intro d. unfold title, get. cbn [map walk]. split.
  - intros t ->. cbn [truthy]. destruct t; [reflexivity|]. unfold zlen. cbn [List.length]. destruct (Z.eqb_spec (Z.of_nat (S (List.length t))) 0); [lia|reflexivity].
  - intros [-> | ->]; reflexivity.
Qed.
