(** Properties C104 and C105: USID files. *)
From Coq Require Import QArith Permutation.
From Verif Require Import Base Text HierModel HierProps HierProof DistModel RowMajor SfsModel EdaxModel EdaxLine DmImage ImgModel UsidModel.
Local Open Scope Z_scope.

(** * C104: reading *)
Definition plain_text (s : pystr) : Prop := Forall (fun c => ~ In c [40; 41; 91; 93]) s.
Definition blank (s : pystr) : Prop := Forall (fun c => is_space c = true) s.
Lemma lstrip_blank : forall b s, blank b -> lstrip (b ++ s) = lstrip s.
Proof. intros b s H. induction H as [|c b C _ IH]; [reflexivity|]. cbn [app lstrip]. rewrite C. exact IH. Qed.
Lemma blank_rev : forall b, blank b -> blank (rev b).
Proof. intros b H. unfold blank in *. rewrite Forall_forall in *. intros c C. apply H. apply in_rev. exact C. Qed.
Lemma strip_blanks : forall a s b, blank a -> blank b -> trimmed s -> strip (a ++ s ++ b) = s.
Proof.
  intros a s b A B T. unfold strip. rewrite lstrip_blank by exact A. destruct s as [|c s].
  - cbn [app]. rewrite <- (app_nil_r b), lstrip_blank by exact B. reflexivity.
  - cbn [app]. destruct T as [T1 T2]. rewrite lstrip_id by exact T1. unfold rstrip. change (c :: s ++ b) with ((c :: s) ++ b). rewrite rev_app_distr, lstrip_blank by (apply blank_rev; exact B).
    fold (rstrip (c :: s)). pose proof (strip_trimmed (c :: s) (conj T1 T2)) as S. unfold strip in S. rewrite lstrip_id in S by exact T1. exact S.
Qed.
Lemma filter_plain : forall s, plain_text s -> filter (fun c => negb (brackets c)) s = s.
Proof. intros s H. induction H as [|c s N _ IH]; [reflexivity|]. cbn [filter]. replace (brackets c) with false; [cbn [negb]; rewrite IH; reflexivity|]. unfold brackets. cbn [In] in N. destruct (c =? 40) eqn:E1; [exfalso; apply N; left; lia|]. destruct (c =? 41) eqn:E2; [exfalso; apply N; right; left; lia|]. destruct (c =? 91) eqn:E3; [exfalso; apply N; do 2 right; left; lia|]. destruct (c =? 93) eqn:E4; [exfalso; apply N; do 3 right; left; lia|]. reflexivity. Qed.
Lemma no_char_plain : forall c s, plain_text s -> In c [40; 41; 91; 93] -> no_char c s.
Proof. intros c s H I X. unfold plain_text in H. rewrite Forall_forall in H. exact (H c X I). Qed.
Lemma strip_ends : forall a q b, blank a -> blank b -> trimmed q -> q <> [] -> strip (a ++ q ++ b) = q.
Proof. intros a q b A B T _. apply strip_blanks; assumption. Qed.
(** "Quantity (units)" and "Quantity [units]", with blanks *)
Definition described (o c : Z) (a q b u e : pystr) : pystr := a ++ (q ++ b ++ o :: u ++ [c]) ++ e.
Lemma described_strip : forall o c a q b u e, is_space o = false -> is_space c = false -> blank a -> blank e -> trimmed q -> q <> [] -> strip (described o c a q b u e) = q ++ b ++ o :: u ++ [c].
Proof.
  intros o c a q b u e O C A E T N. unfold described. apply strip_blanks; [exact A|exact E|]. destruct q as [|x q]; [congruence|]. destruct T as [T _]. cbn [app trimmed]. split; [exact T|]. replace (x :: q ++ b ++ o :: u ++ [c]) with ((x :: q ++ b ++ o :: u) ++ [c]) by (cbn [app]; rewrite <- !app_assoc; reflexivity). rewrite last_last. exact C.
Qed.
Lemma split_at_end : forall o c q b u, In o [40; 91] -> In c [41; 93] -> blank b -> trimmed q -> plain_text u -> split_at (q ++ b ++ o :: u ++ [c]) (List.length (q ++ b)) = (q, u).
Proof.
  intros o c q b u O C B T U. unfold split_at. rewrite app_assoc, firstn_app_at, skipn_app_at. f_equal.
  - exact (strip_blanks [] q b (Forall_nil _) B T).
  - cbn [filter]. replace (brackets o) with true by (destruct O as [<-|[<-|[]]]; reflexivity). cbn [negb]. rewrite filter_app, filter_plain by exact U. cbn [filter]. replace (brackets c) with true by (destruct C as [<-|[<-|[]]]; reflexivity). apply app_nil_r.
Qed.
Theorem C104_round : forall a q b u e, blank a -> blank b -> blank e -> trimmed q -> q <> [] -> plain_text u -> split_descriptor (described 40 41 a q b u e) = (q, u).
Proof.
  intros a q b u e A B E T N U. unfold split_descriptor. rewrite described_strip by (assumption || reflexivity). rewrite app_assoc, rfind_app; [rewrite <- app_assoc; apply split_at_end; cbn; auto|]. apply no_char_app; [apply no_char_plain; cbn; auto|]. intros [X|[]]. discriminate X.
Qed.
Theorem C104_square : forall a q b u e, blank a -> blank b -> blank e -> trimmed q -> q <> [] -> no_char 40 q -> plain_text u -> split_descriptor (described 91 93 a q b u e) = (q, u).
Proof.
  intros a q b u e A B E T N NC U. unfold split_descriptor. rewrite described_strip by (assumption || reflexivity). rewrite rfind_none.
  - rewrite app_assoc, rfind_app; [rewrite <- app_assoc; apply split_at_end; cbn; auto|]. apply no_char_app; [apply no_char_plain; cbn; auto|]. intros [X|[]]. discriminate X.
  - apply no_char_app; [exact NC|]. apply no_char_app; [intro X; unfold blank in B; rewrite Forall_forall in B; discriminate (B 40 X)|]. intros [X|X]; [discriminate X|]. apply in_app_or in X. destruct X as [X|[X|[]]]; [|discriminate X]. exact (no_char_plain 40 u U (or_introl eq_refl) X).
Qed.
Theorem C104_no_units : forall a q e, blank a -> blank e -> trimmed q -> plain_text q -> split_descriptor (a ++ q ++ e) = (q, []).
Proof. intros a q e A E T P. unfold split_descriptor. rewrite strip_blanks by assumption. rewrite !rfind_none by (apply no_char_plain; cbn; auto). reflexivity. Qed.
(** Both kinds of brackets: the units start at the round ones *)
Theorem C104_both_refuted : exists s, s = str "Current (lock-in) [nA]" /\ split_descriptor s = (str "Current", str "lock-in nA").
Proof. eexists. split; [reflexivity|]. vm_compute. reflexivity. Qed.

Lemma forall2_imp : forall A B (P Q : A -> B -> Prop) a b, (forall x y, P x y -> Q x y) -> Forall2 P a b -> Forall2 Q a b.
Proof. intros A B P Q a b H F. induction F; constructor; auto. Qed.
Section Reading.
  Variable slope : list Q -> res Q.
  Definition long (values : pystr -> list Q) (n : pystr) : bool := negb (zlen (values n) =? 1).
  (** Values that are uniform, or whose spacing may be ignored *)
  Definition readable (ignore : bool) (v : list Q) : Prop := v <> [] /\ ((exists s, slope v = Ok s) \/ (ignore = true /\ slope v = Err ValueError)).
  Definition axis_for (name units : pystr) (v : list Q) (a : uaxis) : Prop :=
    u_name a = name /\ u_units a = units /\ u_size a = zlen v /\
    (forall s, slope v = Ok s -> u_scale a = s /\ hd_error v = Some (u_offset a)) /\ (slope v = Err ValueError -> u_scale a = 1%Q /\ u_offset a = 0%Q).
  Lemma dim_axis_ok : forall ignore name units v, readable ignore v -> exists a, dim_axis slope ignore name units v = Ok a /\ axis_for name units v a.
  Proof.
    intros ignore name units v [N [[s S]|[I S]]]; unfold dim_axis; rewrite S; [|rewrite I]; destruct v as [|q v]; try congruence; eexists; (split; [reflexivity|]); unfold axis_for; rewrite S; cbn [u_name u_units u_size u_scale u_offset hd_error]; repeat split; try discriminate; congruence.
  Qed.
  Lemma dim_dict_ok : forall ignore values l acc, NoDup (map fst l) -> (forall n, In n (map fst l) -> long values n = true -> readable ignore (values n)) ->
    exists r, dim_dict slope ignore values l acc = Ok r /\ (forall n u, In (n, u) l -> long values n = true -> exists a, lookup n r = Some a /\ axis_for n u (values n) a) /\
      (forall n, (In n (map fst l) -> long values n = false) -> lookup n r = lookup n acc).
  Proof.
    intros ignore values l. induction l as [|[n u] l IH]; intros acc N R; [exists acc; split; [reflexivity|]; split; [intros ? ? []|reflexivity]|]. cbn [map fst] in N, R. inversion N as [|? ? N1 N2]; subst. cbn [dim_dict]. destruct (zlen (values n) =? 1) eqn:L.
    - destruct (IH acc N2 (fun m M => R m (or_intror M))) as (r & E & A & B). exists r. split; [exact E|]. split.
      + intros m v [X|X] LM; [injection X as <- <-; unfold long in LM; rewrite L in LM; discriminate LM|exact (A m v X LM)].
      + intros m M. apply B. intro I. apply M. right. exact I.
    - assert (LN : long values n = true) by (unfold long; rewrite L; reflexivity). destruct (dim_axis_ok ignore n u (values n) (R n (or_introl eq_refl) LN)) as (a & E & AF). rewrite E. cbn [bind]. destruct (IH (put n a acc) N2 (fun m M => R m (or_intror M))) as (r & ER & A & B). exists r. split; [exact ER|]. split.
      + intros m v [X|X] LM; [|exact (A m v X LM)]. injection X as <- <-. exists a. split; [|exact AF]. rewrite B by (intro I; contradiction). rewrite lookup_put, eqb_str_refl. reflexivity.
      + intros m M. rewrite B by (intro I; apply M; right; exact I). rewrite lookup_put. destruct (eqb_str m n) eqn:E2; [|reflexivity]. apply eqb_str_spec in E2. subst m. specialize (M (or_introl eq_refl)). congruence.
  Qed.
  Lemma assemble_long : forall values r l names, NoDup (map fst l) -> (forall n u, In (n, u) l -> long values n = true -> exists a, lookup n r = Some a /\ axis_for n u (values n) a) -> (forall n, long values n = false -> lookup n r = None) ->
    (forall n, In n names -> In n (map fst l)) -> Forall2 (fun n a => exists u, In (n, u) l /\ axis_for n u (values n) a) (filter (long values) names) (assemble r names).
  Proof.
    intros values r l names N A B. induction names as [|n names IH]; intro H; [constructor|]. cbn [filter assemble]. specialize (IH (fun m M => H m (or_intror M))). destruct (long values n) eqn:L.
    - assert (I := H n (or_introl eq_refl)). apply in_map_iff in I. destruct I as ([n' u] & E & I). cbn [fst] in E. subst n'. destruct (A n u I L) as (a & LA & AF). rewrite LA. constructor; [exists u; split; assumption|exact IH].
    - rewrite (B n L). exact IH.
  Qed.
  (** A dataset whose labels, units and form belong together; p and s are the labels from slow to fast *)
  Record fine (ignore : bool) (d : dataset) (nd : ndim) (p s : list pystr) : Prop := {
    f_nd : d_nd d = Some nd; f_labels : n_labels nd = p ++ s; f_pos : Permutation p (d_pos d); f_spec : Permutation s (d_spec d);
    f_pos_dup : NoDup (d_pos d); f_spec_dup : NoDup (d_spec d); f_pos_units : List.length (d_pos_units d) = List.length (d_pos d); f_spec_units : List.length (d_spec_units d) = List.length (d_spec d);
    f_shape : n_shape nd = map (fun n => zlen (d_pos_values d n)) p ++ map (fun n => zlen (d_spec_values d n)) s;
    f_pos_read : forall n, In n (d_pos d) -> long (d_pos_values d) n = true -> readable ignore (d_pos_values d n);
    f_spec_read : forall n, In n (d_spec d) -> long (d_spec_values d) n = true -> readable ignore (d_spec_values d n) }.
  Definition axes_of (labels units : list pystr) (values : pystr -> list Q) (names : list pystr) (l : list uaxis) : Prop :=
    Forall2 (fun n a => exists i u, nth_error labels i = Some n /\ nth_error units i = Some u /\ axis_for n u (values n) a) (filter (long values) names) l.
  Lemma combine_fst : forall A B (a : list A) (b : list B), List.length b = List.length a -> map fst (combine a b) = a.
  Proof. intros A B a. induction a as [|x a IH]; intros [|y b] L; try discriminate L; [reflexivity|]. cbn [combine map fst]. rewrite IH; [reflexivity|]. cbn [List.length] in L. lia. Qed.
  Lemma in_combine_nth : forall A B (a : list A) (b : list B) x y, In (x, y) (combine a b) -> exists i, nth_error a i = Some x /\ nth_error b i = Some y.
  Proof. intros A B a. induction a as [|x0 a IH]; intros [|y0 b] x y H; try destruct H as [H|H]; try contradiction; [injection H as <- <-; exists O; split; reflexivity|]. destruct (IH b x y H) as (i & I1 & I2). exists (S i). split; assumption. Qed.
  Lemma axes_sizes : forall labels units values names l, axes_of labels units values names l -> map u_size l = squeezed (map (fun n => zlen (values n)) names).
  Proof.
    intros labels units values names l H. unfold axes_of in H. unfold squeezed. revert l H. induction names as [|n names IH]; intros l H; cbn [filter map] in *; [inversion H; reflexivity|]. unfold long at 1 in H. destruct (zlen (values n) =? 1) eqn:E; cbn [negb] in *; [apply IH; exact H|]. inversion H as [|? a ? l' (i & u & _ & _ & AF) F]; subst. cbn [map]. rewrite (IH _ F). destruct AF as (_ & _ & -> & _). reflexivity.
  Qed.
  Lemma squeezed_app : forall a b, squeezed (a ++ b) = squeezed a ++ squeezed b.
  Proof. intros. unfold squeezed. apply filter_app. Qed.
  Definition fields_of (d : dataset) : list (pystr * (pystr * pystr) * pystr) :=
    let qu := split_descriptor (d_descriptor d) in
    match d_fields d with Some names => map (fun n => (n, split_descriptor n, fst qu)) names | None => [([], qu, [])] end.
  Theorem C104_signals : forall ignore d nd p s, fine ignore d nd p s ->
    exists l pa sa, signals_of slope ignore d = Ok l /\ axes_of (d_pos d) (d_pos_units d) (d_pos_values d) p pa /\ axes_of (d_spec d) (d_spec_units d) (d_spec_values d) s sa /\
      Forall2 (fun f g => s_uaxes g = pa ++ sa /\ s_shape g = map u_size (s_uaxes g) /\ s_quantity g = fst (snd (fst f)) /\ s_units g = snd (snd (fst f)) /\ s_type g = snd f /\ (forall i, s_at g i = n_at nd (fst (fst f)) (expand (n_shape nd) i))) (fields_of d) l.
  Proof.
    intros ignore d nd p s F. destruct F as [ND LB P S PD SD PU SU SH PR SR]. unfold signals_of.
    pose proof (combine_fst _ _ _ _ PU) as CP. pose proof (combine_fst _ _ _ _ SU) as CS.
    destruct (dim_dict_ok ignore (d_pos_values d) (combine (d_pos d) (d_pos_units d)) []) as (rp & EP & AP & BP); [rewrite CP; exact PD|rewrite CP; exact PR|].
    destruct (dim_dict_ok ignore (d_spec_values d) (combine (d_spec d) (d_spec_units d)) []) as (rs & ES & AS & BS); [rewrite CS; exact SD|rewrite CS; exact SR|].
    rewrite EP, ES. cbn [bind]. rewrite ND. rewrite LB. assert (K : List.length (d_pos d) = List.length p) by (symmetry; apply Permutation_length; exact P). rewrite K, firstn_app_at, skipn_app_at.
    assert (XP : axes_of (d_pos d) (d_pos_units d) (d_pos_values d) p (assemble rp p)).
    { unfold axes_of. eapply forall2_imp; [|apply (assemble_long (d_pos_values d) rp (combine (d_pos d) (d_pos_units d)) p); [rewrite CP; exact PD|exact AP|intros n L; rewrite BP by (intros _; exact L); reflexivity|intros n I; rewrite CP; eapply Permutation_in; eassumption]].
      intros n a (u & I & AF). destruct (in_combine_nth _ _ _ _ _ _ I) as (i & I1 & I2). exists i, u. split; [exact I1|]. split; [exact I2|exact AF]. }
    assert (XS : axes_of (d_spec d) (d_spec_units d) (d_spec_values d) s (assemble rs s)).
    { unfold axes_of. eapply forall2_imp; [|apply (assemble_long (d_spec_values d) rs (combine (d_spec d) (d_spec_units d)) s); [rewrite CS; exact SD|exact AS|intros n L; rewrite BS by (intros _; exact L); reflexivity|intros n I; rewrite CS; eapply Permutation_in; eassumption]].
      intros n a (u & I & AF). destruct (in_combine_nth _ _ _ _ _ _ I) as (i & I1 & I2). exists i, u. split; [exact I1|]. split; [exact I2|exact AF]. }
    eexists. exists (assemble rp p), (assemble rs s). split; [reflexivity|]. split; [exact XP|]. split; [exact XS|].
    assert (SQ : squeezed (n_shape nd) = map u_size (assemble rp p ++ assemble rs s)) by (rewrite SH, squeezed_app, map_app, (axes_sizes _ _ _ _ _ XP), (axes_sizes _ _ _ _ _ XS); reflexivity).
    unfold fields_of. destruct (d_fields d) as [names|].
    - induction names as [|n names IH]; [constructor|]. cbn [map]. constructor; [|exact IH]. cbn [s_uaxes s_shape s_quantity s_units s_type s_at fst snd]. repeat split; exact SQ.
    - constructor; [|constructor]. cbn [s_uaxes s_shape s_quantity s_units s_type s_at fst snd]. repeat split; exact SQ.
  Qed.
  (** Values that are not uniform are refused unless asked otherwise *)
  Theorem C104_uneven : forall d n u, List.length (d_pos_units d) = List.length (d_pos d) -> NoDup (d_pos d) -> In (n, u) (combine (d_pos d) (d_pos_units d)) -> zlen (d_pos_values d n) <> 1 -> slope (d_pos_values d n) = Err ValueError ->
    (forall m, In m (d_pos d) -> m <> n -> long (d_pos_values d) m = true -> readable false (d_pos_values d m)) -> signals_of slope false d = Err ValueError.
  Proof.
    intros d n u LU ND I L S R. unfold signals_of. assert (E : dim_dict slope false (d_pos_values d) (combine (d_pos d) (d_pos_units d)) [] = Err ValueError); [|rewrite E; reflexivity].
    rewrite <- (combine_fst _ _ _ _ LU) in ND, R. revert ND I R. generalize (@nil (pystr * uaxis)). generalize (combine (d_pos d) (d_pos_units d)). intro l. induction l as [|[m v] l IH]; intros acc ND I R; [destruct I|]. cbn [map fst] in ND, R. inversion ND as [|? ? N1 N2]; subst. cbn [dim_dict]. destruct I as [X|I].
    - injection X as -> ->. replace (zlen (d_pos_values d n) =? 1) with false by lia. unfold dim_axis. rewrite S. reflexivity.
    - assert (NE : m <> n) by (intros ->; apply N1; apply in_map_iff; exists (n, u); split; [reflexivity|exact I]). destruct (zlen (d_pos_values d m) =? 1) eqn:LM; [apply IH; [exact N2|exact I|intros k K; apply R; right; exact K]|].
      destruct (dim_axis_ok false m v (d_pos_values d m)) as (a & E & _); [apply R; [left; reflexivity|exact NE|unfold long; rewrite LM; reflexivity]|]. rewrite E. cbn [bind]. apply IH; [exact N2|exact I|intros k K; apply R; right; exact K].
  Qed.
  (** Attributes: those of the channel; those of the measurement around it are never read *)
  Theorem C104_channel : forall ignore d l, signals_of slope ignore d = Ok l -> NoDup (map fst (snd (d_group d))) ->
    (contains (str "Channel") (last_part (fst (d_group d))) = true -> Forall (fun g => s_parameters g = snd (d_group d)) l) /\ (contains (str "Channel") (last_part (fst (d_group d))) = false -> Forall (fun g => s_parameters g = []) l).
  Proof.
    intros ignore d l H N. unfold signals_of in H. apply bind_ok in H. destruct H as (rp & _ & H). apply bind_ok in H. destruct H as (rs & _ & H). destruct (d_nd d) as [nd|]; [|discriminate H].
    assert (P : Forall (fun g => s_parameters g = parameters d) l). { injection H as <-. destruct (d_fields d) as [names|]; [|repeat constructor]. apply Forall_forall. intros g G. apply in_map_iff in G. destruct G as (x & <- & _). reflexivity. }
    split; intro C; eapply Forall_impl; try exact P; intros g ->; unfold parameters; rewrite C; [|reflexivity]. destruct (contains (str "Measurement") _); [|reflexivity].
    assert (K : forall (l a : attrs), (forall k v, In (k, v) l -> lookup k a = Some v) -> fold_left (fun r kv => put (fst kv) (snd kv) r) l a = a).
    { intro l0. induction l0 as [|[k v] l0 IH]; intros a A; [reflexivity|]. cbn [fold_left fst snd].
      assert (PA : put k v a = a). { specialize (A k v (or_introl eq_refl)). clear - A. induction a as [|[k2 v2] a IH]; [discriminate A|]. cbn [lookup] in A. cbn [put]. destruct (eqb_str k k2) eqn:E; [apply eqb_str_spec in E; congruence|]. rewrite (IH A). reflexivity. }
      rewrite PA. apply (IH a). intros k0 v0 I. apply A. right. exact I. }
    apply K. intros k v I. clear - N I. induction (snd (d_group d)) as [|[k2 v2] a IH]; [destruct I|]. cbn [map fst] in N. inversion N as [|? ? N1 N2]; subst. cbn [lookup]. destruct I as [X|I]; [injection X as -> ->; rewrite eqb_str_refl; reflexivity|]. destruct (eqb_str k k2) eqn:E; [|exact (IH N2 I)]. apply eqb_str_spec in E. subst k2. destruct N1. apply in_map_iff. exists (k, v). split; [reflexivity|exact I].
  Qed.
  Definition with_outer (d : dataset) (o : pystr * attrs) : dataset := {| d_pos := d_pos d; d_pos_units := d_pos_units d; d_pos_values := d_pos_values d; d_spec := d_spec d; d_spec_units := d_spec_units d; d_spec_values := d_spec_values d; d_nd := d_nd d; d_descriptor := d_descriptor d; d_fields := d_fields d; d_path := d_path d; d_group := d_group d; d_outer := o |}.
  Theorem C104_measurement_refuted : forall ignore d o, signals_of slope ignore (with_outer d o) = signals_of slope ignore d.
  Proof. reflexivity. Qed.
  Theorem C104_title : forall ignore d l dir name, signals_of slope ignore d = Ok l -> d_path d = dir ++ 47 :: name -> ~ In 47 name -> Forall (fun g => s_title g = name /\ s_path g = d_path d) l.
  Proof.
    intros ignore d l dir name H P N. unfold signals_of in H. apply bind_ok in H. destruct H as (rp & _ & H). apply bind_ok in H. destruct H as (rs & _ & H). destruct (d_nd d) as [nd|]; [|discriminate H].
    assert (T : last_part (d_path d) = name). { rewrite P. unfold last_part. clear - N. induction dir as [|c dir IH]; cbn [app split_char]; [rewrite Z.eqb_refl, (split_char_nosep _ _ N); reflexivity|]. destruct (c =? 47); [|destruct (split_char 47 (dir ++ 47 :: name)) as [|w ws] eqn:E; [destruct (split_char_ne _ _ E)|]; destruct ws as [|w2 ws]; [|exact IH]].
      - destruct (split_char 47 (dir ++ 47 :: name)) eqn:E; [destruct (split_char_ne _ _ E)|]. exact IH.
      - exfalso. clear - E. revert w E. induction dir as [|x dir IH]; intros w E; cbn [app split_char] in E; [rewrite Z.eqb_refl in E; destruct (split_char 47 name) eqn:E2; [destruct (split_char_ne _ _ E2)|discriminate E]|]. destruct (x =? 47); [destruct (split_char 47 (dir ++ 47 :: name)) eqn:E2; [destruct (split_char_ne _ _ E2)|discriminate E]|]. destruct (split_char 47 (dir ++ 47 :: name)) as [|w1 [|w2 ws]] eqn:E2; [destruct (split_char_ne _ _ E2)|exact (IH _ eq_refl)|discriminate E]. }
    injection H as <-. destruct (d_fields d) as [names|]; [|repeat constructor; exact T]. apply Forall_forall. intros g G. apply in_map_iff in G. destruct G as (x & <- & _). split; [exact T|reflexivity].
  Qed.
  Theorem C104_file : forall ignore file ls, Forall2 (fun d l => signals_of slope ignore d = Ok l) file ls -> usid_reader slope ignore file None = Ok (List.concat ls).
  Proof.
    intros ignore file ls H. unfold usid_reader. assert (E : mapM (signals_of slope ignore) file = Ok ls); [|rewrite E; reflexivity]. induction H as [|d l file ls D H IH]; [reflexivity|]. cbn [mapM]. rewrite D. cbn [bind]. rewrite IH. reflexivity.
  Qed.
  Theorem C104_path : forall ignore a d b, ~ In (d_path d) (map d_path a) -> usid_reader slope ignore (a ++ d :: b) (Some (d_path d)) = signals_of slope ignore d.
  Proof.
    intros ignore a d b N. unfold usid_reader. induction a as [|x a IH]; cbn [app find]; [rewrite eqb_str_refl; reflexivity|]. destruct (eqb_str (d_path x) (d_path d)) eqn:E; [apply eqb_str_spec in E; destruct N; left; exact E|]. apply IH. intro I. apply N. right. exact I.
  Qed.
  Theorem C104_no_path : forall ignore file p, ~ In p (map d_path file) -> usid_reader slope ignore file (Some p) = Err KeyError.
  Proof.
    intros ignore file p N. unfold usid_reader. induction file as [|x a IH]; [reflexivity|]. cbn [find]. destruct (eqb_str (d_path x) p) eqn:E; [apply eqb_str_spec in E; destruct N; left; exact E|]. apply IH. intro I. apply N. right. exact I.
  Qed.
End Reading.
