(** Properties C101-C103: images and MRCZ files. *)
From Coq Require Import QArith Qabs Qminmax.
From Verif Require Import Base Text HierModel HierProps DistModel RowMajor SfsModel ImgModel.
Local Open Scope Z_scope.

(** * C101: reading images *)
Definition inside (h w y x : Z) : Prop := 0 <= y < h /\ 0 <= x < w.
(** An image of h rows, w columns and c channels *)
Definition pixels (a : array) (h w c : Z) (at_ : Z -> Z -> Z -> Z) : Prop := a_shape a = [h; w; c] /\ 1 < h /\ 1 < w /\ forall y x k, a_at a [y; x; k] = at_ y x k.
Definition units_known : list (Z * option pystr) := [(1, None); (2, Some (str "inches")); (3, Some (str "cm")); (4, Some (str "mm")); (5, Some [181; 109])].

Lemma squeezed_id : forall s, Forall (fun n => n <> 1) s -> squeezed s = s.
Proof. intros s H. unfold squeezed. induction H as [|n s N H IH]; [reflexivity|]. cbn [filter]. replace (n =? 1) with false by lia. cbn [negb]. rewrite IH. reflexivity. Qed.
Lemma expand_id : forall s i, Forall (fun n => n <> 1) s -> List.length i = List.length s -> expand s i = i.
Proof. intros s i H. revert i. induction H as [|n s N H IH]; intros i L; destruct i as [|x i]; try discriminate L; [reflexivity|]. cbn [expand]. replace (n =? 1) with false by lia. rewrite IH; [reflexivity|]. cbn [List.length] in L. lia. Qed.
Theorem C101_grey : forall a h w, a_shape a = [h; w] -> h <> 1 -> w <> 1 -> exists d, read_data a = Ok d /\ d_type d = a_type a /\ d_colours d = None /\ d_shape d = [h; w] /\ forall y x, d_at d [y; x] = [a_at a [y; x]].
Proof.
  intros a h w S H W. assert (N : Forall (fun n => n <> 1) (a_shape a)) by (rewrite S; repeat constructor; assumption). unfold read_data, squeeze. cbn [a_shape]. rewrite (squeezed_id _ N), S. eexists. split; [reflexivity|]. repeat split. intros y x. cbn [plain d_at a_at]. rewrite S in N. rewrite (expand_id _ _ N) by reflexivity. reflexivity.
Qed.
Lemma squeeze_pixels : forall a h w c at_, pixels a h w c at_ -> 1 < c -> a_shape (squeeze a) = [h; w; c] /\ forall y x k, a_at (squeeze a) [y; x; k] = at_ y x k.
Proof.
  intros a h w c at_ (S & H & W & P) C. assert (N : Forall (fun n => n <> 1) (a_shape a)) by (rewrite S; repeat constructor; lia). unfold squeeze. cbn [a_shape a_at]. rewrite (squeezed_id _ N). split; [exact S|]. intros y x k. rewrite (expand_id _ _ N) by (rewrite S; reflexivity). apply P.
Qed.
Lemma box2 : forall h w i, In i (box_indices [h; w]) <-> exists y x, i = [y; x] /\ inside h w y x.
Proof.
  intros h w i. split.
  - intro H. apply in_box in H. inversion H as [|? y ? l Y H2]; subst. inversion H2 as [|? x ? l' X H3]; subst. inversion H3; subst. exists y, x. split; [reflexivity|]. split; assumption.
  - intros (y & x & -> & [Y X]). assert (I : in_shape [h; w] [y; x]) by (repeat constructor; lia). eapply nth_error_In. exact (box_nth _ _ I).
Qed.
Lemma read_pixels : forall a h w c at_, pixels a h w c at_ -> 3 <= c ->
  ((forall y x, inside h w y x -> at_ y x 1 = at_ y x 2) -> exists d, read_data a = Ok d /\ d_type d = a_type a /\ d_colours d = None /\ d_shape d = [h; w] /\ forall y x, d_at d [y; x] = [at_ y x 0]) /\
  (forall y x, inside h w y x -> at_ y x 1 <> at_ y x 2 -> read_data a = colours (squeeze a)).
Proof.
  intros a h w c at_ P C. destruct (squeeze_pixels _ _ _ _ _ P ltac:(lia)) as [S V]. unfold read_data. cbv zeta. rewrite S. replace (c <? 3) with false by lia. set (same := forallb _ _). split.
  - intro A. assert (E : same = true). { unfold same. apply forallb_forall. intros i I. apply box2 in I. destruct I as (y & x & -> & I). rewrite !V. apply Z.eqb_eq. apply A. exact I. }
    rewrite E. cbn [andb]. eexists. split; [reflexivity|]. repeat split. intros y x. cbn [d_at]. rewrite V. reflexivity.
  - intros y x I N. assert (E : same = false). { unfold same. apply not_true_iff_false. intro F. rewrite forallb_forall in F. specialize (F [y; x] (proj2 (box2 _ _ _) (ex_intro _ y (ex_intro _ x (conj eq_refl I))))). cbv beta iota in F. rewrite !V in F. lia. }
    rewrite E. reflexivity.
Qed.
(** All channels of an image in colours are kept when green and blue differ somewhere *)
Theorem C101_colour : forall a h w c at_ y x, pixels a h w c at_ -> c = 3 \/ c = 4 -> a_type a <> OtherType -> inside h w y x -> at_ y x 1 <> at_ y x 2 ->
  exists d, read_data a = Ok d /\ d_type d = a_type a /\ d_colours d = Some c /\ d_shape d = [h; w] /\ forall y x, List.length (d_at d [y; x]) = Z.to_nat c /\ forall k, 0 <= k < c -> nth_error (d_at d [y; x]) (Z.to_nat k) = Some (at_ y x k).
Proof.
  intros a h w c at_ y x P C T I N. destruct (squeeze_pixels _ _ _ _ _ P ltac:(lia)) as [S V]. destruct (read_pixels _ _ _ _ _ P ltac:(lia)) as [_ R]. rewrite (R y x I N). unfold colours. rewrite S. cbn [rev app]. replace ((c =? 3) || (c =? 4)) with true by lia. cbn [negb]. change (a_type (squeeze a)) with (a_type a).
  assert (K : forall d, d = {| d_type := a_type a; d_colours := Some c; d_shape := [h; w]; d_at := fun i => map (fun k => a_at (squeeze a) (i ++ [k])) (zseq 0 (Z.to_nat c)) |} -> d_type d = a_type a /\ d_colours d = Some c /\ d_shape d = [h; w] /\ forall y x, List.length (d_at d [y; x]) = Z.to_nat c /\ forall k, 0 <= k < c -> nth_error (d_at d [y; x]) (Z.to_nat k) = Some (at_ y x k)).
  { intros d ->. repeat split; cbn [d_at].
    - rewrite map_length. apply zseq_length.
    - intros k K. rewrite nth_error_map. rewrite nth_error_zseq by lia. cbn [option_map app]. rewrite V. do 2 f_equal. lia. }
  destruct (a_type a) eqn:TA; [eexists; split; [reflexivity|]; apply K; reflexivity|eexists; split; [reflexivity|]; apply K; reflexivity|congruence].
Qed.
(** A grey image stored with channels is read as its values *)
Theorem C101_grey_colours : forall a h w c at_, pixels a h w c at_ -> 3 <= c -> (forall y x, inside h w y x -> at_ y x 0 = at_ y x 1 /\ at_ y x 1 = at_ y x 2) ->
  exists d, read_data a = Ok d /\ d_colours d = None /\ d_shape d = [h; w] /\ forall y x k, inside h w y x -> 0 <= k < 3 -> d_at d [y; x] = [at_ y x k].
Proof.
  intros a h w c at_ P C G. destruct (read_pixels _ _ _ _ _ P C) as [R _]. destruct R as (d & E & _ & D1 & D2 & D3); [intros y x I; apply G; exact I|]. exists d. repeat split; try assumption. intros y x k I K. rewrite D3. destruct (G y x I) as [G1 G2]. f_equal. assert (k = 0 \/ k = 1 \/ k = 2) as [->|[->| ->]] by lia; congruence.
Qed.
(** Red is not compared: every image whose green and blue are the same loses its colours *)
Theorem C101_red_refuted : forall a h w c at_, pixels a h w c at_ -> 3 <= c -> (forall y x, inside h w y x -> at_ y x 1 = at_ y x 2) ->
  exists d, read_data a = Ok d /\ d_colours d = None /\ forall y x, d_at d [y; x] = [at_ y x 0].
Proof. intros a h w c at_ P C G. destruct (read_pixels _ _ _ _ _ P C) as [R _]. destruct (R G) as (d & E & _ & D1 & _ & D3). exists d. repeat split; assumption. Qed.
(** An image in colours of one row is read as numbers of as many rows as it has columns *)
Theorem C101_line_refuted : forall a w, a_shape a = [1; w; 3] -> w <> 1 -> exists d, read_data a = Ok d /\ d_colours d = None /\ d_shape d = [w; 3] /\ forall x k, d_at d [x; k] = [a_at a [0; x; k]].
Proof.
  intros a w S W. unfold read_data, squeeze. cbn [a_shape]. rewrite S. unfold squeezed. cbn [filter Z.eqb Pos.eqb negb]. replace (w =? 1) with false by lia. cbn [negb]. eexists. split; [reflexivity|]. repeat split. intros x k. cbn [plain d_at a_at expand Z.eqb Pos.eqb]. replace (w =? 1) with false by lia. reflexivity.
Qed.
Theorem C101_channels : forall a h w c at_ y x, pixels a h w c at_ -> 4 < c -> inside h w y x -> at_ y x 1 <> at_ y x 2 -> read_data a = Err ValueError.
Proof.
  intros a h w c at_ y x P C I N. destruct (squeeze_pixels _ _ _ _ _ P ltac:(lia)) as [S V]. destruct (read_pixels _ _ _ _ _ P ltac:(lia)) as [_ R]. rewrite (R y x I N). unfold colours. rewrite S. cbn [rev app]. replace ((c =? 3) || (c =? 4)) with false by lia. reflexivity.
Qed.
Theorem C101_depth : forall a h w c at_ y x, pixels a h w c at_ -> 3 <= c -> a_type a = OtherType -> inside h w y x -> at_ y x 1 <> at_ y x 2 -> read_data a = Err ValueError.
Proof.
  intros a h w c at_ y x P C T I N. destruct (squeeze_pixels _ _ _ _ _ P ltac:(lia)) as [S V]. destruct (read_pixels _ _ _ _ _ P ltac:(lia)) as [_ R]. rewrite (R y x I N). unfold colours. rewrite S. cbn [rev app]. change (a_type (squeeze a)) with (a_type a). rewrite T. destruct ((c =? 3) || (c =? 4)); reflexivity.
Qed.
(** Fields of view, origins and units of the tags, or pixels *)
Definition field (o : option Q) (n : Z) : Q := match o with Some q => q | None => inject_Z n end.
Theorem C101_axes : forall e h w more o1 o2 rest u, h <> 0 -> w <> 0 ->
  match e_origins e with Some l => l = o1 :: o2 :: rest | None => o1 = 0%Q /\ o2 = 0%Q end ->
  match e_unit e with Some n => In (n, u) units_known | None => u = None end ->
  exists y x, parse_axes (Some e) (h :: w :: more) = Ok [y; x] /\
    x_name y = str "y" /\ x_size y = h /\ x_units y = u /\ x_offset y = o2 /\ (x_scale y * inject_Z h == field (e_y e) h)%Q /\
    x_name x = str "x" /\ x_size x = w /\ x_units x = u /\ x_offset x = o1 /\ (x_scale x * inject_Z w == field (e_x e) w)%Q.
Proof.
  intros e h w more o1 o2 rest u H W O U. unfold parse_axes.
  assert (UN : unit_name (e_unit e) = Ok u). { destruct (e_unit e) as [n|]; [|subst; reflexivity]. unfold units_known in U. cbn [In] in U. destruct U as [E|[E|[E|[E|[E|[]]]]]]; injection E as <- <-; reflexivity. }
  rewrite UN. cbn [bind]. unfold make_axis. replace (h =? 0) with false by lia. replace (w =? 0) with false by lia. cbn [item nth_error bind].
  assert (OO : exists r, get (e_origins e) [0%Q; 0%Q] = o1 :: o2 :: r). { destruct (e_origins e) as [l|]; [subst; eexists; reflexivity|destruct O as [-> ->]; eexists; reflexivity]. } destruct OO as [r OO]. rewrite OO. cbn [item nth_error bind].
  eexists. eexists. split; [reflexivity|]. cbn [x_name x_size x_units x_offset x_scale].
  assert (D : forall q n, n <> 0 -> (q / inject_Z n * inject_Z n == q)%Q) by (intros q n N; field; intro X; unfold Qeq in X; cbn in X; lia).
  repeat split; (etransitivity; [apply D; assumption|]); [destruct (e_y e); reflexivity|destruct (e_x e); reflexivity].
Qed.
Theorem C101_no_tags : forall h w more, h <> 0 -> w <> 0 ->
  exists y x, parse_axes None (h :: w :: more) = Ok [y; x] /\ x_name y = str "y" /\ x_size y = h /\ x_units y = None /\ x_offset y = 0%Q /\ (x_scale y == 1)%Q /\ x_name x = str "x" /\ x_size x = w /\ x_units x = None /\ x_offset x = 0%Q /\ (x_scale x == 1)%Q.
Proof.
  intros h w more H W. unfold parse_axes. cbn [bind]. unfold make_axis. replace (h =? 0) with false by lia. replace (w =? 0) with false by lia. cbn [item nth_error bind]. eexists. eexists. split; [reflexivity|]. cbn [x_name x_size x_units x_offset x_scale].
  assert (D : forall n, n <> 0 -> (inject_Z n / inject_Z n == 1)%Q) by (intros n N; field; intro X; unfold Qeq in X; cbn in X; lia). repeat split; apply D; assumption.
Qed.
(** The axis of the rows has the index of the columns, and the other way round *)
Theorem C101_index_refuted : forall e h w more l, parse_axes e (h :: w :: more) = Ok l -> h <> w -> exists a, In a l /\ nth_error (h :: w :: more) (Z.to_nat (x_index a)) <> Some (x_size a).
Proof.
  intros e h w more l H N. unfold parse_axes in H. apply bind_ok in H. destruct H as ([[offsets fields] unit] & _ & H). apply bind_ok in H. destruct H as (y & Y & H). apply bind_ok in H. destruct H as (x & _ & H). injection H as <-. exists y. split; [left; reflexivity|]. unfold make_axis in Y. destruct (h =? 0); [discriminate Y|]. apply bind_ok in Y. destruct Y as (f & _ & Y). apply bind_ok in Y. destruct Y as (o & _ & Y). injection Y as <-. cbn [x_index x_size]. change (Z.to_nat (Z.of_nat 1)) with 1%nat. cbn [nth_error]. intro X. injection X as X. congruence.
Qed.
Theorem C101_unit_refused : forall e n h w more, e_unit e = Some n -> ~ (1 <= n <= 5) -> parse_axes (Some e) (h :: w :: more) = Err KeyError.
Proof. intros e n h w more E N. unfold parse_axes. rewrite E. unfold unit_name. replace (n =? 1) with false by lia. replace (n =? 2) with false by lia. replace (n =? 3) with false by lia. replace (n =? 4) with false by lia. replace (n =? 5) with false by lia. reflexivity. Qed.
(** A grey image of one row, or one column, is not read *)
Theorem C101_row_refuted : forall f w, a_shape (i_array f) = [1; w] \/ a_shape (i_array f) = [w; 1] -> image_reader f = Err IndexError.
Proof.
  intros f w S. unfold image_reader, read_data, squeeze. cbn [a_shape]. destruct S as [S|S]; rewrite S; unfold squeezed; cbn [filter Z.eqb Pos.eqb negb]; destruct (w =? 1); reflexivity.
Qed.
Theorem C101_file : forall f d l, read_data (i_array f) = Ok d -> parse_axes (i_exif f) (d_shape d) = Ok l -> image_reader f = Ok {| s_data := d; s_axes := l |}.
Proof. intros f d l D L. unfold image_reader. rewrite D. cbn [bind]. rewrite L. reflexivity. Qed.

(** * C102: writing images *)
Definition same_image (d e : data) (h w : Z) : Prop := d_type d = d_type e /\ d_colours d = d_colours e /\ d_shape d = d_shape e /\ forall y x, inside h w y x -> d_at d [y; x] = d_at e [y; x].
Section Writing.
  Variable pint : pystr -> res (pystr * bool).
  (** Without options the values are written as they are, and are read again *)
  Definition bare (scalebar : bool) (s : size) (k : option kwds) : Prop := scalebar = false /\ (s = NoSize \/ s = Width 0 \/ s = Sizes []) /\ (k = None \/ k = Some {| k_aspect := NoAspect; k_more := false |}).
  Lemma bare_direct : forall supported scalebar s k axes d, bare scalebar s k -> image_writer pint supported scalebar s k axes d = Ok (Direct (regular d)).
  Proof. intros supported scalebar s k axes d (-> & S & K). unfold image_writer. destruct S as [->|[->| ->]]; destruct K as [->| ->]; reflexivity. Qed.
  Theorem C102_grey : forall supported scalebar s k axes d h w, bare scalebar s k -> d_colours d = None -> d_shape d = [h; w] -> h <> 1 -> w <> 1 -> (forall y x, List.length (d_at d [y; x]) = 1%nat) ->
    exists a r, image_writer pint supported scalebar s k axes d = Ok (Direct a) /\ read_data a = Ok r /\ same_image r d h w.
  Proof.
    intros supported scalebar s k axes d h w B C S H W L. rewrite (bare_direct _ _ _ _ axes d B). exists (regular d).
    destruct (C101_grey (regular d) h w) as (r & R & T & RC & RS & RV); [unfold regular; cbn [a_shape]; rewrite C, S; reflexivity|exact H|exact W|]. exists r. split; [reflexivity|]. split; [exact R|]. split; [exact T|]. split; [congruence|]. split; [congruence|]. intros y x _. rewrite RV. unfold regular. cbn [a_at]. rewrite C. specialize (L y x). destruct (d_at d [y; x]) as [|v [|v' l]]; try discriminate L. reflexivity.
  Qed.
  Theorem C102_colour : forall supported scalebar s k axes d h w c y x, bare scalebar s k -> d_colours d = Some c -> c = 3 \/ c = 4 -> d_type d <> OtherType -> d_shape d = [h; w] -> 1 < h -> 1 < w ->
    (forall y x, List.length (d_at d [y; x]) = Z.to_nat c) -> inside h w y x -> nth 1 (d_at d [y; x]) 0 <> nth 2 (d_at d [y; x]) 0 ->
    exists a r, image_writer pint supported scalebar s k axes d = Ok (Direct a) /\ read_data a = Ok r /\ same_image r d h w.
  Proof.
    intros supported scalebar s k axes d h w c y x B C CC T S H W L I N. rewrite (bare_direct _ _ _ _ axes d B). exists (regular d).
    destruct (C101_colour (regular d) h w c (fun y x k => nth (Z.to_nat k) (d_at d [y; x]) 0) y x) as (r & R & RT & RC & RS & RV).
    - unfold pixels, regular. cbn [a_shape a_at]. rewrite C, S. cbn [app]. split; [reflexivity|]. split; [exact H|]. split; [exact W|]. intros y0 x0 k0. reflexivity.
    - exact CC.
    - exact T.
    - exact I.
    - exact N.
    - exists r. split; [reflexivity|]. split; [exact R|]. split; [exact RT|]. split; [congruence|]. split; [congruence|]. intros y0 x0 _. destruct (RV y0 x0) as [RL RN]. apply (nth_ext _ _ 0 0); [rewrite RL, L; reflexivity|]. intros n LN. rewrite RL in LN. specialize (RN (Z.of_nat n) ltac:(lia)). rewrite Nat2Z.id in RN. apply nth_error_nth with (d := 0) in RN. exact RN.
  Qed.
  (** A red image is read again as grey *)
  Theorem C102_red_refuted : forall supported scalebar s k axes d h w c, bare scalebar s k -> d_colours d = Some c -> c = 3 \/ c = 4 -> d_shape d = [h; w] -> 1 < h -> 1 < w ->
    (forall y x, inside h w y x -> nth 1 (d_at d [y; x]) 0 = nth 2 (d_at d [y; x]) 0) -> exists a r, image_writer pint supported scalebar s k axes d = Ok (Direct a) /\ read_data a = Ok r /\ d_colours r = None.
  Proof.
    intros supported scalebar s k axes d h w c B C CC S H W G. rewrite (bare_direct _ _ _ _ axes d B). exists (regular d).
    destruct (C101_red_refuted (regular d) h w c (fun y x k => nth (Z.to_nat k) (d_at d [y; x]) 0)) as (r & R & RC & _).
    - unfold pixels, regular. cbn [a_shape a_at]. rewrite C, S. cbn [app]. split; [reflexivity|]. split; [exact H|]. split; [exact W|]. intros y0 x0 k0. reflexivity.
    - lia.
    - exact G.
    - exists r. split; [reflexivity|]. split; assumption.
  Qed.
  (** The two axes of the image, rows first *)
  Definition image_axes (axes : list waxis) (a b : waxis) : Prop :=
    filter (fun a => negb (w_navigate a)) axes = [a; b] \/ (List.length (filter (fun a => negb (w_navigate a)) axes) <> 2%nat /\ filter w_navigate axes = [a; b]).
  Lemma two_axes_read : forall axes a b, image_axes axes a b -> two_axes axes = Ok (a, b).
  Proof. intros axes a b [E|[N E]]; unfold two_axes; [rewrite E; reflexivity|]. destruct (filter (fun a0 => negb (w_navigate a0)) axes) as [|p [|q [|r l]]]; try (rewrite E; reflexivity). destruct N. reflexivity. Qed.
  Definition aspect_of (k : option kwds) (q : Q) : Prop := (k = None /\ q = 1%Q) \/ exists k0, k = Some k0 /\ ((k_aspect k0 = NoAspect /\ q = 1%Q) \/ k_aspect k0 = Ratio q).
  Lemma ratio_read : forall k q, aspect_of k q -> ratio k = Ok q.
  Proof. intros k q [[-> ->]|(k0 & -> & [[E ->]|E])]; unfold ratio; [reflexivity|rewrite E; reflexivity|rewrite E; reflexivity]. Qed.
  (** Size of the figure: that of the image, or of the width, or as given *)
  Inductive wanted (d : data) (a b : waxis) (q : Q) : size -> Q -> Q -> Prop :=
  | wanted_image : wanted d a b q NoSize (inject_Z (w_size b)) (inject_Z (w_size a) * q)
  | wanted_width : forall w rows cols, d_shape d = [rows; cols] -> cols <> 0 -> wanted d a b q (Width w) w (w * q * inject_Z rows / inject_Z cols)
  | wanted_sizes : forall w h, wanted d a b q (Sizes [w; h]) w h.
  Definition compatible (a b : waxis) : Prop := w_units a = w_units b /\ (Qabs (Qabs (w_scale a) - Qabs (w_scale b)) <= (1 # 10) / inject_Z (w_size b) * Qmax (Qabs (w_scale a)) (Qabs (w_scale b)))%Q.
  Lemma qabs_spec : forall q, (qabs q == Qabs q)%Q.
  Proof. intro q. unfold qabs. destruct (Qle_bool 0 q) eqn:E; [apply Qle_bool_iff in E; rewrite Qabs_pos; [reflexivity|exact E]|]. rewrite Qabs_neg; [reflexivity|]. apply Qlt_le_weak, Qnot_le_lt. intro X. apply Qle_bool_iff in X. congruence. Qed.
  Lemma qmax_spec : forall a b, (qmax a b == Qmax a b)%Q.
  Proof. intros a b. unfold qmax. destruct (Qle_bool a b) eqn:L; symmetry; [apply Q.max_r; apply Qle_bool_iff; exact L|]. apply Q.max_l. apply Qlt_le_weak. apply Qnot_le_lt. intro X. apply Qle_bool_iff in X. congruence. Qed.
  Lemma qmax_comp : forall a b c d, (a == b)%Q -> (c == d)%Q -> (Qmax a c == Qmax b d)%Q.
  Proof. intros a b c d E F. rewrite E, F. reflexivity. Qed.
  Lemma check_bar_spec : forall a b, 0 < w_size b -> (check_bar a b = Ok tt <-> compatible a b) /\ (~ compatible a b -> check_bar a b = Err ValueError).
  Proof.
    intros a b S. unfold check_bar, compatible.
    assert (U : same_units (w_units a) (w_units b) = true <-> w_units a = w_units b). { unfold same_units. destruct (w_units a) as [s|], (w_units b) as [t|]; split; intro X; try discriminate X; try reflexivity; [apply eqb_str_spec in X; congruence|injection X as ->; apply eqb_str_refl]. }
    assert (POS : (0 <= (1 # 10) / inject_Z (w_size b) * Qmax (Qabs (w_scale a)) (Qabs (w_scale b)))%Q).
    { apply Qmult_le_0_compat; [apply Qle_shift_div_l; [unfold Qlt; cbn; lia|]; rewrite Qmult_0_l; discriminate|]. eapply Qle_trans; [apply Qabs_nonneg|apply Q.le_max_l]. }
    assert (C : isclose (qabs (w_scale a)) (qabs (w_scale b)) ((1 # 10) / inject_Z (w_size b)) = true <-> (Qabs (Qabs (w_scale a) - Qabs (w_scale b)) <= (1 # 10) / inject_Z (w_size b) * Qmax (Qabs (w_scale a)) (Qabs (w_scale b)))%Q).
    { assert (QA : forall q, (qabs (qabs q) == Qabs q)%Q) by (intro q; rewrite qabs_spec, qabs_spec; apply Qabs_pos; apply Qabs_nonneg).
      unfold isclose. rewrite orb_true_iff, Qeq_bool_iff, Qle_bool_iff. rewrite qmax_spec, (qabs_spec (qabs (w_scale a) - qabs (w_scale b))), (qmax_comp _ _ _ _ (QA (w_scale a)) (QA (w_scale b))), !qabs_spec. split; [|right; assumption]. intros [E|E]; [|exact E]. rewrite E. setoid_replace (Qabs (w_scale b) - Qabs (w_scale b))%Q with 0%Q by ring. rewrite E in POS. exact POS. }
    replace (w_size b =? 0) with false by lia. destruct (same_units (w_units a) (w_units b)) eqn:SU; cbn [negb].
    - destruct (isclose _ _ _) eqn:IC.
      + split; [split; [intros _; split; [apply U; reflexivity|apply C; reflexivity]|reflexivity]|]. intro N. destruct N. split; [apply U; reflexivity|apply C; reflexivity].
      + split; [split; [discriminate|intros [_ X]; apply C in X; discriminate X]|reflexivity].
    - split; [split; [discriminate|intros [X _]; apply U in X; discriminate X]|reflexivity].
  Qed.
  Definition bar_of (a : waxis) (b : bar) : Prop :=
    b_scale b = w_scale a /\ match w_units a with
                            | None => b_units b = str "px" /\ b_dimension b = Some (str "pixel-length")
                            | Some u => exists s r, pint u = Ok (s, r) /\ b_units b = s /\ b_dimension b = (if r : bool then Some (str "si-length-reciprocal") else None)
                            end.
  Lemma figure_read : forall s k d a b q w h, aspect_of k q -> wanted d a b q s w h -> exists w' h', figure_size s k (a_shape (regular d)) a b = Ok (w', h') /\ (w' == w)%Q /\ (h' == h)%Q.
  Proof.
    intros s k d a b q w h A W. pose proof (ratio_read _ _ A) as R. destruct W as [|w rows cols S N|w h]; cbn [figure_size].
    - rewrite R. cbn [bind]. eexists. eexists. split; [reflexivity|]. split; [ring|reflexivity].
    - unfold regular. cbn [a_shape]. rewrite S. cbn [app]. replace (cols =? 0) with false by lia. rewrite R. cbn [bind]. eexists. eexists. split; [reflexivity|]. split; [reflexivity|]. field. intro X. unfold Qeq in X. cbn in X. lia.
    - eexists. eexists. split; [reflexivity|]. split; reflexivity.
  Qed.
  Theorem C102_size : forall s k axes d a b q w h, given s = true \/ some_kwds k = true -> image_axes axes a b -> aspect_of k q -> wanted d a b q s w h ->
    exists w' h', image_writer pint true false s k axes d = Ok (Figure w' h' None) /\ (w' == w)%Q /\ (h' == h)%Q.
  Proof.
    intros s k axes d a b q w h G X A W. destruct (figure_read _ _ _ _ _ _ _ _ A W) as (w' & h' & F & E1 & E2). exists w', h'. split; [|split; assumption]. unfold image_writer. replace (false || given s || some_kwds k) with true by (destruct G as [G|G]; rewrite G; destruct (given s), (some_kwds k); reflexivity). rewrite (two_axes_read _ _ _ X). cbn [bind fst snd]. rewrite F. reflexivity.
  Qed.
  Theorem C102_scalebar : forall s k axes d a b q w h br, image_axes axes a b -> aspect_of k q -> wanted d a b q s w h -> 0 < w_size b ->
    (compatible a b -> bar_of a br -> exists w' h', image_writer pint true true s k axes d = Ok (Figure w' h' (Some br)) /\ (w' == w)%Q /\ (h' == h)%Q) /\
    (~ compatible a b -> image_writer pint true true s k axes d = Err ValueError).
  Proof.
    intros s k axes d a b q w h br X A W S. destruct (figure_read _ _ _ _ _ _ _ _ A W) as (w' & h' & F & E1 & E2). destruct (check_bar_spec a b S) as [C1 C2]. unfold image_writer. cbn [orb]. rewrite (two_axes_read _ _ _ X). cbn [bind fst snd]. rewrite F. cbn [bind negb]. split.
    - intros C (BS & BU). apply C1 in C. rewrite C. cbn [bind]. exists w', h'. split; [|split; assumption]. destruct br as [bs bu bd]. cbn [b_scale b_units b_dimension] in *. unfold make_bar. destruct (w_units a) as [u|].
      + destruct BU as (s0 & r & P & -> & ->). rewrite P. cbn [bind fst snd]. rewrite BS. reflexivity.
      + destruct BU as [-> ->]. cbn [bind fst snd]. rewrite BS. reflexivity.
    - intro C. rewrite (C2 C). reflexivity.
  Qed.
  (** Refused: three axes or one, another number of sizes, and formats that cannot be drawn *)
  Theorem C102_refused : forall supported scalebar s k axes d, scalebar = true \/ given s = true \/ some_kwds k = true ->
    (List.length (filter (fun a => negb (w_navigate a)) axes) <> 2%nat -> List.length (filter w_navigate axes) <> 2%nat -> image_writer pint supported scalebar s k axes d = Err OtherError) /\
    (forall l a b, image_axes axes a b -> s = Sizes l -> List.length l <> 2%nat -> image_writer pint supported scalebar s k axes d = Err ValueError) /\
    (forall a b q w h, image_axes axes a b -> aspect_of k q -> wanted d a b q s w h -> image_writer pint false scalebar s k axes d = Err ValueError).
  Proof.
    intros supported scalebar s k axes d G. unfold image_writer. replace (scalebar || given s || some_kwds k) with true by (destruct G as [G|[G|G]]; rewrite G; rewrite ?orb_true_r; reflexivity). split; [|split].
    - intros N1 N2. unfold two_axes. destruct (filter (fun a => negb (w_navigate a)) axes) as [|p [|q [|r l]]]; try (destruct N1; reflexivity); (destruct (filter w_navigate axes) as [|p' [|q' [|r' l']]]; try (destruct N2; reflexivity); reflexivity).
    - intros l a b X -> L. rewrite (two_axes_read _ _ _ X). cbn [bind fst snd figure_size]. destruct l as [|x [|y [|z l]]]; try reflexivity. destruct L. reflexivity.
    - intros a b q w h X A W. rewrite (two_axes_read _ _ _ X). cbn [bind fst snd]. destruct (figure_read _ _ _ _ _ _ _ _ A W) as (w' & h' & F & _). rewrite F. reflexivity.
  Qed.
  (** The aspects "equal" and "auto" of matplotlib fail *)
  Theorem C102_aspect_refuted : forall supported scalebar k k0 axes d a b, k = Some k0 -> k_aspect k0 = Word -> image_axes axes a b -> image_writer pint supported scalebar NoSize k axes d = Err TypeError.
  Proof.
    intros supported scalebar k k0 axes d a b -> K X. unfold image_writer. replace (scalebar || given NoSize || some_kwds (Some k0)) with true by (cbn [some_kwds]; rewrite K; destruct scalebar, (k_more k0); reflexivity). rewrite (two_axes_read _ _ _ X). cbn [bind fst snd figure_size]. unfold ratio. rewrite K. reflexivity.
  Qed.
End Writing.

(** * C103: MRCZ files *)
Definition not_popped (kv : pystr * entry) : bool := negb (existsb (fun k => eqb_str k (fst kv)) pop_from_header).
Lemma pop_all_some : forall A ks (d : list (pystr * A)), NoDup ks -> (forall k, In k ks -> lookup k d <> None) -> pop_all ks d = Ok (filter (fun kv => negb (existsb (fun k => eqb_str k (fst kv)) ks)) d).
Proof.
  intros A ks. induction ks as [|k ks IH]; intros d N H; cbn [pop_all].
  - cbn [existsb negb]. f_equal. clear H. induction d as [|kv d IH]; [reflexivity|]. cbn [filter]. rewrite <- IH. reflexivity.
  - inversion N as [|? ? N1 N2]; subst. unfold pop at 1. destruct (lookup k d) eqn:L; [|destruct (H k (or_introl eq_refl) L)]. cbn [bind]. rewrite IH; [|exact N2|].
    + f_equal. clear - d. induction d as [|kv d IH]; [reflexivity|]. cbn [filter existsb]. destruct (eqb_str k (fst kv)); cbn [negb orb filter]; [exact IH|]. destruct (existsb _ ks); cbn [negb]; rewrite IH; reflexivity.
    + intros k' I. assert (NE : k' <> k) by (intro X; subst; contradiction). specialize (H k' (or_intror I)). clear - H NE. induction d as [|[k2 v] d IH]; [exact H|]. cbn [filter fst]. cbn [lookup] in H. destruct (eqb_str k k2) eqn:E; cbn [negb].
      * apply eqb_str_spec in E. subst k2. apply IH. apply eqb_str_neq in NE. rewrite NE in H. exact H.
      * cbn [lookup]. destruct (eqb_str k' k2); [exact H|apply IH; exact H].
Qed.
Lemma pop_all_none : forall A ks (d : list (pystr * A)) k, In k ks -> lookup k d = None -> pop_all ks d = Err KeyError.
Proof.
  intros A ks. induction ks as [|k0 ks IH]; intros d k I L; [destruct I|]. cbn [pop_all]. unfold pop at 1. destruct (lookup k0 d) eqn:L0; [|reflexivity]. cbn [bind]. destruct I as [->|I]; [congruence|]. apply (IH _ k I). clear - L. induction d as [|[k2 v] d IH]; [reflexivity|]. cbn [filter fst]. cbn [lookup] in L. destruct (eqb_str k k2) eqn:E; [discriminate L|]. destruct (eqb_str k0 k2); cbn [negb lookup]; [|rewrite E]; apply IH; exact L.
Qed.
Lemma popped_nodup : NoDup pop_from_header.
Proof. repeat constructor; intro H; vm_compute in H; repeat (destruct H as [H|H]; [discriminate H|]); exact H. Qed.
Definition axis_made (f : mrcz) (name : string) (i n : Z) (s : Q) (nav : bool) : maxis := {| y_size := n; y_index := i; y_name := str name; y_scale := s; y_offset := 0; y_units := m_pixelunits f; y_navigate := nav |}.
Lemma reader_three : forall f nz ny nx sz sy sx, m_shape f = [nz; ny; nx] -> m_pixelsize f = [sz; sy; sx] ->
  mrcz_reader (str "c") f = let! m := pop_all pop_from_header (m_header f) in Ok {| n_axes := [axis_made f "z" 0 nz sz true; axis_made f "y" 1 ny sy false; axis_made f "x" 2 nx sx false]; n_metadata := m; n_original := m_header f |}.
Proof. intros f nz ny nx sz sy sx S P. unfold mrcz_reader. rewrite eqb_str_refl. unfold mrcz_axis. cbn [negb read_order combine mapM]. rewrite S, P. reflexivity. Qed.
Definition axis_is (a : maxis) (name : string) (index size : Z) (scale : Q) (units : option pystr) (nav : bool) : Prop := y_name a = str name /\ y_index a = index /\ y_size a = size /\ y_scale a = scale /\ y_units a = units /\ y_offset a = 0%Q /\ y_navigate a = nav.
Theorem C103_read : forall f nz ny nx sz sy sx, m_shape f = [nz; ny; nx] -> m_pixelsize f = [sz; sy; sx] -> (forall k, In k pop_from_header -> exists v, lookup k (m_header f) = Some v) ->
  exists s z y x, mrcz_reader (str "c") f = Ok s /\ n_axes s = [z; y; x] /\ axis_is z "z" 0 nz sz (m_pixelunits f) true /\ axis_is y "y" 1 ny sy (m_pixelunits f) false /\ axis_is x "x" 2 nx sx (m_pixelunits f) false /\
    n_original s = m_header f /\ n_metadata s = filter not_popped (m_header f).
Proof.
  intros f nz ny nx sz sy sx S P H. unfold mrcz_reader. rewrite eqb_str_refl. cbn [negb]. unfold read_order. cbn [combine mapM]. unfold mrcz_axis. rewrite S, P. cbn [Z.to_nat Pos.to_nat Pos.iter_op Nat.add item nth_error bind].
  unfold item. cbn [Z.to_nat Pos.to_nat Pos.iter_op Nat.add nth_error bind].
  rewrite (pop_all_some _ _ _ popped_nodup); [|intros k I; destruct (H k I) as [v E]; rewrite E; discriminate]. cbn [bind].
  eexists. eexists. eexists. eexists. split; [reflexivity|]. cbn [n_axes n_original n_metadata]. split; [reflexivity|]. unfold axis_is. cbn. repeat split.
Qed.
Theorem C103_missing : forall f nz ny nx sz sy sx k, m_shape f = [nz; ny; nx] -> m_pixelsize f = [sz; sy; sx] -> In k pop_from_header -> lookup k (m_header f) = None -> mrcz_reader (str "c") f = Err KeyError.
Proof.
  intros f nz ny nx sz sy sx k S P I L. unfold mrcz_reader. rewrite eqb_str_refl. cbn [negb]. unfold read_order. cbn [combine mapM]. unfold mrcz_axis. rewrite S, P. unfold item. cbn [Z.to_nat Pos.to_nat Pos.iter_op Nat.add nth_error bind]. rewrite (pop_all_none _ _ _ k I L). reflexivity.
Qed.
Theorem C103_mode : forall f mode, mode <> str "c" -> mrcz_reader mode f = Err ValueError.
Proof. intros f mode N. unfold mrcz_reader. apply eqb_str_neq in N. rewrite N. reflexivity. Qed.
(** A file with fewer than three dimensions is not read *)
Theorem C103_flat : forall f, (List.length (m_shape f) < 3)%nat -> List.length (m_pixelsize f) = 3%nat -> mrcz_reader (str "c") f = Err IndexError.
Proof.
  intros f L P. unfold mrcz_reader. rewrite eqb_str_refl. cbn [negb]. unfold read_order. cbn [combine mapM]. unfold mrcz_axis, item. destruct (m_pixelsize f) as [|p [|q [|r [|r' l]]]]; try discriminate P. destruct (m_shape f) as [|a [|b [|c l]]]; cbn [List.length] in L; try lia; reflexivity.
Qed.
(** Writing a stack: its scales and the units of its last axis are those read again *)
Theorem C103_write : forall z y x md, exists c, mrcz_writer [z; y; x] md = Ok c /\ c_pixelsize c = [y_scale z; y_scale y; y_scale x] /\ c_pixelunits c = y_units x /\ c_voltage c = lookup (str "Acquisition_instrument.TEM.beam_energy") md /\
    (lookup (str "Signal.Noise_properties.Variance_linear_model.gain_factor") md = None -> c_gain c = Number 1) /\ (forall g, lookup (str "Signal.Noise_properties.Variance_linear_model.gain_factor") md = Some g -> c_gain c = g).
Proof.
  intros z y x md. unfold mrcz_writer. cbn [rev app write_order mapM item nth_error bind]. eexists. split; [reflexivity|]. cbn [c_pixelsize c_pixelunits c_voltage c_gain]. unfold at_path. repeat split; [intros ->|intros g ->]; reflexivity.
Qed.
Theorem C103_roundtrip : forall z y x md c f s, mrcz_writer [z; y; x] md = Ok c -> m_shape f = [y_size z; y_size y; y_size x] -> m_pixelsize f = c_pixelsize c -> m_pixelunits f = c_pixelunits c -> mrcz_reader (str "c") f = Ok s ->
  y_units z = y_units x -> y_units y = y_units x -> map y_size (n_axes s) = map y_size [z; y; x] /\ map y_scale (n_axes s) = map y_scale [z; y; x] /\ map y_units (n_axes s) = map y_units [z; y; x].
Proof.
  intros z y x md c f s W S P U R UZ UY. destruct (C103_write z y x md) as (c' & W' & P' & U' & _). assert (c' = c) by congruence. subst c'. rewrite P' in P. rewrite U' in U.
  rewrite (reader_three _ _ _ _ _ _ _ S P) in R. apply bind_ok in R. destruct R as (m & _ & R). injection R as <-. unfold axis_made. cbn [n_axes map y_size y_scale y_units]. rewrite U. rewrite UZ, UY. repeat split; reflexivity.
Qed.
(** Offsets and the units of the first two axes are lost *)
Theorem C103_lost_refuted : forall z y x md c f s, mrcz_writer [z; y; x] md = Ok c -> m_shape f = [y_size z; y_size y; y_size x] -> m_pixelsize f = c_pixelsize c -> m_pixelunits f = c_pixelunits c -> mrcz_reader (str "c") f = Ok s ->
  forall a, In a (n_axes s) -> y_offset a = 0%Q /\ y_units a = y_units x.
Proof.
  intros z y x md c f s W S P U R a I. destruct (C103_write z y x md) as (c' & W' & P' & U' & _). assert (c' = c) by congruence. subst c'. rewrite P' in P. rewrite U' in U.
  rewrite (reader_three _ _ _ _ _ _ _ S P) in R. apply bind_ok in R. destruct R as (m & _ & R). injection R as <-. cbn [n_axes In] in I. destruct I as [<-|[<-|[<-|[]]]]; split; try reflexivity; exact U.
Qed.
(** Signals of one or two axes are not written *)
Theorem C103_short_refuted : forall axes md, (List.length axes < 3)%nat -> mrcz_writer axes md = Err IndexError.
Proof. intros axes md L. destruct axes as [|a [|b [|c l]]]; cbn [List.length] in L; try lia; reflexivity. Qed.

(** * Examples *)
Definition red (y x k : Z) : Z := if k =? 0 then 200 + y else 7.
Definition colourful (y x k : Z) : Z := 10 * y + 3 * x + k.
Definition picture (at_ : Z -> Z -> Z -> Z) : array := {| a_type := U8; a_shape := [2; 3; 3]; a_at := fun i => match i with [y; x; k] => at_ y x k | _ => 0 end |}.
Example picture_pixels : forall at_, pixels (picture at_) 2 3 3 at_.
Proof. intro at_. split; [reflexivity|]. split; [lia|]. split; [lia|]. reflexivity. Qed.
Example red_same : (forall y x, inside 2 3 y x -> red y x 1 = red y x 2) /\ red 1 1 0 <> red 1 1 1. Proof. split; [reflexivity|discriminate]. Qed.
Example picture_read : exists d, read_data (picture colourful) = Ok d /\ d_colours d = Some 3 /\ map (d_at d) (box_indices [2; 3]) = [[0; 1; 2]; [3; 4; 5]; [6; 7; 8]; [10; 11; 12]; [13; 14; 15]; [16; 17; 18]].
Proof. eexists. split; [vm_compute; reflexivity|]. split; reflexivity. Qed.
Example red_read : exists d, read_data (picture red) = Ok d /\ d_colours d = None /\ map (d_at d) (box_indices [2; 3]) = [[200]; [200]; [200]; [201]; [201]; [201]].
Proof. eexists. split; [vm_compute; reflexivity|]. split; reflexivity. Qed.
Definition tags : exif := {| e_origins := Some [1; 2]%Q; e_x := Some 30%Q; e_y := None; e_unit := Some 5 |}.
Example tags_axes : exists y x, parse_axes (Some tags) [2; 3] = Ok [y; x] /\ x_offset y = 2%Q /\ (x_scale x == 10)%Q /\ x_units x = Some [181; 109].
Proof. eexists. eexists. split; [vm_compute; reflexivity|]. repeat split. Qed.
Definition rows_axis : waxis := {| w_size := 2; w_scale := 5 # 10; w_units := Some (str "nm"); w_navigate := false |}.
Definition cols_axis : waxis := {| w_size := 3; w_scale := 51 # 100; w_units := Some (str "nm"); w_navigate := false |}.
Definition pint_nm (u : pystr) : res (pystr * bool) := Ok (u, false).
Definition shown : data := {| d_type := U8; d_colours := Some 3; d_shape := [2; 3]; d_at := fun i => match i with [y; x] => [colourful y x 0; colourful y x 1; colourful y x 2] | _ => [0; 0; 0] end |}.
Example axes_image : image_axes [rows_axis; cols_axis] rows_axis cols_axis /\ compatible rows_axis cols_axis /\ ~ compatible rows_axis {| w_size := 3; w_scale := 1; w_units := Some (str "nm"); w_navigate := false |}.
Proof. split; [left; reflexivity|]. split; [split; [reflexivity|]; vm_compute; discriminate|]. intros [_ H]. vm_compute in H. apply H. reflexivity. Qed.
Example shown_bar : exists w h, image_writer pint_nm true true (Width 600) None [rows_axis; cols_axis] shown = Ok (Figure w h (Some {| b_scale := 5 # 10; b_units := str "nm"; b_dimension := None |})) /\ (w == 600)%Q /\ (h == 400)%Q.
Proof. eexists. eexists. split; [vm_compute; reflexivity|]. split; reflexivity. Qed.
Example shown_bare : bare false NoSize None /\ (forall y x, List.length (d_at shown [y; x]) = 3%nat) /\ nth 1 (d_at shown [0; 0]) 0 <> nth 2 (d_at shown [0; 0]) 0.
Proof. split; [repeat split; left; reflexivity|]. split; [reflexivity|discriminate]. Qed.
Definition stack_file : mrcz := {| m_shape := [4; 5; 6]; m_pixelsize := [1; 2; 3]%Q; m_pixelunits := Some (str "nm"); m_header := map (fun k => (k, Other 1)) pop_from_header ++ [(str "operator", Other 9)] |}.
Example stack_popped : forall k, In k pop_from_header -> exists v, lookup k (m_header stack_file) = Some v.
Proof. intros k H. vm_compute in H. repeat (destruct H as [<-|H]; [eexists; vm_compute; reflexivity|]). destruct H. Qed.
Example stack_read : exists s, mrcz_reader (str "c") stack_file = Ok s /\ n_metadata s = [(str "operator", Other 9)] /\ map y_size (n_axes s) = [4; 5; 6].
Proof. eexists. split; [vm_compute; reflexivity|]. split; reflexivity. Qed.
Definition stack_axis (n : Z) (s : Q) (u : string) : maxis := {| y_size := n; y_index := 0; y_name := str "a"; y_scale := s; y_offset := 7; y_units := Some (str u); y_navigate := false |}.
Example stack_written : exists c, mrcz_writer [stack_axis 4 1 "nm"; stack_axis 5 2 "nm"; stack_axis 6 3 "nm"] [] = Ok c /\ m_pixelsize stack_file = c_pixelsize c /\ m_pixelunits stack_file = c_pixelunits c.
Proof. eexists. split; [vm_compute; reflexivity|]. split; reflexivity. Qed.

Print Assumptions C101_grey.
Print Assumptions C101_colour.
Print Assumptions C101_grey_colours.
Print Assumptions C101_red_refuted.
Print Assumptions C101_line_refuted.
Print Assumptions C101_channels.
Print Assumptions C101_depth.
Print Assumptions C101_axes.
Print Assumptions C101_no_tags.
Print Assumptions C101_index_refuted.
Print Assumptions C101_unit_refused.
Print Assumptions C101_row_refuted.
Print Assumptions C101_file.
Print Assumptions C102_grey.
Print Assumptions C102_colour.
Print Assumptions C102_red_refuted.
Print Assumptions C102_size.
Print Assumptions C102_scalebar.
Print Assumptions C102_refused.
Print Assumptions C102_aspect_refuted.
Print Assumptions C103_read.
Print Assumptions C103_missing.
Print Assumptions C103_mode.
Print Assumptions C103_flat.
Print Assumptions C103_write.
Print Assumptions C103_roundtrip.
Print Assumptions C103_lost_refuted.
Print Assumptions C103_short_refuted.
