(** Properties C70 and C71: data and axes of ser files. *)
From Coq Require Import QArith.
From Verif Require Import Base Text Bytes RowMajor SfsModel SfsProps BcfUnpack DmImage MibImage TiaModel TiaProps.
Local Open Scope Z_scope.

(** * Specification *)
Definition not_a_number (b : list Z) : Prop := 0x7FF0000000000000 < le_val b mod 2 ^ 63.
Definition same_float (a b : list Z) : Prop :=
  ~ not_a_number a /\ ~ not_a_number b /\ (le_val a = le_val b \/ (le_val a mod 2 ^ 63 = 0 /\ le_val b mod 2 ^ 63 = 0)).
(** The first two elements have the same y *)
Definition x_first (h : header) (es : list elem) : Prop :=
  has_positions h = true /\ exists a b r xa ya xb yb, es = a :: b :: r /\ e_pos a = Some (xa, ya) /\ e_pos b = Some (xb, yb) /\ same_float ya yb.
Definition is_spectrum (h : header) : bool := h_data_type h =? 0x4120.
Definition has_units (u : list Z) (d : dim) : bool := eqb_str (d_units d) u.
(** Sizes that are kept: those of images lose dimensions of size one *)
Definition keep (spectrum : bool) (ds : list dim) : list dim := if spectrum then ds else filter (fun d => negb (d_size d =? 1)) ds.
Definition scan (order : bool) (ds : list dim) : list dim := if order then rev ds else ds.
Definition missing (t : Z) : cell := if (t =? 7) || (t =? 8) then Nan else Zero.
(** Number [j] of element [n] *)
Definition number (es : list elem) (t n j : Z) : option cell :=
  match nth_error es (Z.to_nat n) with
  | Some e => match nth_error (e_items e) (Z.to_nat j) with Some b => Some (Raw b) | None => None end
  | None => Some (missing t)
  end.

(** * Lists *)
Definition cat_some {A} (l : list (option A)) : list A := flat_map (fun o => match o with Some n => [n] | None => [] end) l.
Lemma float_eq_spec : forall a b, float_eq a b = true <-> same_float a b.
Proof.
  intros a b. unfold float_eq, same_float, is_nan, not_a_number. change (2047 * 2 ^ 52) with 0x7FF0000000000000. cbv zeta.
  rewrite !andb_true_iff, !negb_true_iff, orb_true_iff, andb_true_iff, !Z.eqb_eq, !Z.ltb_ge, !Z.nlt_ge. tauto.
Qed.
Lemma f_order_spec : forall h es, f_order (h_tag_type h =? xy_tag) es = true <-> x_first h es.
Proof.
  intros h es. unfold x_first, has_positions. change 0x4142 with xy_tag. split.
  - intro H. destruct es as [|a [|b r]]; try discriminate. cbn [f_order] in H. apply andb_true_iff in H. destruct H as [H1 H2]. split; [exact H1|].
    destruct (e_pos a) as [[xa ya]|] eqn:Ea; [|discriminate]. destruct (e_pos b) as [[xb yb]|] eqn:Eb; [|discriminate]. exists a, b, r, xa, ya, xb, yb. apply float_eq_spec in H2. repeat (split; [first [reflexivity|assumption]|]). exact H2.
  - intros [H1 (a & b & r & xa & ya & xb & yb & -> & Ea & Eb & H2)]. cbn [f_order]. rewrite H1, Ea, Eb. apply float_eq_spec in H2. rewrite H2. reflexivity.
Qed.
Lemma cat_map_some : forall A (l : list A), cat_some (map Some l) = l.
Proof. induction l as [|x l IH]; [reflexivity|]. cbn. f_equal. exact IH. Qed.
(** * Axes of the dimensions *)
Definition trim (u : list Z) : option (list Z) := match u with [] => None | u => Some (rev (drop_zeros (rev u))) end.
Definition in_meters (d : dim) : bool := is_text (units_of d) (str "meters").
Definition axis_facts (a : axis) := (a_offset a, a_scale a, a_units a, a_size a, a_navigate a).
Definition dim_facts (fv : list Z -> Q) (d : dim) := (fv (d_offset d), fv (d_delta d), units_of d, d_size d, true).
Lemma nav_ok : forall fv spectrum order dims rest pre names, scan order dims = pre ++ rest ->
  (spectrum = true \/ order = false \/ Forall (fun d => d_size d <> 1) dims) -> countZ in_meters (keep spectrum rest) <= zlen names ->
  exists axes shape, nav_axes fv spectrum order dims (zlen dims) (zseq (zlen pre) (List.length rest)) names = Ok (axes, shape) /\
    cat_some shape = map d_size (keep spectrum rest) /\ map axis_facts axes = map (dim_facts fv) (keep spectrum rest) /\
    cat_some (map a_name axes) = firstn (Z.to_nat (countZ in_meters (keep spectrum rest))) (rev names) /\ List.length shape = List.length rest /\
    (spectrum = true -> shape = map Some (map d_size rest)).
Proof.
  intros fv spectrum order dims. induction rest as [|d rest IH]; intros pre names Hs Hc Hm.
  - exists [], []. cbn [List.length zseq nav_axes map cat_some flat_map]. unfold keep. destruct spectrum; cbn [filter map countZ]; cbn; repeat split; reflexivity.
  - assert (Hl : zlen (scan order dims) = zlen dims). { unfold scan. destruct order; unfold zlen; rewrite ?rev_length; reflexivity. }
    rewrite Hs, zlen_app, zlen_cons in Hl. pose proof (zlen_nonneg _ pre) as Hp. pose proof (zlen_nonneg _ rest) as Hr.
    assert (Nd : nth_error dims (Z.to_nat ((if order then zlen dims - zlen pre else zlen pre + 1) - 1)) = Some d).
    { assert (Ns : nth_error (scan order dims) (Z.to_nat (zlen pre)) = Some d). { rewrite Hs. rewrite nth_error_app2 by (unfold zlen; lia). replace (Z.to_nat (zlen pre) - List.length pre)%nat with 0%nat by (unfold zlen; lia). reflexivity. }
      unfold scan in Ns. destruct order.
      - rewrite nth_error_rev in Ns by (unfold zlen in *; lia). rewrite <- Ns. f_equal. unfold zlen in *. lia.
      - rewrite <- Ns. f_equal. lia. }
    destruct (nth_error dims (Z.to_nat (zlen pre))) as [di|] eqn:Ndi; [|exfalso; apply nth_error_None in Ndi; unfold zlen in *; lia].
    assert (Hk : (spectrum || negb (d_size di =? 1) = true /\ keep spectrum (d :: rest) = d :: keep spectrum rest) \/ (spectrum || negb (d_size di =? 1) = false /\ keep spectrum (d :: rest) = keep spectrum rest)).
    { destruct spectrum; [left; split; reflexivity|]. cbn [orb keep filter]. destruct Hc as [Hc|[Hc|Hc]]; [discriminate| |].
      - rewrite Hc in Nd. replace (zlen pre + 1 - 1) with (zlen pre) in Nd by lia. rewrite Ndi in Nd. assert (di = d) by congruence. subst di. destruct (negb (d_size d =? 1)); [left|right]; split; reflexivity.
      - rewrite Forall_forall in Hc. apply nth_error_In in Nd. apply nth_error_In in Ndi. apply Hc in Nd. apply Hc in Ndi. left. assert (E1 : negb (d_size di =? 1) = true) by lia. assert (E2 : negb (d_size d =? 1) = true) by lia. rewrite E1, E2. split; reflexivity. }
    cbn [List.length zseq nav_axes]. rewrite Ndi, Nd. assert (Hs' : scan order dims = (pre ++ [d]) ++ rest) by (rewrite <- app_assoc; exact Hs).
    assert (Ep : zlen (pre ++ [d]) = zlen pre + 1) by (rewrite zlen_app; reflexivity).
    destruct Hk as [[Hk1 Hk2]|[Hk1 Hk2]]; rewrite Hk1; rewrite Hk2 in Hm |- *.
    + cbn [countZ] in Hm |- *. fold (in_meters d). destruct (in_meters d) eqn:Em.
      * pose proof (countZ_nonneg _ in_meters (keep spectrum rest)) as Hn. unfold pop. destruct (rev names) as [|x r] eqn:Er; [exfalso; apply (f_equal (@List.length _)) in Er; rewrite rev_length in Er; cbn in Er; unfold zlen in Hm; lia|].
        cbn [bind]. assert (Lr : zlen (rev r) = zlen names - 1). { apply (f_equal (@List.length _)) in Er. rewrite rev_length in Er. cbn [List.length] in Er. unfold zlen. rewrite rev_length. lia. }
        destruct (IH (pre ++ [d]) (rev r) Hs' Hc ltac:(lia)) as (axes & shape & I1 & I2 & I3 & I4 & I5 & I6). rewrite Ep in I1. rewrite I1. cbn [bind].
        eexists _, _. split; [reflexivity|]. cbn [cat_some flat_map app map]. fold (cat_some shape). rewrite I2. split; [reflexivity|]. rewrite I3. split; [reflexivity|].
        split. { cbn [a_name cat_some flat_map app]. fold (cat_some (map a_name axes)). rewrite I4, rev_involutive. replace (Z.to_nat (1 + countZ in_meters (keep spectrum rest))) with (S (Z.to_nat (countZ in_meters (keep spectrum rest)))) by lia. reflexivity. }
        split; [cbn [List.length]; rewrite I5; reflexivity|]. intro Hsp. rewrite (I6 Hsp). reflexivity.
      * cbn [bind]. destruct (IH (pre ++ [d]) names Hs' Hc ltac:(lia)) as (axes & shape & I1 & I2 & I3 & I4 & I5 & I6). rewrite Ep in I1. rewrite I1. cbn [bind].
        eexists _, _. split; [reflexivity|]. cbn [cat_some flat_map app map]. fold (cat_some shape). rewrite I2. split; [reflexivity|]. rewrite I3. split; [reflexivity|].
        split. { cbn [a_name cat_some flat_map app]. fold (cat_some (map a_name axes)). rewrite I4. reflexivity. }
        split; [cbn [List.length]; rewrite I5; reflexivity|]. intro Hsp. rewrite (I6 Hsp). reflexivity.
    + destruct (IH (pre ++ [d]) names Hs' Hc Hm) as (axes & shape & I1 & I2 & I3 & I4 & I5 & I6). rewrite Ep in I1. rewrite I1. cbn [bind].
      eexists _, _. split; [reflexivity|]. cbn [cat_some flat_map app]. fold (cat_some shape). split; [exact I2|]. split; [exact I3|]. split; [exact I4|].
      split; [cbn [List.length]; rewrite I5; reflexivity|]. intro Hsp. subst spectrum. discriminate.
Qed.
(** * Numbers *)
Lemma flip_length : forall y x l, 0 < y -> 0 < x -> List.length l = (List.length l / Z.to_nat (y * x) * Z.to_nat (y * x))%nat -> List.length (flip y x l) = List.length l.
Proof.
  intros y x l Hy Hx Hl. unfold flip. set (s := Z.to_nat (y * x)) in *. set (N := (List.length l / s)%nat) in *. assert (Es : s = (Z.to_nat y * Z.to_nat x)%nat) by (unfold s; rewrite Z2Nat.inj_mul by lia; reflexivity).
  erewrite concat_length_const.
  - rewrite map_length, records_length. symmetry. exact Hl.
  - apply Forall_map. eapply Forall_impl; [|apply records_each; lia]. cbn beta. intros im Him. erewrite concat_length_const; [rewrite rev_length, records_length; symmetry; exact Es|].
    apply Forall_rev. apply records_each. lia.
Qed.
Lemma pixel_pos : forall n y x i j, 0 <= n -> 0 < x -> 0 <= i < y -> 0 <= j < x ->
  Z.to_nat ((n * y + i) * x + j) = (Z.to_nat n * (Z.to_nat y * Z.to_nat x) + (Z.to_nat i * Z.to_nat x + Z.to_nat j))%nat.
Proof. intros. nia. Qed.
Lemma flip_at : forall y x l n i j, 0 < y -> 0 < x -> 0 <= i < y -> 0 <= j < x -> 0 <= n -> zlen l = (zlen l / (y * x)) * (y * x) -> n < zlen l / (y * x) ->
  nth_error (flip y x l) (Z.to_nat ((n * y + i) * x + j)) = nth_error l (Z.to_nat ((n * y + (y - 1 - i)) * x + j)).
Proof.
  intros y x l n i j Hy Hx Hi Hj Hn Hl Hlt. unfold flip. set (s := Z.to_nat (y * x)) in *. assert (Es : s = (Z.to_nat y * Z.to_nat x)%nat) by (unfold s; rewrite Z2Nat.inj_mul by lia; reflexivity).
  assert (Ez : Z.of_nat s = y * x) by (unfold s; rewrite Z2Nat.id; [reflexivity|nia]). assert (EN : Z.of_nat (List.length l / s) = zlen l / (y * x)) by (rewrite Nat2Z.inj_div, Ez; reflexivity).
  set (N := (List.length l / s)%nat) in *. remember (zlen l / (y * x)) as q eqn:Eq. clear Eq. clearbody N s. unfold zlen in Hl. assert (Hfit : (N * s <= List.length l)%nat) by (clear - Hl EN Ez; nia).
  assert (Pos : Z.to_nat ((n * y + i) * x + j) = (Z.to_nat n * s + (Z.to_nat i * Z.to_nat x + Z.to_nat j))%nat) by (rewrite Es; rewrite pixel_pos by lia; repeat (f_equal; try lia)).
  assert (Pos2 : Z.to_nat ((n * y + (y - 1 - i)) * x + j) = (Z.to_nat n * s + ((Z.to_nat y - 1 - Z.to_nat i) * Z.to_nat x + Z.to_nat j))%nat) by (rewrite Es; rewrite pixel_pos by lia; repeat (f_equal; try lia)).
  rewrite Pos, Pos2. set (im := slice (Z.to_nat n * s) s l).
  assert (Hrec : nth_error (records N s l) (Z.to_nat n) = Some im) by (apply nth_records; lia).
  assert (Lim : List.length im = s) by (unfold im; apply slice_length; clear - Hlt Hn EN Hfit; nia).
  rewrite (nth_concat _ _ s (Z.to_nat n) _ (List.concat (rev (records (Z.to_nat y) (Z.to_nat x) im)))).
  - rewrite (nth_concat _ _ (Z.to_nat x) (Z.to_nat i) (Z.to_nat j) (slice ((Z.to_nat y - 1 - Z.to_nat i) * Z.to_nat x) (Z.to_nat x) im)).
    + rewrite nth_error_slice by lia. unfold im. rewrite nth_error_slice by (clear - Es Hi Hj; nia). reflexivity.
    + apply Forall_rev. apply records_each. lia.
    + rewrite nth_error_rev by (rewrite records_length; lia). rewrite records_length. apply nth_records. lia.
    + lia.
  - apply Forall_map. eapply Forall_impl; [|apply records_each; exact Hfit]. cbn beta. intros im' Him'. erewrite concat_length_const; [rewrite rev_length, records_length; symmetry; exact Es|]. apply Forall_rev. apply records_each. lia.
  - rewrite nth_error_map, Hrec. reflexivity.
  - clear - Es Hi Hj. nia.
Qed.
Lemma number_at : forall es t count fill n j, Forall (fun e => zlen (e_items e) = count) es -> 0 <= n -> 0 <= j < count ->
  n < zlen es + fill -> nth_error (List.concat (map (cells count) (map Some es)) ++ repeat (filling t) (Z.to_nat (fill * count))) (Z.to_nat (n * count + j)) = number es t n j.
Proof.
  intros es t count fill n j H Hn Hj Hlt.
  assert (Hc : Forall (fun r => List.length r = Z.to_nat count) (map (cells count) (map Some es))). { rewrite map_map. apply Forall_map. eapply Forall_impl; [|exact H]. cbn beta. intros e He. cbn [cells]. rewrite map_length. unfold zlen in He. lia. }
  assert (Lc : List.length (List.concat (map (cells count) (map Some es))) = (List.length es * Z.to_nat count)%nat) by (rewrite (concat_length_const _ _ _ Hc), !map_length; reflexivity).
  unfold number. destruct (nth_error es (Z.to_nat n)) as [e|] eqn:E.
  - assert (L : (Z.to_nat n < List.length es)%nat) by (apply nth_error_Some; congruence). rewrite nth_error_app1 by (rewrite Lc; nia).
    replace (Z.to_nat (n * count + j)) with (Z.to_nat n * Z.to_nat count + Z.to_nat j)%nat by nia.
    rewrite (nth_concat _ _ (Z.to_nat count) (Z.to_nat n) (Z.to_nat j) (cells count (Some e)) Hc) by (rewrite ?map_map, ?nth_error_map, ?E; reflexivity || lia).
    cbn [cells]. rewrite nth_error_map. destruct (nth_error (e_items e) (Z.to_nat j)); reflexivity.
  - apply nth_error_None in E. rewrite nth_error_app2 by (rewrite Lc; nia). rewrite Lc. unfold missing, filling.
    apply nth_error_repeat. unfold zlen in Hlt. nia.
Qed.

(** * Reading *)
Definition plain_units (d : dim) : Prop := d_units d = [] \/ last (d_units d) 1 <> 0.
Lemma units_plain : forall d, plain_units d -> units_of d = match d_units d with [] => None | u => Some u end.
Proof.
  intros d H. unfold units_of. destruct (d_units d) as [|a u] eqn:E; [reflexivity|]. f_equal. destruct H as [H|H]; [rewrite E in H; discriminate|]. rewrite E in H. clear E. destruct (exists_last (l := a :: u) ltac:(discriminate)) as [u' [z Eu]]. rewrite Eu in *.
  rewrite last_last in H. rewrite rev_app_distr. cbn [rev app]. assert (D : drop_zeros (z :: rev u') = z :: rev u') by (destruct z; [lia|reflexivity|reflexivity]). rewrite D. cbn [rev]. rewrite rev_involutive. reflexivity.
Qed.
Lemma meters_plain : forall d, plain_units d -> in_meters d = has_units (str "meters") d.
Proof. intros d H. unfold in_meters, has_units. rewrite units_plain by exact H. destruct (d_units d); reflexivity. Qed.
Lemma count_filter : forall A (f p : A -> bool) l, countZ f (filter p l) <= countZ f l.
Proof. induction l as [|x l IH]; [cbn; lia|]. cbn [filter countZ]. destruct (p x); cbn [countZ]; destruct (f x); lia. Qed.
Lemma count_rev : forall A (f : A -> bool) l, countZ f (rev l) = countZ f l.
Proof. induction l as [|x l IH]; [reflexivity|]. cbn [rev]. rewrite countZ_app, IH. cbn [countZ]. lia. Qed.
Lemma count_le : forall A (f : A -> bool) l, countZ f l <= zlen l.
Proof. induction l as [|x l IH]; [cbn; lia|]. rewrite zlen_cons. cbn [countZ]. destruct (f x); lia. Qed.
Lemma keep_prod : forall sp ds, prodZ (map d_size (keep sp ds)) = prodZ (map d_size ds).
Proof.
  intros sp ds. unfold keep. destruct sp; [reflexivity|]. induction ds as [|d ds IH]; [reflexivity|]. cbn [filter]. unfold prodZ in *. destruct (negb (d_size d =? 1)) eqn:E; cbn [map fold_right]; rewrite IH; [reflexivity|]. assert (H : d_size d = 1) by lia. rewrite H. lia.
Qed.
Lemma scan_prod : forall o ds, prodZ (map d_size (scan o ds)) = prodZ (map d_size ds).
Proof. intros o ds. unfold scan. destruct o; [rewrite map_rev; apply prodZ_rev|reflexivity]. Qed.
Definition signal_shape (sizes : list Z) : list Z := rev sizes.

Section Reading.
  Variables (fv : list Z -> Q) (units : list Z) (f : list Z) (h : header) (t size : Z) (sizes : list Z) (es : list elem) (order : bool).
  Hypothesis Hload : load f = Ok (h, t, map Some es).
  Hypothesis Hes : es <> [].
  Hypothesis Hv : h_valid h = zlen es.
  Hypothesis He : Forall (elem_ok (kinds h) (has_positions h) t size sizes) es.
  Hypothesis Hd : h_dims h <> [].
  Hypothesis Hu : Forall plain_units (h_dims h).
  Hypothesis Hm : countZ (has_units (str "meters")) (h_dims h) <= 2.
  Hypothesis Ho : order = true <-> x_first h es.
  Hypothesis Hone : is_spectrum h = true \/ order = false \/ Forall (fun d => d_size d <> 1) (h_dims h).
  Local Definition kept : list dim := keep (is_spectrum h) (scan order (h_dims h)).
  Local Definition nav : list Z := map d_size kept.

  Lemma order_f : f_order (h_tag_type h =? xy_tag) (flat_map (fun o : option elem => match o with Some e => [e] | None => [] end) (map Some es)) = order.
  Proof.
    fold (cat_some (map Some es)). rewrite cat_map_some. pose proof (f_order_spec h es) as H. destruct (f_order _ es), order; try reflexivity.
    - symmetry. apply Ho. apply H. reflexivity.
    - apply H. apply Ho. reflexivity.
  Qed.
  Lemma few_meters : countZ in_meters kept <= zlen (firstz (zlen (h_dims h)) [str "x"; str "y"]).
  Proof.
    assert (E : forall l, Forall plain_units l -> countZ in_meters l = countZ (has_units (str "meters")) l). { induction 1 as [|d l H _ IH]; [reflexivity|]. cbn [countZ]. rewrite IH, meters_plain by exact H. reflexivity. }
    assert (K : countZ in_meters kept <= countZ in_meters (h_dims h)).
    { unfold kept, keep, scan. destruct (is_spectrum h), order; rewrite ?count_rev; try lia; eapply Z.le_trans; try apply count_filter; rewrite ?count_rev; lia. }
    pose proof (count_le _ in_meters (h_dims h)) as C. rewrite (E _ Hu) in K, C. rewrite firstz_firstn. unfold zlen at 1. rewrite firstn_length. cbn [List.length]. unfold zlen in *. lia.
  Qed.
  Lemma nav_part : exists axes shape,
    nav_axes fv (h_data_type h =? spectrum_id) order (h_dims h) (zlen (h_dims h)) (zseq 0 (Z.to_nat (zlen (h_dims h)))) (firstz (zlen (h_dims h)) [str "x"; str "y"]) = Ok (axes, shape) /\
    cat_some shape = nav /\ map axis_facts axes = map (dim_facts fv) kept /\
    cat_some (map a_name axes) = firstn (Z.to_nat (countZ in_meters kept)) (rev (firstz (zlen (h_dims h)) [str "x"; str "y"])) /\ List.length shape = List.length (h_dims h).
  Proof.
    destruct (nav_ok fv (is_spectrum h) order (h_dims h) (scan order (h_dims h)) [] (firstz (zlen (h_dims h)) [str "x"; str "y"]) eq_refl Hone few_meters) as (axes & shape & A & B & C & D & E & _).
    exists axes, shape. assert (L : List.length (scan order (h_dims h)) = List.length (h_dims h)) by (unfold scan; destruct order; [apply rev_length|reflexivity]). rewrite L in A, E.
    split; [|repeat split; assumption]. unfold zlen at 2. rewrite Nat2Z.id. exact A.
  Qed.
  Lemma first_ok : exists e, first_elem (map Some es) = Ok e /\ In e es /\ hd_error es = Some e.
  Proof. destruct es as [|e r]; [congruence|]. exists e. split; [reflexivity|split; [left|]; reflexivity]. Qed.
  Lemma signal_ok : forall e, In e es -> exists sig, signal_axes fv units e = Ok sig /\ map a_size sig = signal_shape sizes.
  Proof.
    intros e Hi. rewrite Forall_forall in He. destruct (He e Hi) as (H1 & H2 & _ & _ & H5 & _). unfold signal_axes, signal_shape. rewrite H5. unfold kinds in *. destruct (h_data_type h =? 0x4120).
    - destruct (e_cal e) as [|[[o d] x] [|]]; try discriminate. destruct sizes as [|n [|]]; try discriminate. eexists. split; [reflexivity|reflexivity].
    - destruct (e_cal e) as [|[[o d] x] [|[[o' d'] x'] [|]]]; try discriminate. destruct sizes as [|n [|m [|]]]; try discriminate. eexists. split; [reflexivity|reflexivity].
  Qed.
  (** The axes when nothing is cut *)
  Lemma axes_full : forall only_valid, (zlen (h_dims h) <> 1 \/ only_valid = false \/ h_total h = h_valid h) ->
    exists naxes sig e, hd_error es = Some e /\ signal_axes fv units e = Ok sig /\ axes_of fv only_valid units h (map Some es) = Ok (map to_nm (naxes ++ sig), nav ++ signal_shape sizes) /\
      map axis_facts naxes = map (dim_facts fv) kept /\ zlen (naxes ++ sig) = zlen (nav ++ signal_shape sizes) /\
      cat_some (map a_name naxes) = firstn (Z.to_nat (countZ in_meters kept)) (rev (firstz (zlen (h_dims h)) [str "x"; str "y"])).
  Proof.
    intros only_valid Hc. destruct nav_part as (axes & shape & A & B & C & D & E). destruct first_ok as (e & F & Fi & Fh). destruct (signal_ok e Fi) as (sig & G & Gs).
    exists axes, sig, e. split; [exact Fh|]. split; [exact G|]. split; [|split; [exact C|split; [|exact D]]].
    - unfold axes_of. assert (E0 : (zlen (h_dims h) =? 0) = false). { destruct (h_dims h) as [|d ds]; [congruence|]. rewrite zlen_cons. pose proof (zlen_nonneg _ ds). lia. }
      rewrite E0, F. cbn [bind]. rewrite order_f, A. cbn [bind].
      assert (Ec : cut_series only_valid h (axes, shape) = Ok (axes, shape)).
      { unfold cut_series. destruct (h_dims h) as [|d [|]]; try reflexivity. destruct Hc as [Hc|[Hc|Hc]]; [cbn in Hc; lia|rewrite Hc, andb_false_r; reflexivity|rewrite Hc, Z.eqb_refl; reflexivity]. }
      rewrite Ec. cbn [bind]. rewrite G. cbn [bind]. rewrite Gs. fold (cat_some shape). rewrite B. reflexivity.
    - rewrite !zlen_app. unfold zlen. rewrite <- Gs, map_length. unfold nav. rewrite map_length. apply (f_equal (@List.length _)) in C. rewrite !map_length in C. rewrite C. reflexivity.
  Qed.
  Lemma data_full : forall only_valid image num_axes, (prodZ (map d_size (h_dims h)) = zlen es \/ ((zlen (h_dims h) <> 1 \/ only_valid = false) /\ zlen es <= prodZ (map d_size (h_dims h)))) ->
    num_axes = zlen (nav ++ signal_shape sizes) -> 
    let dc := List.concat (map (cells (prodZ sizes)) (map Some es)) ++ repeat (filling t) (Z.to_nat ((prodZ nav - zlen es) * prodZ sizes)) in
    zlen dc = prodZ nav * prodZ sizes /\
    load_data only_valid image h t (prodZ sizes) num_axes (nav ++ signal_shape sizes) (map Some es) =
    Ok (nav ++ signal_shape sizes, if image then match rev (nav ++ signal_shape sizes) with x :: y :: _ => flip y x dc | _ => dc end else dc).
  Proof.
    intros only_valid image num_axes Hf Hn. cbv zeta. assert (Hp : prodZ nav = prodZ (map d_size (h_dims h))) by (unfold nav, kept; rewrite keep_prod, scan_prod; reflexivity). rewrite <- Hp in Hf.
    assert (Hc : 0 <= prodZ sizes). { destruct es as [|e r]; [congruence|]. inversion He as [|? ? He1 _]; subst. destruct He1 as (_ & _ & _ & _ & _ & _ & H7 & _). rewrite <- H7. apply zlen_nonneg. }
    assert (Ld : zlen (List.concat (map (cells (prodZ sizes)) (map Some es))) = zlen es * prodZ sizes).
    { unfold zlen. erewrite concat_length_const with (n := Z.to_nat (prodZ sizes)); [rewrite !map_length; lia|]. rewrite map_map. apply Forall_map. eapply Forall_impl; [|exact He]. cbn beta. intros e (_ & _ & _ & _ & _ & _ & H7 & _). cbn [cells]. rewrite map_length. unfold zlen in H7. lia. }
    assert (Ps : prodZ (nav ++ signal_shape sizes) = prodZ nav * prodZ sizes) by (unfold signal_shape; rewrite prodZ_app, prodZ_rev; reflexivity).
    assert (Le : zlen es <= prodZ nav) by (destruct Hf as [Hf|[_ Hf]]; lia).
    split. { rewrite zlen_app, Ld. unfold zlen at 2. rewrite repeat_length. rewrite Z2Nat.id by nia. lia. }
    unfold load_data. rewrite Ps. assert (Lm : zlen (map (@Some elem) es) = zlen es) by (unfold zlen; rewrite map_length; reflexivity). rewrite Lm.
    set (data := List.concat (map (cells (prodZ sizes)) (map Some es))) in *.
    destruct (prodZ nav * prodZ sizes =? zlen es * prodZ sizes) eqn:Eq.
    - cbn [bind]. rewrite Ps, Ld, Eq. cbn [negb]. rewrite Hn, Z.eqb_refl, Z.eqb_refl. replace (Z.to_nat ((prodZ nav - zlen es) * prodZ sizes)) with 0%nat by lia. cbn [repeat]. rewrite app_nil_r. reflexivity.
    - assert (E1 : (zlen (h_dims h) =? 1) && only_valid = false). { destruct Hf as [Hf|[[Hf|Hf] _]]; [rewrite Hf, Z.eqb_refl in Eq; discriminate|apply andb_false_iff; left; lia|rewrite Hf; apply andb_false_r]. }
      rewrite E1. assert (E2 : (prodZ nav * prodZ sizes <? zlen data) = false) by (rewrite Ld; nia). rewrite E2. cbn [bind]. rewrite Ps.
      replace (prodZ nav * prodZ sizes - zlen data) with ((prodZ nav - zlen es) * prodZ sizes) by (rewrite Ld; lia).
      assert (E3 : (prodZ nav * prodZ sizes =? zlen (data ++ repeat (filling t) (Z.to_nat ((prodZ nav - zlen es) * prodZ sizes)))) = true).
      { rewrite zlen_app, Ld. unfold zlen at 2. rewrite repeat_length. rewrite Z2Nat.id by nia. lia. }
      rewrite E3. cbn [negb]. rewrite Hn, Z.eqb_refl, Z.eqb_refl. reflexivity.
  Qed.
End Reading.

(** A file as of C69, with plain units and at most two dimensions in meters; [order]: x varies first *)
Record readable (f : list Z) (h : header) (t size : Z) (sizes : list Z) (es : list elem) (order : bool) : Prop := {
  r_load : load f = Ok (h, t, map Some es); r_some : es <> []; r_valid : h_valid h = zlen es;
  r_elems : Forall (elem_ok (kinds h) (has_positions h) t size sizes) es;
  r_dims : h_dims h <> []; r_units : Forall plain_units (h_dims h); r_meters : countZ (has_units (str "meters")) (h_dims h) <= 2;
  r_order : order = true <-> x_first h es }.
(** All elements are there, or those of a map up to some element *)
Definition acquired (only_valid : bool) (h : header) : Prop :=
  (prodZ (map d_size (h_dims h)) = h_valid h /\ h_total h = h_valid h) \/
  ((zlen (h_dims h) <> 1 \/ only_valid = false) /\ h_valid h <= prodZ (map d_size (h_dims h))).
Lemma in_shape_pos : forall sh idx, in_shape sh idx -> 0 <= row_major sh idx < prodZ sh.
Proof. exact row_major_range. Qed.
Theorem C70_spectra : forall fv units only_valid f h t size n es order, readable f h t size [n] es order -> is_spectrum h = true -> acquired only_valid h ->
  let nav := map d_size (scan order (h_dims h)) in
  exists axes dc, read_ser fv only_valid units f = Ok (axes, nav ++ [n], dc) /\ zlen dc = prodZ nav * n /\
    forall idx c, in_shape nav idx -> 0 <= c < n -> nth_error dc (Z.to_nat (row_major (nav ++ [n]) (idx ++ [c]))) = number es t (row_major nav idx) c.
Proof.
  intros fv units only_valid f h t size n es order [R1 R2 R3 R4 R5 R6 R7 R8] Hs Ha. cbv zeta.
  assert (Ek : kept h order = scan order (h_dims h)) by (unfold kept; rewrite Hs; reflexivity). assert (En : nav h order = map d_size (scan order (h_dims h))) by (unfold nav; rewrite Ek; reflexivity). rewrite <- En.
  destruct (axes_full fv units f h t size [n] es order R1 R2 R3 R4 R5 R6 R7 R8 (or_introl Hs) only_valid) as (naxes & sig & e & A1 & A2 & A3 & A4 & A5 & A6).
  { destruct Ha as [[_ Ha]|[[Ha|Ha] _]]; auto. }
  destruct (data_full fv f h t size [n] es order R1 R2 R3 R4 R7 R8 only_valid false (zlen (map to_nm (naxes ++ sig)))) as [L D].
  { unfold acquired in Ha. rewrite R3 in Ha. destruct Ha as [[Ha _]|Ha]; [left; exact Ha|right; exact Ha]. }
  { rewrite <- A5. unfold zlen. rewrite map_length. reflexivity. }
  eexists _, _. split; [|split].
  - unfold read_ser. rewrite R1. cbn [bind]. rewrite A3. cbn [bind]. assert (FF : exists e0, first_elem (map Some es) = Ok e0 /\ In e0 es) by (destruct es as [|e0 r0]; [congruence|exists e0; split; [reflexivity|left; reflexivity]]). destruct FF as (e0 & F0 & Fi). rewrite F0. cbn [bind]. unfold is_spectrum in Hs. change spectrum_id with 0x4120. rewrite Hs. cbn [negb].
    rewrite Forall_forall in R4. destruct (R4 e0 Fi) as (_ & _ & _ & _ & H5 & _). rewrite H5. cbn [map]. rewrite D. cbn [bind]. reflexivity.
  - rewrite L. unfold prodZ. cbn. lia.
  - intros idx c Hi Hc. pose proof (in_shape_pos _ _ Hi) as Hr. rewrite row_major_app by (apply in_shape_length; exact Hi). replace (row_major [n] [c]) with c by (cbn; lia).
    apply (number_at es t (prodZ [n]) (prodZ (nav h order) - zlen es) (row_major (nav h order) idx) c); [|lia| |lia].
    + eapply Forall_impl; [|exact R4]. cbn beta. intros e' (_ & _ & _ & _ & _ & _ & H7 & _). exact H7.
    + unfold prodZ. cbn. lia.
Qed.
Theorem C70_images : forall fv units only_valid f h t size nx ny es order, readable f h t size [nx; ny] es order -> is_spectrum h = false -> acquired only_valid h ->
  order = false \/ Forall (fun d => d_size d <> 1) (h_dims h) ->
  let nav := map d_size (keep false (scan order (h_dims h))) in
  exists axes dc, read_ser fv only_valid units f = Ok (axes, nav ++ [ny; nx], dc) /\
    forall idx y x, in_shape nav idx -> 0 <= y < ny -> 0 <= x < nx ->
      nth_error dc (Z.to_nat (row_major (nav ++ [ny; nx]) (idx ++ [y; x]))) = number es t (row_major nav idx) ((ny - 1 - y) * nx + x).
Proof.
  intros fv units only_valid f h t size nx ny es order [R1 R2 R3 R4 R5 R6 R7 R8] Hs Ha Hone. cbv zeta.
  assert (Ek : kept h order = keep false (scan order (h_dims h))) by (unfold kept; rewrite Hs; reflexivity). assert (En : nav h order = map d_size (keep false (scan order (h_dims h)))) by (unfold nav; rewrite Ek; reflexivity). rewrite <- En.
  destruct (axes_full fv units f h t size [nx; ny] es order R1 R2 R3 R4 R5 R6 R7 R8 (or_intror Hone) only_valid) as (naxes & sig & e & A1 & A2 & A3 & A4 & A5 & A6).
  { destruct Ha as [[_ Ha]|[[Ha|Ha] _]]; auto. }
  destruct (data_full fv f h t size [nx; ny] es order R1 R2 R3 R4 R7 R8 only_valid true (zlen (map to_nm (naxes ++ sig)))) as [L D].
  { unfold acquired in Ha. rewrite R3 in Ha. destruct Ha as [[Ha _]|Ha]; [left; exact Ha|right; exact Ha]. }
  { rewrite <- A5. unfold zlen. rewrite map_length. reflexivity. }
  assert (Er : rev (nav h order ++ signal_shape [nx; ny]) = nx :: ny :: rev (nav h order)) by (rewrite rev_app_distr; reflexivity). rewrite Er in D.
  eexists _, _. split.
  - unfold read_ser. rewrite R1. cbn [bind]. rewrite A3. cbn [bind]. assert (FF : exists e0, first_elem (map Some es) = Ok e0 /\ In e0 es) by (destruct es as [|e0 r0]; [congruence|exists e0; split; [reflexivity|left; reflexivity]]). destruct FF as (e0 & F0 & Fi). rewrite F0. cbn [bind]. unfold is_spectrum in Hs. change spectrum_id with 0x4120. rewrite Hs. cbn [negb].
    rewrite Forall_forall in R4. destruct (R4 e0 Fi) as (_ & _ & _ & _ & H5 & _). rewrite H5. rewrite D. cbn [bind]. reflexivity.
  - intros idx y x Hi Hy Hx. pose proof (in_shape_pos _ _ Hi) as Hr. rewrite row_major_app by (apply in_shape_length; exact Hi).
    set (N := row_major (nav h order) idx) in *. replace (N * prodZ [ny; nx] + row_major [ny; nx] [y; x]) with ((N * ny + y) * nx + x) by (unfold prodZ; cbn; ring).
    assert (Pc : prodZ [nx; ny] = ny * nx) by (unfold prodZ; cbn; ring). pose proof (eq_trans L (f_equal (Z.mul (prodZ (nav h order))) Pc)) as L'.
    assert (Q : (prodZ (nav h order) * (ny * nx)) / (ny * nx) = prodZ (nav h order)) by (apply Z.div_mul; nia).
    rewrite flip_at; [|lia|lia|exact Hy|exact Hx|lia|rewrite L', Q; reflexivity|rewrite L', Q; lia].
    replace ((N * ny + (ny - 1 - y)) * nx + x) with (N * prodZ [nx; ny] + ((ny - 1 - y) * nx + x)) by (rewrite Pc; ring).
    apply (number_at es t (prodZ [nx; ny]) (prodZ (nav h order) - zlen es) N ((ny - 1 - y) * nx + x)); [|lia| |lia].
    + eapply Forall_impl; [|exact R4]. cbn beta. intros e' (_ & _ & _ & _ & _ & _ & H7 & _). exact H7.
    + rewrite Pc. clear - Hy Hx. nia.
Qed.
(** A series that was stopped is as long as what was acquired; one element alone has no navigation *)
Theorem C70_series : forall fv units f h t size sizes es order d, readable f h t size sizes es order -> h_dims h = [d] -> h_total h <> h_valid h ->
  is_spectrum h = true \/ d_size d <> 1 ->
  let nav := if h_valid h =? 1 then [] else [h_valid h] in
  exists axes dc, read_ser fv true units f = Ok (axes, nav ++ rev sizes, dc) /\
    (forall n, sizes = [n] -> forall idx c, in_shape nav idx -> 0 <= c < n -> nth_error dc (Z.to_nat (row_major (nav ++ [n]) (idx ++ [c]))) = number es t (row_major nav idx) c) /\
    (forall nx ny, sizes = [nx; ny] -> forall idx y x, in_shape nav idx -> 0 <= y < ny -> 0 <= x < nx ->
      nth_error dc (Z.to_nat (row_major (nav ++ [ny; nx]) (idx ++ [y; x]))) = number es t (row_major nav idx) ((ny - 1 - y) * nx + x)).
Proof.
  intros fv units f h t size sizes es order d [R1 R2 R3 R4 R5 R6 R7 R8] Hd Ht H1. cbv zeta. set (nv := if h_valid h =? 1 then [] else [h_valid h]).
  assert (Hone : is_spectrum h = true \/ order = false \/ Forall (fun d => d_size d <> 1) (h_dims h)) by (destruct H1 as [H1|H1]; [left; exact H1|right; right; rewrite Hd; constructor; [exact H1|constructor]]).
  assert (Ek : kept h order = [d]). { unfold kept. rewrite Hd. assert (Es : scan order [d] = [d]) by (destruct order; reflexivity). rewrite Es. unfold keep. destruct H1 as [H1|H1]; [rewrite H1; reflexivity|]. destruct (is_spectrum h); [reflexivity|]. cbn [filter]. assert (E : negb (d_size d =? 1) = true) by lia. rewrite E. reflexivity. }
  destruct (nav_ok fv (is_spectrum h) order (h_dims h) (scan order (h_dims h)) [] (firstz (zlen (h_dims h)) [str "x"; str "y"]) eq_refl Hone) as (axes & shape & A & B & C & D & E & _).
  { eapply few_meters; eassumption. }
  fold (kept h order) in B, C, D. rewrite Ek in B, C. assert (Ls : List.length (scan order (h_dims h)) = 1%nat) by (rewrite Hd; destruct order; reflexivity). rewrite Ls in A, E.
  destruct shape as [|s0 [|]]; try discriminate. destruct s0 as [s0|]; [|discriminate]. destruct axes as [|a [|]]; try discriminate. clear B E.
  assert (FF : exists e0, first_elem (map Some es) = Ok e0 /\ In e0 es) by (destruct es as [|e0 r0]; [congruence|exists e0; split; [reflexivity|left; reflexivity]]). destruct FF as (e0 & F0 & Fi).
  assert (SS : exists sig, signal_axes fv units e0 = Ok sig /\ map a_size sig = rev sizes) by (eapply signal_ok; eassumption). destruct SS as (sig & G & Gs).
  assert (AX : axes_of fv true units h (map Some es) = Ok (map to_nm ((if h_valid h =? 1 then [] else [set_size a (h_valid h)]) ++ sig), nv ++ rev sizes)).
  { unfold axes_of. rewrite Hd. change (zlen [d]) with 1. change (1 =? 0) with false. cbv iota. change (zseq 0 (Z.to_nat 1)) with [0]. rewrite F0. cbn [bind].
    assert (OO : f_order (h_tag_type h =? xy_tag) (flat_map (fun o : option elem => match o with Some e => [e] | None => [] end) (map Some es)) = order) by (eapply order_f; eassumption).
    rewrite OO. rewrite Hd in A. cbn [zseq] in A. change (zlen (@nil dim)) with 0 in A. unfold is_spectrum in A. change spectrum_id with 0x4120. change (zlen [d]) with 1 in A. rewrite A. cbn [bind].
    unfold cut_series. rewrite Hd. assert (Et : negb (h_total h =? h_valid h) && true = true) by lia. rewrite Et. unfold nv. destruct (h_valid h =? 1); cbn [bind fst snd tl]; rewrite G; cbn [bind]; rewrite Gs; reflexivity. }
  pose proof R4 as R4'. rewrite Forall_forall in R4'. destruct (R4' e0 Fi) as (K1 & K2 & _ & _ & H5 & _ & H7 & _).
  assert (Hc : 0 <= prodZ sizes) by (rewrite <- H7; apply zlen_nonneg).
  assert (Ld : zlen (List.concat (map (cells (prodZ sizes)) (map Some es))) = zlen es * prodZ sizes).
  { unfold zlen. erewrite concat_length_const with (n := Z.to_nat (prodZ sizes)); [rewrite !map_length; lia|]. rewrite map_map. apply Forall_map. eapply Forall_impl; [|exact R4]. cbn beta. intros e (_ & _ & _ & _ & _ & _ & H7' & _). cbn [cells]. rewrite map_length. unfold zlen in H7'. lia. }
  assert (Pn : prodZ nv = zlen es). { unfold nv. destruct (h_valid h =? 1) eqn:Ev; unfold prodZ; cbn [fold_right]; lia. }
  assert (Ps : prodZ (nv ++ rev sizes) = zlen es * prodZ sizes) by (rewrite prodZ_app, prodZ_rev, Pn; reflexivity).
  assert (Lm : zlen (map (@Some elem) es) = zlen es) by (unfold zlen; rewrite map_length; reflexivity).
  set (data := List.concat (map (cells (prodZ sizes)) (map Some es))) in *.
  assert (Ln : zlen (map to_nm ((if h_valid h =? 1 then [] else [set_size a (h_valid h)]) ++ sig)) = zlen (nv ++ rev sizes)).
  { unfold zlen. rewrite map_length, !app_length. rewrite <- Gs, map_length. unfold nv. destruct (h_valid h =? 1); reflexivity. }
  assert (RD : read_ser fv true units f = Ok (map to_nm ((if h_valid h =? 1 then [] else [set_size a (h_valid h)]) ++ sig), nv ++ rev sizes,
    if negb (is_spectrum h) then match rev (nv ++ rev sizes) with x :: y :: _ => flip y x data | _ => data end else data)).
  { unfold read_ser. rewrite R1. cbn [bind]. rewrite AX. cbn [bind]. rewrite F0. cbn [bind]. rewrite H5. unfold load_data. rewrite Ps, Lm, Z.eqb_refl. cbn [bind]. fold data. rewrite Ps, Ld, Z.eqb_refl. cbn [negb].
    rewrite Ln, Z.eqb_refl, Z.eqb_refl. cbn [bind]. reflexivity. }
  eexists _, _. split; [exact RD|]. clear H5.
  assert (NA : forall n j, 0 <= n < zlen es -> 0 <= j < prodZ sizes -> nth_error data (Z.to_nat (n * prodZ sizes + j)) = number es t n j).
  { intros n j Hn Hj. pose proof (number_at es t (prodZ sizes) 0 n j) as Q. rewrite Z.mul_0_l in Q. cbn [Z.to_nat repeat] in Q. rewrite app_nil_r in Q. apply Q; [|lia|exact Hj|lia].
    eapply Forall_impl; [|exact R4]. cbn beta. intros e' (_ & _ & _ & _ & _ & _ & H7' & _). exact H7'. }
  split.
  - intros n En idx c Hi Hcn. subst sizes. assert (Sp : is_spectrum h = true). { destruct (is_spectrum h) eqn:Z0; [reflexivity|]. unfold is_spectrum in Z0. unfold kinds in K2. rewrite Z0 in K2. discriminate K2. } rewrite Sp. cbn [negb].
    pose proof (in_shape_pos _ _ Hi) as Hr. rewrite Pn in Hr. rewrite row_major_app by (apply in_shape_length; exact Hi). replace (row_major [n] [c]) with c by (cbn; lia). apply NA; [exact Hr|]. unfold prodZ. cbn. lia.
  - intros nx ny En idx y x Hi Hy Hx. subst sizes. assert (Sp : is_spectrum h = false). { destruct (is_spectrum h) eqn:Z0; [|reflexivity]. unfold is_spectrum in Z0. unfold kinds in K2. rewrite Z0 in K2. discriminate K2. } rewrite Sp. cbn [negb].
    assert (Er : rev (nv ++ rev [nx; ny]) = nx :: ny :: rev nv) by (rewrite rev_app_distr; reflexivity). rewrite Er.
    pose proof (in_shape_pos _ _ Hi) as Hr. rewrite Pn in Hr. rewrite row_major_app by (apply in_shape_length; exact Hi). set (N := row_major nv idx) in *.
    assert (Pc : prodZ [nx; ny] = ny * nx) by (unfold prodZ; cbn; ring). replace (N * prodZ [ny; nx] + row_major [ny; nx] [y; x]) with ((N * ny + y) * nx + x) by (unfold prodZ; cbn; ring).
    pose proof (eq_trans Ld (f_equal (Z.mul (zlen es)) Pc)) as L'. assert (Q : (zlen es * (ny * nx)) / (ny * nx) = zlen es) by (apply Z.div_mul; nia).
    rewrite flip_at; [|lia|lia|exact Hy|exact Hx|lia|rewrite L', Q; reflexivity|rewrite L', Q; lia].
    replace ((N * ny + (ny - 1 - y)) * nx + x) with (N * prodZ [nx; ny] + ((ny - 1 - y) * nx + x)) by (rewrite Pc; ring). apply NA; [lia|]. rewrite Pc. clear - Hy Hx. nia.
Qed.

(** * Axes *)
(** The unit and the scale that are shown *)
Definition shown (units : option (list Z)) (scale : Q) : option (list Z) * Q :=
  match units with
  | Some u => if eqb_str u (str "meters") then (Some (str "nm"), (scale * inject_Z (10 ^ 9))%Q)
              else if eqb_str u (str "1/meters") then (Some (str "1 / nm"), (scale / inject_Z (10 ^ 9))%Q) else (units, scale)
  | None => (None, scale)
  end.
Definition axis_view (a : axis) := (a_offset a, (a_units a, a_scale a), a_size a, a_navigate a).
Definition view_of_dim (fv : list Z -> Q) (d : dim) := (fv (d_offset d), shown (match d_units d with [] => None | u => Some u end) (fv (d_delta d)), d_size d, true).
Lemma view_to_nm : forall a, axis_view (to_nm a) = (a_offset a, shown (a_units a) (a_scale a), a_size a, a_navigate a).
Proof.
  intro a. unfold to_nm, axis_view, shown, is_text. destruct (a_units a) as [u|] eqn:Eu; [|rewrite Eu; reflexivity]. destruct (eqb_str u (str "meters")); [reflexivity|]. destruct (eqb_str u (str "1/meters")); [reflexivity|]. rewrite Eu. reflexivity.
Qed.
Lemma name_to_nm : forall a, a_name (to_nm a) = a_name a.
Proof. intro a. unfold to_nm. destruct (is_text _ _); [reflexivity|]. destruct (is_text _ _); reflexivity. Qed.
Definition view_of_signal (fv : list Z -> Q) (units : list Z) (e : elem) : list (Q * (option (list Z) * Q) * Z * bool) :=
  match e_cal e, e_sizes e with
  | [(o, d, _)], [n] => [(fv o, (Some (str "eV"), fv d), n, false)]
  | [(ox, dx, ex); (oy, dy, ey)], [nx; ny] => [((fv oy - inject_Z ey * fv dy)%Q, shown (Some units) (fv dy), ny, false); ((fv ox - inject_Z ex * fv dx)%Q, shown (Some units) (fv dx), nx, false)]
  | _, _ => []
  end.
Theorem C71_axes : forall fv units only_valid f h t size sizes es order, readable f h t size sizes es order -> acquired only_valid h ->
  is_spectrum h = true \/ order = false \/ Forall (fun d => d_size d <> 1) (h_dims h) ->
  let kept := keep (is_spectrum h) (scan order (h_dims h)) in
  exists naxes saxes sh dc e, read_ser fv only_valid units f = Ok (naxes ++ saxes, sh, dc) /\ map a_size (naxes ++ saxes) = sh /\
    map axis_view naxes = map (view_of_dim fv) kept /\
    cat_some (map a_name naxes) = firstn (Z.to_nat (countZ (has_units (str "meters")) kept)) (if zlen (h_dims h) =? 1 then [str "x"] else [str "y"; str "x"]) /\
    hd_error es = Some e /\ map axis_view saxes = view_of_signal fv units e /\
    map a_name saxes = map Some (if is_spectrum h then [str "Energy"] else [str "y"; str "x"]).
Proof.
  intros fv units only_valid f h t size sizes es order [R1 R2 R3 R4 R5 R6 R7 R8] Ha Hone. cbv zeta.
  destruct (axes_full fv units f h t size sizes es order R1 R2 R3 R4 R5 R6 R7 R8 Hone only_valid) as (naxes & sig & e & A1 & A2 & A3 & A4 & A5 & A6).
  { destruct Ha as [[_ Ha]|[[Ha|Ha] _]]; auto. }
  assert (Hf : prodZ (map d_size (h_dims h)) = zlen es \/ ((zlen (h_dims h) <> 1 \/ only_valid = false) /\ zlen es <= prodZ (map d_size (h_dims h)))). { unfold acquired in Ha. rewrite R3 in Ha. destruct Ha as [[Ha _]|Ha]; [left; exact Ha|right; exact Ha]. }
  destruct (data_full fv f h t size sizes es order R1 R2 R3 R4 R7 R8 only_valid (negb (is_spectrum h)) (zlen (map to_nm (naxes ++ sig))) Hf) as [L D].
  { rewrite <- A5. unfold zlen. rewrite map_length. reflexivity. }
  assert (Hin : In e es) by (destruct es; [discriminate|]; left; cbn in A1; congruence). rewrite Forall_forall in R4. destruct (R4 e Hin) as (K1 & K2 & _ & _ & H5 & _).
  exists (map to_nm naxes), (map to_nm sig). eexists _, _, e. split; [|split; [|split; [|split; [|split; [exact A1|]]]]].
  - rewrite <- map_app. unfold read_ser. rewrite R1. cbn [bind]. rewrite A3. cbn [bind]. assert (F0 : first_elem (map Some es) = Ok e) by (destruct es; [discriminate|]; cbn in A1 |- *; congruence). rewrite F0. cbn [bind].
    unfold is_spectrum in D. change spectrum_id with 0x4120. rewrite H5, D. cbn [bind]. reflexivity.
  - rewrite <- map_app, map_map. assert (Es : map (fun x => a_size (to_nm x)) (naxes ++ sig) = map a_size (naxes ++ sig)). { apply map_ext. intro a. unfold to_nm. destruct (is_text _ _); [reflexivity|]. destruct (is_text _ _); reflexivity. }
    rewrite Es, map_app. f_equal.
    + apply (f_equal (map (fun x => snd (fst x)))) in A4. rewrite !map_map in A4. unfold nav. exact A4.
    + unfold signal_axes in A2. rewrite H5 in A2. destruct (e_cal e) as [|[[o d] x] [|[[o' d'] x'] [|]]]; try discriminate; destruct sizes as [|n [|m [|]]]; try discriminate; cbn in A2; assert (E : sig = _) by (symmetry; revert A2; generalize sig; intros s0 Hs0; apply (f_equal (fun r => match r with Ok x => x | Err _ => [] end)) in Hs0; exact Hs0); rewrite E; reflexivity.
  - rewrite map_map. rewrite (map_ext _ _ view_to_nm). apply (f_equal (map (fun x => let '(o, s, u, n, b) := x in (o, shown u s, n, b)))) in A4. rewrite !map_map in A4.
    etransitivity; [|etransitivity; [exact A4|]]; [reflexivity|]. apply map_ext_in. intros d Hd. unfold dim_facts, view_of_dim. rewrite units_plain; [reflexivity|]. rewrite Forall_forall in R6. apply R6.
    unfold kept, keep, scan in Hd. destruct (is_spectrum h); [|apply filter_In in Hd; destruct Hd as [Hd _]]; destruct order; try (apply in_rev; exact Hd); exact Hd.
  - rewrite map_map. rewrite (map_ext _ _ name_to_nm). rewrite A6. f_equal.
    + f_equal. fold (kept h order). assert (Hk : Forall plain_units (kept h order)). { apply Forall_forall. intros d Hd. rewrite Forall_forall in R6. apply R6. unfold kept, keep, scan in Hd. destruct (is_spectrum h); [|apply filter_In in Hd; destruct Hd as [Hd _]]; destruct order; try (apply in_rev; exact Hd); exact Hd. }
      clear - Hk. induction Hk as [|d l Hd _ IH]; [reflexivity|]. cbn [countZ]. rewrite IH, meters_plain by exact Hd. reflexivity.
    + destruct (h_dims h) as [|d1 [|d2 ds]]; [congruence|reflexivity|]. rewrite firstz_firstn. assert (E : (zlen (d1 :: d2 :: ds) =? 1) = false) by (rewrite !zlen_cons; pose proof (zlen_nonneg _ ds); lia). rewrite E.
      replace (Z.to_nat (zlen (d1 :: d2 :: ds))) with (S (S (List.length ds))) by (unfold zlen; cbn [List.length]; lia). cbn [firstn]. rewrite firstn_nil. reflexivity.
  - unfold signal_axes, view_of_signal in *. rewrite H5 in *. unfold is_spectrum, kinds in *. destruct (h_data_type h =? 0x4120) eqn:Ek.
    + destruct (e_cal e) as [|[[o d] x] [|]]; try discriminate. destruct sizes as [|n [|]]; try discriminate.
      assert (E : sig = [{| a_name := Some (str "Energy"); a_offset := fv o; a_scale := fv d; a_units := Some (str "eV"); a_size := n; a_navigate := false |}]) by congruence. rewrite E. split; reflexivity.
    + destruct (e_cal e) as [|[[o d] x] [|[[o' d'] x'] [|]]]; try discriminate. destruct sizes as [|n [|m [|]]]; try discriminate.
      assert (E : sig = [image_axis fv (str "y") units (o', d', x') m; image_axis fv (str "x") units (o, d, x) n]) by congruence. rewrite E. cbn [map]. rewrite !view_to_nm, !name_to_nm. split; reflexivity.
Qed.
Lemma view_meters : forall fv d, has_units (str "meters") d = true -> view_of_dim fv d = (fv (d_offset d), (Some (str "nm"), (fv (d_delta d) * inject_Z (10 ^ 9))%Q), d_size d, true).
Proof. intros fv d Hu. unfold has_units in Hu. apply eqb_str_spec in Hu. unfold view_of_dim. rewrite Hu. reflexivity. Qed.
(** A navigation axis in nm has its scale right, and its positions only if they start at zero *)
Definition position (v : Q * (option (list Z) * Q) * Z * bool) (i : Z) : Q := let '(o, (_, s), _, _) := v in (o + inject_Z i * s)%Q.
Theorem C71_position : forall fv d i, has_units (str "meters") d = true -> (fv (d_offset d) == 0)%Q ->
  (position (view_of_dim fv d) i == inject_Z (10 ^ 9) * (fv (d_offset d) + inject_Z i * fv (d_delta d)))%Q.
Proof.
  intros fv d i Hu H0. rewrite view_meters by exact Hu. unfold position. rewrite H0. ring.
Qed.
Theorem C71_offset_refuted : forall fv d, has_units (str "meters") d = true -> ~ (fv (d_offset d) == 0)%Q ->
  (position (view_of_dim fv d) 0 == fv (d_offset d))%Q /\ ~ (position (view_of_dim fv d) 0 == inject_Z (10 ^ 9) * (fv (d_offset d) + inject_Z 0 * fv (d_delta d)))%Q.
Proof.
  intros fv d Hu H0. rewrite view_meters by exact Hu. unfold position.
  assert (E : (fv (d_offset d) + inject_Z 0 * (fv (d_delta d) * inject_Z (10 ^ 9)) == fv (d_offset d))%Q) by (change (inject_Z 0) with 0%Q; ring). split; [exact E|]. rewrite E. intro K. apply H0.
  assert (K2 : (fv (d_offset d) * inject_Z (10 ^ 9 - 1) == 0)%Q). { setoid_replace (fv (d_offset d) * inject_Z (10 ^ 9 - 1))%Q with (inject_Z (10 ^ 9) * (fv (d_offset d) + inject_Z 0 * fv (d_delta d)) - fv (d_offset d))%Q by (change (inject_Z 0) with 0%Q; change (10 ^ 9 - 1) with 999999999; change (10 ^ 9) with 1000000000; ring). rewrite <- K. ring. }
  apply Qmult_integral in K2. destruct K2 as [K2|K2]; [exact K2|]. exfalso. vm_compute in K2. discriminate.
Qed.

(** * Examples *)
Definition zero8 : list Z := [0;0;0;0;0;0;0;0].
Definition one8 : list Z := [0;0;0;0;0;0;240;63].
Definition map_dim (n : Z) : dim := {| d_size := n; d_offset := zero8; d_delta := one8; d_element := 0; d_description := []; d_units := str "meters" |}.
Definition map_header (image : bool) (valid : Z) (dims : list dim) : header :=
  {| h_order := 0x4949; h_series := 0x197; h_version := 0x220; h_data_type := if image then 0x4122 else 0x4120; h_tag_type := 0x4142; h_total := prodZ (map d_size dims); h_valid := valid;
     h_table := 34 + 38 * zlen dims; h_dims := dims |}.
Definition map_elem (image : bool) (v : Z) (x y : list Z) : elem :=
  {| e_cal := if image then [(zero8, one8, 0); (zero8, one8, 0)] else [(zero8, one8, 0)]; e_type := 1; e_sizes := if image then [2; 2] else [2];
     e_items := if image then [[v]; [v + 1]; [v + 2]; [v + 3]] else [[v]; [v + 1]]; e_tag := 0x4142; e_unknown := 0; e_time := 0; e_pos := Some (x, y) |}.
Definition map_file (h : header) (es : list elem) : list Z :=
  let start := zlen (enc_header h) + 8 * (zlen es + 1) in
  let n := match es with e :: _ => zlen (enc_elem e) | [] => 0 end in
  enc_header h ++ encode_table 8 (map (fun i => start + n * i) (zseq 0 (List.length es)) ++ [0]) ++ List.concat (map enc_elem es).
Definition some_float (b : list Z) : Q := inject_Z (le_val b).
(** A map of two rows of three spectra, of which four were acquired *)
Definition ex_map : list elem := [map_elem false 10 zero8 zero8; map_elem false 20 one8 zero8; map_elem false 30 zero8 zero8; map_elem false 40 zero8 one8].
Definition data_of {A B C} (r : res (A * B * C)) : res (B * C) := match r with Ok (_, b, c) => Ok (b, c) | Err e => Err e end.
Example C70_example : data_of (read_ser some_float true (str "meters") (map_file (map_header false 4 [map_dim 3; map_dim 2]) ex_map)) =
  Ok ([2; 3; 2], [Raw [10]; Raw [11]; Raw [20]; Raw [21]; Raw [30]; Raw [31]; Raw [40]; Raw [41]; Zero; Zero; Zero; Zero]).
Proof. vm_compute. reflexivity. Qed.
Example C70_example_hyps : readable (map_file (map_header false 4 [map_dim 3; map_dim 2]) ex_map) (map_header false 4 [map_dim 3; map_dim 2]) 1 1 [2] ex_map true /\
  acquired true (map_header false 4 [map_dim 3; map_dim 2]).
Proof.
  assert (U : forall x, (0 <=? x) && (x <? 2 ^ 16) = true -> u16 x) by (intros; unfold u16; lia).
  assert (V : forall x, (0 <=? x) && (x <? 2 ^ 32) = true -> u32 x) by (intros; unfold u32; lia).
  split; [|right; split; [left; vm_compute; discriminate|vm_compute; discriminate]]. constructor.
  - vm_compute. reflexivity.
  - discriminate.
  - reflexivity.
  - repeat constructor; try (apply U; reflexivity); try (apply V; reflexivity).
  - discriminate.
  - constructor; [right; vm_compute; discriminate|constructor; [right; vm_compute; discriminate|constructor]].
  - vm_compute. discriminate.
  - split; [intros _|reflexivity]. split; [reflexivity|]. exists (map_elem false 10 zero8 zero8), (map_elem false 20 one8 zero8), [map_elem false 30 zero8 zero8; map_elem false 40 zero8 one8], zero8, zero8, one8, zero8.
    repeat split; try (vm_compute; discriminate). left. reflexivity.
Qed.
(** A row of images: y, the slow dimension, has one position *)
Theorem C70_row_refuted : read_ser some_float true (str "meters") (map_file (map_header true 2 [map_dim 2; map_dim 1]) [map_elem true 10 zero8 zero8; map_elem true 20 one8 zero8]) = Err ValueError.
Proof. vm_compute. reflexivity. Qed.
(** The same images with x as the only dimension *)
Example C70_images_example : data_of (read_ser some_float true (str "meters") (map_file (map_header true 2 [map_dim 2]) [map_elem true 10 zero8 zero8; map_elem true 20 one8 zero8])) =
  Ok ([2; 2; 2], [Raw [12]; Raw [13]; Raw [10]; Raw [11]; Raw [22]; Raw [23]; Raw [20]; Raw [21]]).
Proof. vm_compute. reflexivity. Qed.
Example C70_series_example : data_of (read_ser some_float true (str "meters") (map_file (map_header true 2 [map_dim 5]) [map_elem true 10 zero8 zero8; map_elem true 20 one8 zero8])) =
  Ok ([2; 2; 2], [Raw [12]; Raw [13]; Raw [10]; Raw [11]; Raw [22]; Raw [23]; Raw [20]; Raw [21]]).
Proof. vm_compute. reflexivity. Qed.
(** Files without dimensions are never read *)
Theorem C70_no_dimension_refuted : forall fv units only_valid f h t es, load f = Ok (h, t, es) -> h_dims h = [] -> read_ser fv only_valid units f = Err IndexError.
Proof. intros fv units only_valid f h t es H E. unfold read_ser. rewrite H. cbn [bind]. unfold axes_of. rewrite E. reflexivity. Qed.
Lemma ok_eq : forall A (a b : A), Ok a = Ok b -> a = b.
Proof. intros A a b H. congruence. Qed.
(** The sizes of the axes are the shape of the data; with one dimension the number of elements read replaces the first size *)
Lemma nav_axes_sizes : forall fv spectrum ord dims ndim todo names axes shape, nav_axes fv spectrum ord dims ndim todo names = Ok (axes, shape) ->
  map a_size axes = flat_map (fun o => match o with Some n => [n] | None => [] end) shape /\ List.length shape = List.length todo.
Proof.
  intros fv spectrum ord dims ndim. induction todo as [|i todo IH]; intros names axes shape H; cbn [nav_axes] in H; [apply ok_eq in H; assert (axes = [] /\ shape = []) as [-> ->] by (split; congruence); split; reflexivity|].
  destruct (nth_error dims (Z.to_nat i)) as [di|]; [|discriminate]. destruct (nth_error dims (Z.to_nat (_ - 1))) as [d|]; [|discriminate].
  destruct (spectrum || _).
  - destruct (if is_text (units_of d) (str "meters") then _ else _) as [[nm names']|]; [|discriminate]. cbn [bind] in H. destruct (nav_axes fv spectrum ord dims ndim todo names') as [[axes' shape']|] eqn:E; [|discriminate]. cbn [bind] in H. apply ok_eq in H.
    destruct (IH _ _ _ E) as [I1 I2]. inversion H; subst. cbn [map flat_map app a_size List.length]. rewrite I1, I2. split; reflexivity.
  - destruct (nav_axes fv spectrum ord dims ndim todo names) as [[axes' shape']|] eqn:E; [|discriminate]. cbn [bind] in H. apply ok_eq in H. destruct (IH _ _ _ E) as [I1 I2]. inversion H; subst. cbn [flat_map app List.length]. rewrite I1, I2. split; reflexivity.
Qed.
Lemma to_nm_size : forall a, a_size (to_nm a) = a_size a.
Proof. intro a. unfold to_nm. destruct (is_text _ _); [reflexivity|]. destruct (is_text _ _); reflexivity. Qed.
Lemma axes_of_sizes : forall fv only_valid units h es axes sh, axes_of fv only_valid units h es = Ok (axes, sh) -> map a_size axes = sh.
Proof.
  intros fv only_valid units h es axes sh H. unfold axes_of in H. destruct (zlen (h_dims h) =? 0); [discriminate|]. destruct (first_elem es) as [e|]; [|discriminate]. cbn [bind] in H.
  destruct (nav_axes _ _ _ _ _ _ _) as [[na ns]|] eqn:En; [|discriminate]. cbn [bind] in H. destruct (cut_series only_valid h (na, ns)) as [[ca cs]|] eqn:Ec; [|discriminate]. cbn [bind] in H.
  destruct (signal_axes fv units e) as [sa|]; [|discriminate]. cbn [bind] in H. apply ok_eq in H. inversion H; subst. rewrite map_map. rewrite (map_ext _ a_size) by apply to_nm_size. rewrite map_app. f_equal.
  apply nav_axes_sizes in En. destruct En as [E1 E2]. unfold cut_series in Ec. destruct (h_dims h) as [|d [|d' ds]] eqn:Ed; try (apply ok_eq in Ec; inversion Ec; subst; exact E1).
  destruct (negb _ && only_valid); [|apply ok_eq in Ec; inversion Ec; subst; exact E1]. destruct (h_valid h =? 1); [apply ok_eq in Ec; inversion Ec; reflexivity|]. cbn [fst snd] in Ec. destruct na as [|a na]; [discriminate|].
  cbn [zlen List.length] in E2. change (List.length ns = 1%nat) in E2. destruct ns as [|x [|y ns]]; try discriminate. cbn [flat_map map] in E1. destruct x as [n|]; [|discriminate]. cbn [app] in E1. destruct na as [|a' na]; [|discriminate]. apply ok_eq in Ec. inversion Ec; subst. reflexivity.
Qed.
Theorem C70_axes_shape : forall fv only_valid units f axes sh data, read_ser fv only_valid units f = Ok (axes, sh, data) -> zlen axes = zlen sh /\ tl (map a_size axes) = tl sh.
Proof.
  intros fv only_valid units f axes sh data H. unfold read_ser in H. destruct (load f) as [[[h t] es]|]; [|discriminate]. cbn [bind] in H. destruct (axes_of fv only_valid units h es) as [[ax s]|] eqn:Ea; [|discriminate]. cbn [bind] in H.
  destruct (first_elem es) as [e|]; [|discriminate]. cbn [bind] in H. apply axes_of_sizes in Ea. assert (L : zlen ax = zlen s) by (rewrite <- Ea; unfold zlen; rewrite map_length; reflexivity).
  destruct (load_data _ _ h t _ _ s es) as [[s' dc]|] eqn:El; [|discriminate]. cbn [bind] in H. apply ok_eq in H. inversion H; subst axes sh data. unfold load_data in El.
  destruct (if prodZ s =? _ then _ else _) as [[s1 d1]|] eqn:E1; [|discriminate]. cbn [bind] in El. assert (Hs : zlen s1 = zlen s /\ tl s1 = tl s).
  { destruct (prodZ s =? _); [apply ok_eq in E1; inversion E1; split; reflexivity|]. destruct (_ && only_valid); [apply ok_eq in E1; inversion E1; destruct s; split; reflexivity|]. destruct (prodZ s <? _); [discriminate|]. apply ok_eq in E1; inversion E1; split; reflexivity. }
  destruct Hs as [Hs1 Hs2]. destruct (negb (prodZ s1 =? zlen d1)); [discriminate|]. assert (Eq : zlen ax =? zlen s1 = true) by lia. rewrite Eq in El. rewrite Eq in El. apply ok_eq in El. inversion El; subst s'. split; [lia|]. rewrite Ea, Hs2. reflexivity.
Qed.
Print Assumptions C70_spectra.
Print Assumptions C70_images.
Print Assumptions C70_series.
Print Assumptions C70_axes_shape.
Print Assumptions C70_row_refuted.
Print Assumptions C70_no_dimension_refuted.
Print Assumptions C71_axes.
Print Assumptions C71_position.
Print Assumptions C71_offset_refuted.
