(** Property C69: ser files of TIA. *)
From Coq Require Import QArith.
From Verif Require Import Base Text Bytes RowMajor SfsModel SfsProps BcfUnpack TiaModel.
Local Open Scope Z_scope.

(** * Specification: the ser format *)
(** The bytes [bs] are at position [p] of the file *)
Definition stored (f : list Z) (p : Z) (bs : list Z) : Prop := exists a b, f = a ++ bs ++ b /\ zlen a = p.
Definition offset_bytes (version : Z) : nat := if version <=? 0x210 then 4 else 8.
Definition enc_dim (d : dim) : list Z :=
  le 4 (d_size d) ++ d_offset d ++ d_delta d ++ le 4 (d_element d) ++ le 4 (zlen (d_description d)) ++ d_description d ++ le 4 (zlen (d_units d)) ++ d_units d.
Definition enc_header (h : header) : list Z :=
  le 2 (h_order h) ++ le 2 (h_series h) ++ le 2 (h_version h) ++ le 4 (h_data_type h) ++ le 4 (h_tag_type h) ++ le 4 (h_total h) ++ le 4 (h_valid h) ++
  le (offset_bytes (h_version h)) (h_table h) ++ le 4 (zlen (h_dims h)) ++ List.concat (map enc_dim (h_dims h)).
Definition enc_cal (c : calibration) : list Z := let '(o, d, e) := c in o ++ d ++ le 4 e.
Definition enc_pos (p : option (list Z * list Z)) : list Z := match p with Some (x, y) => x ++ y | None => [] end.
Definition enc_elem (e : elem) : list Z :=
  List.concat (map enc_cal (e_cal e)) ++ le 2 (e_type e) ++ List.concat (map (le 4) (e_sizes e)) ++ List.concat (e_items e) ++
  le 2 (e_tag e) ++ le 2 (e_unknown e) ++ le 4 (e_time e) ++ enc_pos (e_pos e).
Definition u16 (x : Z) : Prop := 0 <= x < 2 ^ 16.
Definition u32 (x : Z) : Prop := 0 <= x < 2 ^ 32.
Definition dim_ok (d : dim) : Prop :=
  u32 (d_size d) /\ zlen (d_offset d) = 8 /\ zlen (d_delta d) = 8 /\ u32 (d_element d) /\ u32 (zlen (d_description d)) /\ u32 (zlen (d_units d)).
Definition header_ok (h : header) : Prop :=
  u16 (h_order h) /\ u16 (h_series h) /\ u16 (h_version h) /\ u32 (h_data_type h) /\ u32 (h_tag_type h) /\ u32 (h_total h) /\ u32 (h_valid h) /\
  0 <= h_table h < 256 ^ Z.of_nat (offset_bytes (h_version h)) /\ u32 (zlen (h_dims h)) /\ Forall dim_ok (h_dims h).
(** Number types and their sizes *)
Definition number_types : list (Z * Z) := [(1, 1); (2, 2); (3, 4); (4, 1); (5, 2); (6, 4); (7, 4); (8, 8); (9, 8); (10, 16)].
Definition cal_ok (c : calibration) : Prop := let '(o, d, e) := c in zlen o = 8 /\ zlen d = 8 /\ u32 e.
(** An element of a file with [k] signal dimensions, numbers of type [t] and [size] bytes, and sizes [sizes] *)
Definition elem_ok (k : nat) (xy : bool) (t size : Z) (sizes : list Z) (e : elem) : Prop :=
  List.length (e_cal e) = k /\ List.length sizes = k /\ Forall cal_ok (e_cal e) /\ e_type e = t /\ e_sizes e = sizes /\ Forall u32 sizes /\
  zlen (e_items e) = prodZ sizes /\ Forall (fun it => zlen it = size) (e_items e) /\
  u16 (e_tag e) /\ u16 (e_unknown e) /\ u32 (e_time e) /\
  match e_pos e with Some (x, y) => xy = true /\ zlen x = 8 /\ zlen y = 8 | None => xy = false end.
Definition kinds (h : header) : nat := if h_data_type h =? 0x4120 then 1 else 2.
Definition has_positions (h : header) : bool := h_tag_type h =? 0x4142.

(** * Positions in a file *)
Lemma zlen_le : forall n x, zlen (le n x) = Z.of_nat n.
Proof. intros. unfold zlen. rewrite le_length. reflexivity. Qed.
Lemma stored_app : forall f p a b, stored f p (a ++ b) -> stored f p a /\ stored f (p + zlen a) b.
Proof.
  intros f p a b [x [y [-> Hx]]]. split.
  - exists x, (b ++ y). rewrite <- !app_assoc. split; [reflexivity|exact Hx].
  - exists (x ++ a), y. rewrite <- !app_assoc. split; [reflexivity|]. rewrite zlen_app. lia.
Qed.
Lemma stored_nonneg : forall f p a, stored f p a -> 0 <= p.
Proof. intros f p a [x [y [_ H]]]. unfold zlen in H. lia. Qed.
Lemma stored_end : forall f p a, stored f p a -> p + zlen a <= zlen f.
Proof. intros f p a [x [y [-> H]]]. rewrite !zlen_app. unfold zlen in *. lia. Qed.
Lemma stored_bytes : forall f p q n a, stored f p a -> q = p -> zlen a = n -> bytes_at q n f = a.
Proof.
  intros f p q n a [x [y [-> H]]] -> <-. unfold bytes_at. rewrite skipz_skipn, firstz_firstn. rewrite skipn_app_exact by (unfold zlen in H; lia).
  apply firstn_app_exact. unfold zlen. lia.
Qed.
Lemma stored_uint : forall f p q nz n x, stored f p (le n x) -> q = p -> nz = Z.of_nat n -> 0 <= x < 256 ^ Z.of_nat n -> uint_at q nz f = x.
Proof. intros f p q nz n x H E -> Hx. unfold uint_at. rewrite (stored_bytes f p q _ (le n x) H E) by (apply zlen_le). apply le_val_small. exact Hx. Qed.
Lemma stored_read : forall f p q nz n x, stored f p (le n x) -> q = p -> nz = Z.of_nat n -> 0 <= x < 256 ^ Z.of_nat n -> read_uint q nz f = Ok x.
Proof.
  intros f p q nz n x H E En Hx. unfold read_uint. rewrite (stored_uint f p q nz n x H E En Hx). pose proof (stored_end _ _ _ H) as Hl. rewrite zlen_le in Hl. destruct (zlen f <? q + nz) eqn:K; [lia|reflexivity].
Qed.
Lemma uint4 : forall f p q x, stored f p (le 4 x) -> u32 x -> q = p -> uint_at q 4 f = x.
Proof. intros f p q x H Hx E. apply (stored_uint f p q 4 4 x H E eq_refl Hx). Qed.
Lemma uint2 : forall f p q x, stored f p (le 2 x) -> u16 x -> q = p -> uint_at q 2 f = x.
Proof. intros f p q x H Hx E. apply (stored_uint f p q 2 2 x H E eq_refl Hx). Qed.
Lemma read4 : forall f p q x, stored f p (le 4 x) -> u32 x -> q = p -> read_uint q 4 f = Ok x.
Proof. intros f p q x H Hx E. apply (stored_read f p q 4 4 x H E eq_refl Hx). Qed.
Lemma read2 : forall f p q x, stored f p (le 2 x) -> u16 x -> q = p -> read_uint q 2 f = Ok x.
Proof. intros f p q x H Hx E. apply (stored_read f p q 2 2 x H E eq_refl Hx). Qed.
Ltac fields := repeat match goal with
  | H : stored ?f ?p (le 4 ?x) |- context [uint_at ?q 4 ?f] => rewrite (uint4 f p q x H) by (assumption || lia)
  | H : stored ?f ?p (le 2 ?x) |- context [uint_at ?q 2 ?f] => rewrite (uint2 f p q x H) by (assumption || lia)
  | H : stored ?f ?p (le 4 ?x) |- context [read_uint ?q 4 ?f] => rewrite (read4 f p q x H) by (assumption || lia); cbn [bind]
  | H : stored ?f ?p (le 2 ?x) |- context [read_uint ?q 2 ?f] => rewrite (read2 f p q x H) by (assumption || lia); cbn [bind]
  | H : stored ?f ?p ?a |- context [bytes_at ?q ?n ?f] => rewrite (stored_bytes f p q n a H) by (assumption || reflexivity || lia)
  end.
Ltac split_stored := repeat match goal with H : stored _ _ (_ ++ _) |- _ => apply stored_app in H; let H' := fresh H in destruct H as [H' H]; rewrite ?zlen_le in H end.

(** * The header *)
Definition lens_of (ds : list dim) : list (Z * Z) := map (fun d => (zlen (d_description d), zlen (d_units d))) ds.
Lemma enc_dim_length : forall d, dim_ok d -> zlen (enc_dim d) = 32 + zlen (d_description d) + zlen (d_units d).
Proof. intros d (_ & Ho & Hd & _). unfold enc_dim. rewrite !zlen_app, !zlen_le, Ho, Hd. lia. Qed.
Lemma dims_size_eq : forall ds, Forall dim_ok ds -> dims_size (lens_of ds) = zlen (List.concat (map enc_dim ds)).
Proof.
  induction 1 as [|d ds Hd _ IH]; [reflexivity|]. unfold dims_size in *. cbn [lens_of map sumZ List.concat fst snd]. fold (lens_of ds). rewrite zlen_app, enc_dim_length by exact Hd. rewrite <- IH. lia.
Qed.
Lemma lengths_ok : forall ds f p, Forall dim_ok ds -> stored f p (List.concat (map enc_dim ds)) ->
  all_lengths (List.length ds) p f = Ok (lens_of ds) /\ dims_at (lens_of ds) p f = ds.
Proof.
  induction ds as [|d ds IH]; intros f p H S; [split; reflexivity|]. inversion H as [|? ? Hd Hds]; subst. cbn [map List.concat] in S. apply stored_app in S. destruct S as [Sd S]. rewrite enc_dim_length in S by exact Hd.
  destruct Hd as (H1 & H2 & H3 & H4 & H5 & H6). unfold enc_dim in Sd. split_stored. unfold u32 in *.
  assert (E : p + (32 + zlen (d_description d) + zlen (d_units d)) = p + 32 + zlen (d_description d) + zlen (d_units d)) by lia. rewrite E in S. destruct (IH f _ Hds S) as [I1 I2].
  cbn [List.length all_lengths lens_of map dims_at]. fold (lens_of ds). unfold get_lengths. split.
  - fields. rewrite I1. reflexivity.
  - rewrite I2. f_equal. destruct d as [sz o de el ds' un]. cbn [d_size d_offset d_delta d_element d_description d_units] in *. fields. reflexivity.
Qed.
Lemma word_spec : forall v, word v = Z.of_nat (offset_bytes v).
Proof. intro v. unfold word, offset_bytes. change 0x210 with 528. destruct (v <=? 528); reflexivity. Qed.
Lemma header_read : forall h f, header_ok h -> stored f 0 (enc_header h) -> read_header f = Ok h.
Proof.
  intros h f (H1 & H2 & H3 & H4 & H5 & H6 & H7 & H8 & H9 & H10) S. pose proof (stored_end _ _ _ S) as L. unfold enc_header in S, L. split_stored. rewrite !zlen_app, !zlen_le in L.
  unfold read_header. pose proof (zlen_nonneg _ (List.concat (map enc_dim (h_dims h)))) as Ln.
  assert (E1 : (zlen f <? 22) = false) by lia. rewrite E1. rewrite (uint2 f _ 4 (h_version h) S2 H3) by lia. rewrite word_spec.
  assert (E2 : (zlen f <? 22 + Z.of_nat (offset_bytes (h_version h)) + 4) = false) by lia. rewrite E2.
  rewrite (uint4 f _ (22 + Z.of_nat (offset_bytes (h_version h))) (zlen (h_dims h)) S8 H9) by lia.
  destruct (lengths_ok (h_dims h) f (26 + Z.of_nat (offset_bytes (h_version h))) H10) as [A B].
  { match type of S with stored _ ?p _ => replace (26 + Z.of_nat (offset_bytes (h_version h))) with p by lia end. exact S. }
  unfold zlen at 1. rewrite Nat2Z.id, A. cbn [bind]. rewrite dims_size_eq by exact H10.
  assert (E3 : (zlen f <? 26 + Z.of_nat (offset_bytes (h_version h)) + zlen (List.concat (map enc_dim (h_dims h)))) = false) by lia. rewrite E3, B.
  rewrite (stored_uint f _ 22 (Z.of_nat (offset_bytes (h_version h))) _ (h_table h) S7) by (assumption || reflexivity || lia).
  fields. destruct h. reflexivity.
Qed.

(** * Elements *)
Lemma cals_at : forall cs f p i, Forall cal_ok cs -> stored f (p + 20 * i) (List.concat (map enc_cal cs)) ->
  map (fun j => cal_at (p + 20 * j) f) (zseq i (List.length cs)) = cs /\ zlen (List.concat (map enc_cal cs)) = 20 * zlen cs.
Proof.
  induction cs as [|[[o d] e] cs IH]; intros f p i H S; [split; reflexivity|]. inversion H as [|? ? Hc Hcs]; subst. destruct Hc as (Ho & Hd & He). cbn [map List.concat] in S |- *.
  apply stored_app in S. destruct S as [Sc S]. assert (Lc : zlen (enc_cal (o, d, e)) = 20) by (cbn [enc_cal]; rewrite !zlen_app, zlen_le, Ho, Hd; reflexivity).
  rewrite Lc in S. replace (p + 20 * i + 20) with (p + 20 * (i + 1)) in S by lia. destruct (IH f p (i + 1) Hcs S) as [A B]. split.
  - cbn [List.length zseq map]. rewrite A. f_equal. unfold cal_at. cbn [enc_cal] in Sc. split_stored. fields. reflexivity.
  - rewrite zlen_app, Lc, B, zlen_cons. lia.
Qed.
Lemma sizes_at : forall ss f p i, Forall u32 ss -> stored f (p + 4 * i) (List.concat (map (le 4) ss)) ->
  map (fun j => uint_at (p + 4 * j) 4 f) (zseq i (List.length ss)) = ss /\ mapM (fun j => read_uint (p + 4 * j) 4 f) (zseq i (List.length ss)) = Ok ss /\ zlen (List.concat (map (le 4) ss)) = 4 * zlen ss.
Proof.
  induction ss as [|s ss IH]; intros f p i H S; [repeat split; reflexivity|]. inversion H as [|? ? Hs Hss]; subst. cbn [map List.concat] in S |- *. split_stored. rewrite zlen_app, zlen_le, zlen_cons.
  assert (E : p + 4 * i + Z.of_nat 4 = p + 4 * (i + 1)) by lia. rewrite E in S. destruct (IH f p (i + 1) Hss S) as [A [B C]]. cbn [List.length zseq map mapM]. fields. rewrite A, B, C. repeat split; lia.
Qed.
Lemma concat_size : forall (l : list (list Z)) n, Forall (fun it => zlen it = n) l -> zlen (List.concat l) = zlen l * n.
Proof. induction 1 as [|x l H _ IH]; [reflexivity|]. cbn [List.concat]. rewrite zlen_app, zlen_cons, IH, H. lia. Qed.
Lemma elem_read : forall e f p k xy t size sizes, elem_ok k xy t size sizes e -> u16 t -> 0 <= size -> stored f p (enc_elem e) -> read_elem k xy size (prodZ sizes) p f = Ok e.
Proof.
  intros e f p k xy t size sizes (H1 & H2 & H3 & H4 & H5 & H6 & H7 & H8 & H9 & H10 & H11 & H12) Ht Hs S. pose proof (stored_end _ _ _ S) as L. unfold enc_elem in S, L. rewrite H4, H5 in *.
  apply stored_app in S. destruct S as [Sc S]. destruct (cals_at (e_cal e) f p 0 H3) as [A1 A2]; [rewrite Z.mul_0_r, Z.add_0_r; exact Sc|]. rewrite A2 in S. assert (Lk : zlen (e_cal e) = Z.of_nat k) by (unfold zlen; lia). rewrite Lk in S.
  apply stored_app in S. destruct S as [St S]. rewrite zlen_le in S. apply stored_app in S. destruct S as [Ss S].
  destruct (sizes_at sizes f (p + 20 * Z.of_nat k + 2) 0 H6) as [B1 [B2 B3]]; [rewrite Z.mul_0_r, Z.add_0_r; exact Ss|]. assert (Lz : zlen sizes = Z.of_nat k) by (unfold zlen; lia).
  pose proof (concat_size _ _ H8) as Li. rewrite H7 in Li. rewrite B3, Lz in S. apply stored_app in S. destruct S as [Si S]. rewrite Li in S.
  assert (Lp : zlen (enc_pos (e_pos e)) = if xy then 16 else 0). { destruct (e_pos e) as [[x y]|]; [destruct H12 as (-> & ? & ?); cbn [enc_pos]; rewrite zlen_app; lia|subst xy; reflexivity]. }
  rewrite !zlen_app, !zlen_le, A2, B3, Lk, Lz, Li, Lp in L.
  unfold read_elem, elem_head, tag_size. destruct (zlen f <? p + (24 * Z.of_nat k + 2) + prodZ sizes * size + (if xy then 24 else 8)) eqn:E; [exfalso; destruct xy; lia|]. clear E. f_equal.
  unfold elem_at, elem_head. rewrite <- H1 at 1. rewrite A1. rewrite <- H2 at 2. rewrite B1. rewrite (uint2 f _ _ t St Ht) by lia.
  rewrite (stored_bytes f _ (p + (24 * Z.of_nat k + 2)) (prodZ sizes * size) _ Si) by lia.
  assert (R : records (Z.to_nat (prodZ sizes)) (Z.to_nat size) (List.concat (e_items e)) = e_items e).
  { rewrite <- H7. unfold zlen. rewrite Nat2Z.id. rewrite <- (app_nil_r (List.concat (e_items e))). apply records_concat. eapply Forall_impl; [|exact H8]. unfold zlen. cbn beta. intros a Ha. lia. }
  rewrite R. split_stored. fields. destruct e as [c ty ss it tg un ti po]. cbn [e_cal e_type e_sizes e_items e_tag e_unknown e_time e_pos] in *. subst ty ss. f_equal.
  destruct po as [[x y]|]; [destruct H12 as (-> & Hx & Hy); cbn [enc_pos] in S; split_stored; fields; reflexivity|subst xy; reflexivity].
Qed.
Lemma elems_read : forall es offs f p extra k xy t size sizes, Forall (elem_ok k xy t size sizes) es -> u16 t -> 0 <= size -> Forall2 (fun o e => stored f o (enc_elem e)) (p :: offs) es ->
  read_elems k xy size (prodZ sizes) p (offs ++ [extra]) f = Ok es.
Proof.
  induction es as [|e es IH]; intros offs f p extra k xy t size sizes H Ht Hs S; [inversion S|]. inversion H as [|? ? He Hes]; subst. inversion S as [|? ? ? ? Se Ss]; subst.
  destruct offs as [|o offs]; cbn [app read_elems].
  - rewrite (elem_read e f p k xy t size sizes He Ht Hs Se). cbn [bind read_elems]. inversion Ss; subst. reflexivity.
  - rewrite (elem_read e f p k xy t size sizes He Ht Hs Se). cbn [bind]. rewrite (IH offs f o extra k xy t size sizes Hes Ht Hs Ss). reflexivity.
Qed.

(** * Loading *)
Definition encode_table (w : nat) (offs : list Z) : list Z := List.concat (map (le w) offs).
Lemma table_length : forall w offs, zlen (encode_table w offs) = Z.of_nat w * zlen offs.
Proof. induction offs as [|o offs IH]; [cbn; lia|]. unfold encode_table in *. cbn [map List.concat]. rewrite zlen_app, zlen_le, IH, zlen_cons. lia. Qed.
Lemma words_read : forall w offs f p, (w > 0)%nat -> Forall (fun o => 0 <= o < 256 ^ Z.of_nat w) offs -> stored f p (encode_table w offs) -> words_at p (Z.of_nat w) (zlen offs) f = offs.
Proof.
  intros w offs f p Hw H S. pose proof (stored_end _ _ _ S) as L. rewrite table_length in L. unfold words_at.
  assert (E : Z.min (zlen offs) (Z.max 0 (zlen f - p) / Z.of_nat w) = zlen offs).
  { apply Z.min_l. apply Z.div_le_lower_bound; [lia|]. pose proof (zlen_nonneg _ offs). nia. }
  rewrite E. destruct S as [a [b [-> Ha]]]. rewrite skipz_skipn, skipn_app_exact by (unfold zlen in Ha; lia). unfold zlen. rewrite !Nat2Z.id. unfold encode_table.
  replace (List.length offs) with (List.length (map (le w) offs)) by apply map_length. rewrite records_concat.
  - rewrite map_map. clear - H. induction H as [|o offs Ho _ IH]; [reflexivity|]. cbn [map]. rewrite IH, le_val_small by exact Ho. reflexivity.
  - apply Forall_map. apply Forall_forall. intros. apply le_length.
Qed.
Lemma item_size_spec : forall t size, In (t, size) number_types -> item_size t = Ok size /\ u16 t /\ 0 < size.
Proof. intros t size H. cbn in H. repeat (destruct H as [H|H]; [injection H as <- <-; repeat split; lia|]). contradiction. Qed.
Lemma kinds_spec : forall h, signal_dims h = kinds h.
Proof. reflexivity. Qed.
Lemma f2_len : forall A B (R : A -> B -> Prop) a b, Forall2 R a b -> List.length a = List.length b.
Proof. induction 1; cbn; lia. Qed.
(** Elements may be anywhere, in any order, as given by the table; the table is followed by at least one more word *)
Theorem C69_load : forall h t size sizes es offs extra f, header_ok h -> In (t, size) number_types -> es <> [] ->
  h_valid h = zlen es -> Forall (elem_ok (kinds h) (has_positions h) t size sizes) es ->
  let w := offset_bytes (h_version h) in
  Forall (fun o => 0 <= o < 256 ^ Z.of_nat w) (offs ++ [extra]) ->
  stored f 0 (enc_header h) -> stored f (h_table h) (encode_table w (offs ++ [extra])) -> Forall2 (fun o e => stored f o (enc_elem e)) offs es ->
  load f = Ok (h, t, map Some es).
Proof.
  intros h t size sizes es offs extra f Hh Ht Hne Hv He w Ho Sh St Se. destruct (item_size_spec t size Ht) as [Hi [Ht16 Hsz]]. unfold load. rewrite (header_read h f Hh Sh). cbn [bind].
  destruct es as [|e es]; [congruence|]. assert (E0 : (h_valid h =? 0) = false) by (rewrite Hv, zlen_cons; pose proof (zlen_nonneg _ es); lia). rewrite E0. rewrite word_spec. fold w.
  assert (Hw : (w > 0)%nat) by (unfold w, offset_bytes; destruct (_ <=? _); lia).
  destruct offs as [|o offs]; [inversion Se|]. inversion Se as [|? ? ? ? Se1 Se2]; subst. cbn [app] in Ho, St. inversion Ho as [|? ? Ho1 Ho2]; subst.
  change (encode_table w (o :: offs ++ [extra])) with (le w o ++ encode_table w (offs ++ [extra])) in St. apply stored_app in St. destruct St as [St1 St2]. rewrite zlen_le in St2.
  rewrite (stored_read f _ (h_table h) (Z.of_nat w) w o St1 eq_refl eq_refl Ho1). cbn [bind].
  assert (Lv : h_valid h = zlen (offs ++ [extra])). { rewrite Hv, zlen_cons, zlen_app. pose proof (f2_len _ _ _ _ _ Se2) as Lf. unfold zlen. rewrite Lf. cbn [List.length]. lia. }
  rewrite Lv. rewrite (words_read w (offs ++ [extra]) f _ Hw Ho2 St2).
  rewrite kinds_spec. inversion He as [|? ? He1 He2]; subst. pose proof He1 as (H1 & H2 & H3 & H4 & H5 & H6 & _).
  pose proof Se1 as Sx. unfold enc_elem in Sx. rewrite H4, H5 in Sx. apply stored_app in Sx. destruct Sx as [Sc S]. destruct (cals_at (e_cal e) f o 0 H3) as [A1 A2]; [rewrite Z.mul_0_r, Z.add_0_r; exact Sc|].
  rewrite A2 in S. assert (Lk : zlen (e_cal e) = Z.of_nat (kinds h)) by (unfold zlen; lia). rewrite Lk in S.
  apply stored_app in S. destruct S as [Sty S]. rewrite zlen_le in S. apply stored_app in S. destruct S as [Ss S].
  destruct (sizes_at sizes f (o + 20 * Z.of_nat (kinds h) + 2) 0 H6) as [B1 [B2 B3]]; [rewrite Z.mul_0_r, Z.add_0_r; exact Ss|]. rewrite H2 in B2.
  rewrite (read2 f _ _ t Sty Ht16) by reflexivity. cbn [bind]. rewrite B2. cbn [bind]. rewrite Hi. cbn [bind].
  rewrite (elems_read (e :: es) offs f o extra (kinds h) (h_tag_type h =? xy_tag) t size sizes); [|constructor; assumption|exact Ht16|lia|exact Se].
  cbn [bind]. replace (zlen (offs ++ [extra]) - zlen (e :: es)) with 0 by lia. cbn [Z.to_nat repeat]. rewrite app_nil_r. reflexivity.
Qed.

(** A series of two spectra of three numbers of two bytes, and one dimension *)
Definition ex_dim : dim := {| d_size := 2; d_offset := [0;0;0;0;0;0;0;0]; d_delta := [0;0;0;0;0;0;240;63]; d_element := 0; d_description := str "Number"; d_units := [] |}.
Definition ex_header : header := {| h_order := 0x4949; h_series := 0x197; h_version := 0x210; h_data_type := 0x4120; h_tag_type := 0x4152; h_total := 2; h_valid := 2; h_table := 68; h_dims := [ex_dim] |}.
Definition ex_elem (a : Z) : elem :=
  {| e_cal := [([0;0;0;0;0;0;0;0], [0;0;0;0;0;0;240;63], 0)]; e_type := 2; e_sizes := [3]; e_items := [[a; 0]; [a; 1]; [a; 2]]; e_tag := 0x4152; e_unknown := 0; e_time := 77; e_pos := None |}.
(** The second spectrum is stored before the first *)
Definition ex_file : list Z := enc_header ex_header ++ encode_table 4 [124; 84; 0; 0] ++ enc_elem (ex_elem 5) ++ enc_elem (ex_elem 4).
Example C69_example : load ex_file = Ok (ex_header, 2, [Some (ex_elem 4); Some (ex_elem 5)]).
Proof. vm_compute. reflexivity. Qed.
Example C69_example_hyps : header_ok ex_header /\ Forall (elem_ok (kinds ex_header) (has_positions ex_header) 2 2 [3]) [ex_elem 4; ex_elem 5] /\
  stored ex_file 0 (enc_header ex_header) /\ stored ex_file 68 (encode_table 4 ([124; 84] ++ [0])) /\
  Forall2 (fun o e => stored ex_file o (enc_elem e)) [124; 84] [ex_elem 4; ex_elem 5].
Proof.
  assert (U : forall x, (0 <=? x) && (x <? 2 ^ 16) = true -> u16 x) by (intros; unfold u16; lia).
  assert (V : forall x, (0 <=? x) && (x <? 2 ^ 32) = true -> u32 x) by (intros; unfold u32; lia).
  split; [|split; [|split; [|split]]].
  - repeat split; try (apply U; reflexivity); try (apply V; reflexivity); try (cbn; lia). constructor; [|constructor]. repeat split; try (apply V; reflexivity).
  - repeat constructor; try (apply U; reflexivity); try (apply V; reflexivity).
  - exists [], (skipn 68 ex_file). split; reflexivity.
  - exists (firstn 68 ex_file), (skipn 80 ex_file). split; reflexivity.
  - constructor; [|constructor; [|constructor]].
    + exists (firstn 124 ex_file), []. split; reflexivity.
    + exists (firstn 84 ex_file), (skipn 124 ex_file). split; reflexivity.
Qed.
(** Without the additional word the last element is not read *)
Definition short_header : header := {| h_order := 0x4949; h_series := 0x197; h_version := 0x210; h_data_type := 0x4120; h_tag_type := 0x4152; h_total := 2; h_valid := 2; h_table := 148; h_dims := [ex_dim] |}.
Definition short_file : list Z := enc_header short_header ++ enc_elem (ex_elem 4) ++ enc_elem (ex_elem 5) ++ encode_table 4 [68; 108].
Theorem C69_short_table_refuted : load short_file = Ok (short_header, 2, [Some (ex_elem 4); None]).
Proof. vm_compute. reflexivity. Qed.
Print Assumptions C69_load.
Print Assumptions C69_short_table_refuted.
