(** Property C74: signals of integers, booleans and colours in sur and pro files. *)
From Coq Require Import QArith Qabs.
From Verif Require Import Base Text Bytes RowMajor SfsModel SfsProps BcfUnpack SurFloat SurModel SurFile.
Local Open Scope Z_scope.

(** * Specification *)
(** Compression can be undone and does not add much *)
Definition zlib_ok (zip : list Z -> list Z) (unzip : list Z -> res (list Z)) : Prop := (forall b, unzip (zip b) = Ok b) /\ (forall b, zlen (zip b) <= 2 * zlen b + 64).
Definition text (n : nat) (s : pystr) : Prop := chars s /\ clean s /\ (List.length s <= n)%nat.
Definition exact32 (q : Q) : Prop := fits q /\ nearest q = q.
(** An axis that fits in a file, with names of at most [n] characters *)
Definition axis_ok (n : nat) (a : axis) : Prop := text n (a_name a) /\ text n (a_units a) /\ 0 < a_size a < 2 ^ 31 /\ exact32 (a_scale a) /\ exact32 (a_offset a).
Definition options_ok (o : options) (comment : pystr) : Prop :=
  chars (object_name o) /\ chars (operator_name o) /\ - 2 ^ 15 <= absolute o < 2 ^ 15 /\ bytes (private_zone o) /\ zlen (private_zone o) < 2 ^ 15 /\ (List.length (client_zone o) <= 128)%nat /\
  List.length (date o) = 7%nat /\ Forall (fun z => - 2 ^ 15 <= z < 2 ^ 15) (date o) /\ chars (z_name o) /\ chars (z_unit o) /\ chars comment /\ zlen comment < 2 ^ 15.
Definition opt_ok (n : nat) (a : option axis) : Prop := match a with Some a => axis_ok n a | None => True end.

(** * Fields as read *)
Definition seen (k : kind) (v : fval) : fval :=
  match k, v with
  | KS n, FS s => FS (trim (firstn n s))
  | KF, FF q => FF (nearest q)
  | KB n, FB b => FB (b ++ repeat 0 (n - List.length b))
  | _, _ => v
  end.
Definition fine (k : kind) (v : fval) : Prop :=
  match k, v with
  | KS n, FS s => chars s
  | KI16, FI z => - 2 ^ 15 <= z < 2 ^ 15
  | KU16, FI z => 0 <= z < 2 ^ 16
  | KI32, FI z => - 2 ^ 31 <= z < 2 ^ 31
  | KU32, FI z => 0 <= z < 2 ^ 32
  | KF, FF q => fits q
  | KB n, FB b => (List.length b <= n)%nat
  | _, _ => False
  end.
Lemma trim_left_split : forall s, exists a, s = a ++ trim_left s /\ Forall (fun c => In c blanks) a /\ (trim_left s = [] \/ ~ In (hd 0 (trim_left s)) blanks).
Proof.
  induction s as [|c s (a & E & Ha & Hc)]; [exists []; repeat split; [constructor|left; reflexivity]|]. cbn [trim_left]. destruct (blank c) eqn:B.
  - exists (c :: a). split; [cbn [app]; congruence|]. split; [constructor; [apply blank_in; exact B|exact Ha]|exact Hc].
  - exists []. split; [reflexivity|]. split; [constructor|]. right. intro X. apply blank_in in X. cbn [hd] in X. congruence.
Qed.
Lemma hd_app : forall (a b : list Z), a <> [] -> hd 0 (a ++ b) = hd 0 a.
Proof. intros [|x a] b H; [congruence|reflexivity]. Qed.
Lemma last_hd_rev : forall (l : list Z), last l 0 = hd 0 (rev l).
Proof. intros l. destruct l as [|x l]; [reflexivity|]. destruct (rev_last_cons Z (x :: l) 0 ltac:(discriminate)) as [r E]. rewrite E. reflexivity. Qed.
Lemma stripped_trim : forall s, stripped s (trim s).
Proof.
  intro s. unfold trim. destruct (trim_left_split s) as (a & E & Ha & Hc). set (t := trim_left s) in *. clearbody t. destruct (trim_left_split (rev t)) as (b & E' & Hb & Hc'). set (u := trim_left (rev t)) in *. clearbody u.
  assert (Et : t = rev u ++ rev b) by (rewrite <- (rev_involutive t), E', rev_app_distr; reflexivity). exists a, (rev b). split; [rewrite E, Et; reflexivity|]. split; [exact Ha|]. split; [apply forall_rev; exact Hb|].
  destruct u as [|x u]; [left; reflexivity|]. destruct Hc' as [Hc'|Hc']; [discriminate|]. right. split; [|rewrite last_hd_rev, rev_involutive; exact Hc'].
  destruct Hc as [Hc|Hc]; [rewrite Hc in Et; destruct (rev (x :: u)) eqn:R; [apply (f_equal (@rev Z)) in R; rewrite rev_involutive in R; discriminate|discriminate]|].
  rewrite Et in Hc. rewrite hd_app in Hc; [exact Hc|]. intro R. apply (f_equal (@rev Z)) in R. rewrite rev_involutive in R. discriminate.
Qed.
Lemma trim_clean : forall n s, text n s -> trim (firstn n s) = s.
Proof. intros n s (_ & Hc & Hl). rewrite firstn_all2 by exact Hl. apply trim_stripped. exists [], []. rewrite app_nil_r. repeat split; [constructor|constructor|exact Hc]. Qed.
Lemma fine_kept : forall k v, fine k v -> kept k v (seen k v).
Proof. intros k v H. destruct k; destruct v; cbn [fine] in H; try contradiction; cbn [seen kept]; (split; [exact H|]); try reflexivity. apply stripped_trim. Qed.
Lemma fines_kept : forall ks vs, Forall2 fine ks vs -> Forall2 (fun k p => kept k (fst p) (snd p)) ks (combine vs (map (fun kv => seen (fst kv) (snd kv)) (combine ks vs))).
Proof. intros ks vs H. induction H as [|k v ks vs H1 H2 IH]; [constructor|]. cbn [combine map]. constructor; [apply fine_kept; exact H1|exact IH]. Qed.
Definition read_fields (h : list fval) : list fval := map (fun kv => seen (fst kv) (snd kv)) (combine layout h).

(** * One object *)
Definition nx (a : option axis) := axis_or a_name [] a.
Definition ux (a : option axis) := axis_or a_units [] a.
Definition sx (a : option axis) := axis_or a_scale 0%Q a.
Definition ox (a : option axis) := axis_or a_offset 0%Q a.
Definition size (a : option axis) := axis_or a_size 1 a.
Definition wsize (p : split) (t : Z) : Z := if t =? 21 then axis_or a_size 0 (p_t p) else 0.
(** What is known of an object after reading *)
Record reads (o : options) (p : split) (t zmin : Z) (scale off : Q) (ints : list Z) (ob : object) : Prop := {
  rd_objects : int_at (o_fields ob) 3 = p_objects p; rd_type : int_at (o_fields ob) 5 = t; rd_channels : int_at (o_fields ob) 8 = p_channels p;
  rd_w : int_at (o_fields ob) 14 = wsize p t; rd_x : int_at (o_fields ob) 18 = size (p_x p); rd_y : int_at (o_fields ob) 19 = size (p_y p);
  rd_xs : float_at (o_fields ob) 21 = sx (p_x p); rd_ys : float_at (o_fields ob) 22 = sx (p_y p); rd_ts : float_at (o_fields ob) 56 = sx (p_t p);
  rd_xo : float_at (o_fields ob) 53 = ox (p_x p); rd_yo : float_at (o_fields ob) 54 = ox (p_y p); rd_to : float_at (o_fields ob) 57 = ox (p_t p);
  rd_xn : str_at (o_fields ob) 24 = nx (p_x p); rd_yn : str_at (o_fields ob) 25 = nx (p_y p); rd_tn : str_at (o_fields ob) 58 = nx (p_t p);
  rd_xu : str_at (o_fields ob) 27 = ux (p_x p); rd_yu : str_at (o_fields ob) 28 = ux (p_y p); rd_tu : str_at (o_fields ob) 59 = ux (p_t p);
  rd_zmin : int_at (o_fields ob) 16 = zmin; rd_scale : float_at (o_fields ob) 23 = nearest scale; rd_ratio : float_at (o_fields ob) 35 = 1%Q; rd_off : float_at (o_fields ob) 55 = nearest off;
  rd_special : int_at (o_fields ob) 11 = (if special o then 1 else 0);
  rd_points : decode_points (o_fields ob) ints = Ok (o_points ob) }.
(** An object that can be written *)
Definition norm_ok (n : (Z * Z * Z * Q * Q * list Z)) : Prop :=
  let '(bsize, zmin, zmax, scale, off, ints) := n in
  ((bsize = 16 /\ Forall (fun z => - 2 ^ 15 <= z < 2 ^ 15) ints) \/ (bsize = 32 /\ Forall (fun z => - 2 ^ 31 <= z < 2 ^ 31) ints)) /\
  - 2 ^ 31 <= zmin < 2 ^ 31 /\ - 2 ^ 31 <= zmax < 2 ^ 31 /\ fits scale /\ fits off /\ zlen ints < 2 ^ 28.
Definition split_ok (p : split) : Prop :=
  opt_ok 16 (p_x p) /\ opt_ok 16 (p_y p) /\ opt_ok 13 (p_t p) /\ 1 <= p_objects p < 2 ^ 16 /\ 1 <= p_channels p < 2 ^ 15 /\ size (p_x p) * size (p_y p) < 2 ^ 31.
Lemma opt_text : forall n a, opt_ok n a -> text n (nx a) /\ text n (ux a) /\ exact32 (sx a) /\ exact32 (ox a) /\ 0 < size a < 2 ^ 31.
Proof.
  assert (T : forall n, text n []) by (intro n; split; [constructor|split; [left; reflexivity|cbn; lia]]). assert (E : exact32 0) by (split; [apply Qlt_alt; vm_compute; reflexivity|vm_compute; reflexivity]).
  intros n [a|] H; [|split; [apply T|]; split; [apply T|]; split; [exact E|]; split; [exact E|cbn; lia]]. destruct H as (H1 & H2 & H3 & H4 & H5). cbn. tauto.
Qed.
Lemma decode_ok : forall h raw, float_at h 35 = 1%Q -> In (int_at h 5) obj_types -> exists l, decode_points h raw = Ok l.
Proof.
  intros h raw E H. unfold decode_points. rewrite E. change (Qnum 1 =? 0) with false. cbn iota. assert (X : existsb (Z.eqb (int_at h 5)) obj_types = true) by (apply existsb_exists; exists (int_at h 5); split; [exact H|lia]). rewrite X. cbn [negb].
  destruct (_ && is_integer (float_at h 55)); [eexists; reflexivity|]. destruct (_ || (int_at h 5 =? 10)); [eexists; reflexivity|]. destruct (int_at h 5 =? 3); eexists; reflexivity.
Qed.
Lemma obj_types_range : forall t, In t obj_types -> -1 <= t <= 21.
Proof. intros t H. unfold obj_types in H. apply in_app_or in H. destruct H as [H|H]; [apply in_zseq in H; lia|]. cbn in H. lia. Qed.
Lemma compress_one : forall zip w ints, zlen ints * Z.of_nat w < 2 ^ 31 -> zlen (zip (List.concat (map (le w) ints))) < 2 ^ 32 ->
  compress_data zip 1 w ints = Ok (encode_streams [List.concat (map (le w) ints)] [zip (List.concat (map (le w) ints))]).
Proof.
  intros zip w ints H1 H2. unfold compress_data. change ((1 <=? 0) || (8 <? 1)) with false. cbn iota. rewrite Z.mod_1_r, Z.div_1_r. change (0 =? 0) with true. cbn iota. change (zseq 0 (Z.to_nat 1)) with [0]. cbn [map].
  rewrite Z.mul_0_l. rewrite skipz_skipn. change (skipn (Z.to_nat 0) ints) with ints. rewrite firstz_firstn. replace (Z.to_nat (zlen ints)) with (List.length ints) by (unfold zlen; lia). rewrite firstn_all. cbn [combine mapM].
  pose proof (zlen_nonneg _ ints). pose proof (zlen_nonneg _ (zip (List.concat (map (le w) ints)))). unfold set_int.
  assert (E1 : (0 <=? zlen ints * Z.of_nat w) && (zlen ints * Z.of_nat w <? 2 ^ 32) = true) by (clear - H1 H; nia). assert (E2 : (0 <=? zlen (zip (List.concat (map (le w) ints)))) && (zlen (zip (List.concat (map (le w) ints))) <? 2 ^ 32) = true) by lia.
  rewrite E1. cbn [bind]. rewrite E2. cbn [bind]. unfold encode_streams. cbn [combine map List.concat fst snd]. rewrite concat_le_length. rewrite !app_nil_r. reflexivity.
Qed.
Lemma work_read : forall bad zip unzip o p comment d t bsize zmin zmax scale off ints,
  zlib_ok zip unzip -> options_ok o comment -> split_ok p -> In t obj_types -> norm_data bad (special o) d = Ok (bsize, zmin, zmax, scale, off, ints) -> norm_ok (bsize, zmin, zmax, scale, off, ints) ->
  zlen ints = size (p_x p) * size (p_y p) * Z.max (wsize p t) 1 -> exists c ob, build_workdict bad zip o p comment d t = Ok c /\ object_kept unzip c ob /\ reads o p t zmin scale off ints ob /\
  (str_at (c_fields c) 1 = str "DSCOMPRESSED" \/ str_at (c_fields c) 1 = str "DIGITAL SURF") /\ int_at (c_fields c) 3 = p_objects p /\ int_at (c_fields c) 8 = p_channels p.
Proof.
  intros bad zip unzip o p comment d t bsize zmin zmax scale off ints [Z1 Z2] (O1 & O2 & O3 & O4 & O5 & O6 & O7 & O8 & O9 & O10 & O11 & O12) (P1 & P2 & P3 & P4 & P5 & P6) Ht Hn (N1 & N2 & N3 & N4 & N5 & N6) Hl.
  unfold build_workdict. rewrite Hn. cbn [bind]. set (w := if bsize =? 16 then 2%nat else 4%nat). set (raw := List.concat (map (le w) ints)).
  assert (Hw : (w = 2%nat /\ bsize = 16) \/ (w = 4%nat /\ bsize = 32)) by (destruct N1 as [[-> _]|[-> _]]; unfold w; [left|right]; split; reflexivity).
  assert (Hr : Forall (fun z => - 2 ^ (8 * Z.of_nat w - 1) <= z < 2 ^ (8 * Z.of_nat w - 1)) ints) by (destruct N1 as [[Eb F]|[Eb F]]; destruct Hw as [[-> E']|[-> E']]; try congruence; try lia; exact F).
  assert (Lr : zlen raw = zlen ints * Z.of_nat w) by apply concat_le_length. pose proof (zlen_nonneg _ ints) as Hi0. pose proof (Z2 raw) as Hz. pose proof (zlen_nonneg _ (zip raw)) as Hz0.
  set (data := if compressed o then encode_streams [raw] [zip raw] else raw). assert (Ld : 0 <= zlen data < 2 ^ 32).
  { unfold data. destruct (compressed o); [|destruct Hw as [[-> _]|[-> _]]; cbn in Lr; lia]. unfold encode_streams. cbn [combine map List.concat fst snd]. rewrite !app_nil_r. unfold zlen in *. rewrite !app_length, !le_length. destruct Hw as [[-> _]|[-> _]]; cbn in Lr; lia. }
  assert (Ed : (if compressed o then compress_data zip 1 w ints else Ok raw) = Ok data).
  { unfold data. destruct (compressed o); [|reflexivity]. apply compress_one; fold raw; destruct Hw as [[Ew _]|[Ew _]]; rewrite Ew in *; cbn in Lr; lia. }
  assert (Edata : data = if compressed o then encode_streams [raw] [zip raw] else raw) by reflexivity. assert (Eraw : raw = List.concat (map (le w) ints)) by reflexivity. clearbody data raw.
  rewrite Ed. cbn [bind]. rewrite (latin1_chars comment O11). cbn [negb].
  destruct (opt_text _ _ P1) as (X1 & X2 & X3 & X4 & X5). destruct (opt_text _ _ P2) as (Y1 & Y2 & Y3 & Y4 & Y5). destruct (opt_text _ _ P3) as (T1 & T2 & T3 & T4 & T5).
  fold (nx (p_x p)) (nx (p_y p)) (nx (p_t p)) (ux (p_x p)) (ux (p_y p)) (ux (p_t p)) (sx (p_x p)) (sx (p_y p)) (sx (p_t p)) (ox (p_x p)) (ox (p_y p)) (ox (p_t p)) (size (p_x p)) (size (p_y p)) (wsize p t).
  assert (Cc : crop (zlen comment) = zlen comment) by (unfold crop; assert (E : (2 ^ 15 <=? zlen comment) = false) by lia; rewrite E; reflexivity).
  assert (Cp : crop (zlen (private_zone o)) = zlen (private_zone o)) by (unfold crop; assert (E : (2 ^ 15 <=? zlen (private_zone o)) = false) by lia; rewrite E; reflexivity).
  rewrite Cc, Cp. pose proof (zlen_nonneg _ comment) as Hc0. pose proof (zlen_nonneg _ (private_zone o)) as Hp0. pose proof (obj_types_range t Ht) as Ht'.
  assert (Hws : 0 <= wsize p t < 2 ^ 31) by (unfold wsize; destruct (t =? 21); [|lia]; destruct (p_t p) as [a|]; cbn [axis_or]; [destruct P3 as (_ & _ & P3 & _); lia|lia]).
  assert (F0 : fits 0) by (apply Qlt_alt; vm_compute; reflexivity). assert (F1 : fits 1) by (apply Qlt_alt; vm_compute; reflexivity). assert (E1 : nearest 1 = 1%Q) by (vm_compute; reflexivity).
  destruct (date o) as [|d1 [|d2 [|d3 [|d4 [|d5 [|d6 [|d7 [|d8 ds]]]]]]]] eqn:Edate; try discriminate O7. clear O7.
  pose proof (Forall_inv O8) as D1. pose proof (Forall_inv_tail O8) as O81. pose proof (Forall_inv O81) as D2. pose proof (Forall_inv_tail O81) as O82. pose proof (Forall_inv O82) as D3. pose proof (Forall_inv_tail O82) as O83. pose proof (Forall_inv O83) as D4. pose proof (Forall_inv_tail O83) as O84. pose proof (Forall_inv O84) as D5. pose proof (Forall_inv_tail O84) as O85. pose proof (Forall_inv O85) as D6. pose proof (Forall_inv_tail O85) as O86. pose proof (Forall_inv O86) as D7. pose proof (Forall_inv_tail O86) as O87. clear O8 O81 O82 O83 O84 O85 O86 O87. cbn beta in D1, D2, D3, D4, D5, D6, D7.
  cbn [map app]. match goal with |- exists c ob, Ok ?x = _ /\ _ => set (c := x) end. assert (Hlen : List.length (c_fields c) = 59%nat) by reflexivity.
  assert (Xs : 0 <= size (p_x p) * size (p_y p)) by (clear - X5 Y5; nia).
  assert (Hfine : Forall2 fine layout (c_fields c)).
  { unfold c, layout. cbn [c_fields repeat app]. destruct X1 as (X1 & _), X2 as (X2 & _), Y1 as (Y1 & _), Y2 as (Y2 & _), T1 as (T1 & _), T2 as (T2 & _), X3 as (X3 & _), X4 as (X4 & _), Y3 as (Y3 & _), Y4 as (Y4 & _), T3 as (T3 & _), T4 as (T4 & _).
    assert (Csig : chars (if compressed o then str "DSCOMPRESSED" else str "DIGITAL SURF")) by (destruct (compressed o); repeat constructor; vm_compute; congruence).
    assert (Hspec : - 2 ^ 15 <= (if special o then 1 else 0) < 2 ^ 15) by (destruct (special o); lia). assert (Hb : - 2 ^ 15 <= bsize < 2 ^ 15) by (destruct Hw as [[_ ->]|[_ ->]]; lia).
    assert (Hds : 0 <= (if compressed o then zlen data else 0) < 2 ^ 32) by (destruct (compressed o); lia).
    repeat (apply Forall2_cons; [cbn [fine]; first [assumption | lia | cbn; lia]|]). constructor. }
  pose proof (fines_kept _ _ Hfine) as Hkept. set (h := read_fields (c_fields c)). fold (read_fields (c_fields c)) in Hkept. fold h in Hkept.
  assert (Hh5 : int_at h 5 = t) by reflexivity. assert (Hh35 : float_at h 35 = 1%Q) by (change (float_at h 35) with (nearest 1); exact E1).
  destruct (decode_ok h ints Hh35) as [pts Hpts]; [rewrite Hh5; exact Ht|].
  exists c, {| o_fields := h; o_comment := trim comment; o_private := trim (firstn (List.length (private_zone o)) (bytes_repr (private_zone o))); o_points := pts |}. split; [reflexivity|]. split.
  - unfold object_kept. cbn [o_fields o_comment o_private o_points]. split; [exact Hkept|]. split; [reflexivity|]. split; [reflexivity|]. split; [exact O11|]. split; [apply stripped_trim|]. split; [reflexivity|]. split; [exact O4|]. split; [apply stripped_trim|].
    exists ints. split; [|exact Hpts]. exists w. split; [change (int_at h 15) with bsize; exact Hw|]. split; [exact Hr|].
    assert (S1 : str_at h 1 = if compressed o then str "DSCOMPRESSED" else str "DIGITAL SURF") by (change (str_at h 1) with (trim (firstn 12 (if compressed o then str "DSCOMPRESSED" else str "DIGITAL SURF"))); destruct (compressed o); vm_compute; reflexivity).
    rewrite S1. change (int_at h 20) with (size (p_x p) * size (p_y p)). change (int_at h 14) with (wsize p t). change (int_at h 48) with (if compressed o then zlen data else 0). change (c_points c) with data. destruct (compressed o).
    + right. split; [reflexivity|]. split; [reflexivity|]. exists [raw], [zip raw]. split; [exact Edata|]. split; [constructor; [apply Z1|constructor]|]. split; [cbn [List.concat]; rewrite app_nil_r; exact Eraw|]. split; [vm_compute; reflexivity|].
      constructor; [|constructor]. destruct Hw as [[Ew _]|[Ew _]]; rewrite Ew in *; cbn in Lr; lia.
    + left. split; [discriminate|]. split; [congruence|exact Hl].
  - split; [|split; [destruct (compressed o) eqn:Ec; unfold c, str_at, fld; cbn [c_fields Nat.sub nth]; rewrite ?Ec; [left|right]; reflexivity|split; reflexivity]].
    destruct X3 as [_ X3], X4 as [_ X4], Y3 as [_ Y3], Y4 as [_ Y4], T3 as [_ T3], T4 as [_ T4].
    constructor; cbn [o_fields o_points]; try reflexivity; try assumption; try (apply trim_clean; assumption).
Qed.

(** * Several objects *)
Definition item_ok (bad : Z) (o : options) (p : split) (dt : array * Z) : Prop :=
  In (snd dt) obj_types /\ exists bsize zmin zmax scale off ints, norm_data bad (special o) (fst dt) = Ok (bsize, zmin, zmax, scale, off, ints) /\ norm_ok (bsize, zmin, zmax, scale, off, ints) /\
  zlen ints = size (p_x p) * size (p_y p) * Z.max (wsize p (snd dt)) 1.
Definition item_reads (bad : Z) (o : options) (p : split) (dt : array * Z) (ob : object) : Prop :=
  exists bsize zmin zmax scale off ints, norm_data bad (special o) (fst dt) = Ok (bsize, zmin, zmax, scale, off, ints) /\ reads o p (snd dt) zmin scale off ints ob.
Lemma contents_read : forall bad zip unzip o p dts comment, zlib_ok zip unzip -> options_ok o comment -> split_ok p -> Forall (item_ok bad o p) dts ->
  exists cs obs, build_contents bad zip o p comment dts = Ok cs /\ Forall2 (object_kept unzip) cs obs /\ Forall2 (item_reads bad o p) dts obs /\
  Forall (fun c => str_at (c_fields c) 1 = str "DSCOMPRESSED" \/ str_at (c_fields c) 1 = str "DIGITAL SURF") cs /\ Forall (fun c => int_at (c_fields c) 3 = p_objects p /\ int_at (c_fields c) 8 = p_channels p) cs.
Proof.
  intros bad zip unzip o p dts. induction dts as [|[d t] dts IH]; intros comment Hz Ho Hp H; [exists [], []; split; [reflexivity|]; split; [constructor|]; split; [constructor|]; split; constructor|].
  pose proof (Forall_inv H) as (Ht & bsize & zmin & zmax & scale & off & ints & Hn & Hk & Hl). apply Forall_inv_tail in H. cbn [fst snd] in *.
  destruct (work_read bad zip unzip o p comment d t bsize zmin zmax scale off ints Hz Ho Hp Ht Hn Hk Hl) as (c & ob & B & K & R & S & N).
  assert (Ho' : options_ok o []) by (destruct Ho as (O1 & O2 & O3 & O4 & O5 & O6 & O7 & O8 & O9 & O10 & O11 & O12); do 10 (split; [assumption|]); split; [constructor|vm_compute; reflexivity]).
  destruct (IH [] Hz Ho' Hp H) as (cs & obs & B' & K' & R' & S' & N'). exists (c :: cs), (ob :: obs). cbn [build_contents]. rewrite B. cbn [bind]. rewrite B'. split; [reflexivity|]. split; [constructor; assumption|]. split; [|split; constructor; assumption].
  constructor; [|exact R']. exists bsize, zmin, zmax, scale, off, ints. split; assumption.
Qed.
Lemma forall2_len : forall A B (R : A -> B -> Prop) l l', Forall2 R l l' -> List.length l = List.length l'.
Proof. intros A B R l l' H. induction H; cbn; congruence. Qed.
Lemma write_read : forall bad zip unzip o s p comment, zlib_ok zip unzip -> options_ok o comment -> split_signal s = Ok p -> split_ok p -> Forall (item_ok bad o p) (combine (p_data p) (p_types p)) ->
  zlen (combine (p_data p) (p_types p)) = p_objects p * p_channels p ->
  exists f obs, write_sur bad zip o comment s = Ok f /\ read_sur unzip f = Ok obs /\ Forall2 (item_reads bad o p) (combine (p_data p) (p_types p)) obs.
Proof.
  intros bad zip unzip o s p comment Hz Ho Hs Hp Hi Hn. destruct (contents_read bad zip unzip o p _ comment Hz Ho Hp Hi) as (cs & obs & B & K & R & S & N).
  assert (L : zlen cs = zlen (combine (p_data p) (p_types p))) by (clear - K R; unfold zlen; f_equal; apply forall2_len in K; apply forall2_len in R; congruence).
  destruct Hp as (_ & _ & _ & Hp1 & Hp2 & _). destruct cs as [|c cs]; [cbn in L; clear - L Hn Hp1 Hp2; exfalso; rewrite Hn in L; change (zlen []) with 0 in L; nia|].
  pose proof (Forall_inv N) as [N3 N8]. destruct (C73_objects unzip (c :: cs) obs (c_fields c) eq_refl S) as (f & W & Rd); [|exact K|].
  - rewrite L, Hn, N3, N8. rewrite !Z.max_r by lia. reflexivity.
  - exists f, obs. split; [unfold write_sur; rewrite Hs; cbn [bind]; rewrite B; exact W|]. split; assumption.
Qed.

(** * Integers *)
(** The numbers of each type *)
Definition in_type (t : itype) (z : Z) : Prop :=
  match t with TBool => 0 <= z <= 1 | TU8 => 0 <= z < 2 ^ 8 | TI8 => - 2 ^ 7 <= z < 2 ^ 7 | TU16 => 0 <= z < 2 ^ 16 | TI16 => - 2 ^ 15 <= z < 2 ^ 15 | TI32 => - 2 ^ 31 <= z < 2 ^ 31 | TOther => False end.
(** The least number is an exact number of single precision *)
Definition low (l : list Z) : Prop := exists z, In z l /\ Forall (Z.le z) l /\ Z.abs z <= 2 ^ 24.
Lemma minl_spec : forall l x, In (minl x l) (x :: l) /\ Forall (Z.le (minl x l)) (x :: l).
Proof.
  unfold minl. induction l as [|y l IH]; intro x; cbn [fold_left]; [split; [left; reflexivity|repeat constructor; lia]|]. destruct (IH (Z.min x y)) as [I F]. split.
  - destruct I as [I|I]; [|right; right; exact I]. rewrite <- I. destruct (Z.min_spec x y) as [[_ ->] | [_ ->]]; [left|right; left]; reflexivity.
  - pose proof (Forall_inv F) as F1. apply Forall_inv_tail in F. constructor; [lia|]. constructor; [lia|exact F].
Qed.
Lemma maxl_spec : forall l x, In (maxl x l) (x :: l) /\ Forall (fun z => z <= maxl x l) (x :: l).
Proof.
  unfold maxl. induction l as [|y l IH]; intro x; cbn [fold_left]; [split; [left; reflexivity|repeat constructor; lia]|]. destruct (IH (Z.max x y)) as [I F]. split.
  - destruct I as [I|I]; [|right; right; exact I]. rewrite <- I. destruct (Z.max_spec x y) as [[_ ->] | [_ ->]]; [right; left|left]; reflexivity.
  - pose proof (Forall_inv F) as F1. apply Forall_inv_tail in F. cbn beta in F1. constructor; [lia|]. constructor; [lia|exact F].
Qed.
Lemma fits_int : forall z, Z.abs z < 2 ^ 127 -> fits (inject_Z z).
Proof. intros z H. unfold fits. change (Qabs (inject_Z z)) with (inject_Z (Z.abs z)). rewrite <- Zlt_Qlt. exact H. Qed.
Lemma int_norm : forall bad sp t l, l <> [] -> Forall (in_type t) l -> zlen l < 2 ^ 28 -> exists bsize zmin zmax, norm_data bad sp (Ints t l) = Ok (bsize, zmin, zmax, 1%Q, inject_Z zmin, l) /\ norm_ok (bsize, zmin, zmax, 1%Q, inject_Z zmin, l) /\
  Forall (fun z => zmin - 1 <= z) l /\ (low l -> Z.abs zmin <= 2 ^ 24).
Proof.
  intros bad sp t l Hl Hr Hn. destruct l as [|x l]; [congruence|]. clear Hl. pose proof (minl_spec l x) as [Im Fm]. pose proof (maxl_spec l x) as [IM FM]. set (mn := minl x l) in *. set (mx := maxl x l) in *.
  assert (F1 : fits 1) by (apply Qlt_alt; vm_compute; reflexivity). pose proof (proj1 (Forall_forall _ _) Hr mn Im) as Rm. pose proof (proj1 (Forall_forall _ _) Hr mx IM) as RM.
  assert (Hlow : low (x :: l) -> Z.abs mn <= 2 ^ 24). { intros (z & Iz & Fz & Az). pose proof (proj1 (Forall_forall _ _) Fz mn Im). pose proof (proj1 (Forall_forall _ _) Fm z Iz). cbn beta in *. replace mn with z by lia. exact Az. }
  assert (G : t <> TBool -> t <> TOther -> exists zmin zmax, norm_int t sp (x :: l) = Ok (zmin, zmax, 1%Q, inject_Z zmin) /\ - 2 ^ 31 <= zmin < 2 ^ 31 /\ - 2 ^ 31 <= zmax < 2 ^ 31 /\ Forall (fun z => zmin - 1 <= z) (x :: l) /\ (low (x :: l) -> Z.abs zmin <= 2 ^ 24)).
  { intros T1 T2. unfold norm_int. fold mn mx. eexists. eexists. split; [reflexivity|]. split.
    - destruct (sp && existsb (Z.eqb (imin t)) (x :: l)); destruct t; cbn [imin in_type] in *; try lia; congruence.
    - split; [destruct (sp && existsb (Z.eqb (imax t)) (x :: l)); destruct t; cbn [imax in_type] in *; try lia; congruence|]. destruct (sp && existsb (Z.eqb (imin t)) (x :: l)) eqn:E.
      + apply andb_true_iff in E. destruct E as [_ E]. apply existsb_exists in E. destruct E as (z & Iz & Ez). assert (z = imin t) by lia. subst z. split.
        * apply Forall_forall. intros z Hz. pose proof (proj1 (Forall_forall _ _) Hr z Hz) as R. destruct t; cbn [imin in_type] in *; try lia; congruence.
        * intro Hlo. specialize (Hlow Hlo). assert (Em : mn = imin t) by (pose proof (proj1 (Forall_forall _ _) Fm (imin t) Iz) as A; destruct t; cbn [imin in_type] in *; try lia; congruence). destruct t; cbn [imin] in *; lia.
      + split; [|exact Hlow]. eapply Forall_impl; [|exact Fm]. cbn beta. intros; lia. }
  assert (K : forall zmin, - 2 ^ 31 <= zmin < 2 ^ 31 -> fits (inject_Z zmin)) by (intros zmin Hz; apply fits_int; lia).
  destruct t; try (destruct (G ltac:(discriminate) ltac:(discriminate)) as (zmin & zmax & Hn' & R1 & R2 & R3 & R4)); cbn [norm_data]; try rewrite Hn'; cbn [bind];
    [exists 16, 0, 1|exists 16, zmin, zmax|exists 16, zmin, zmax|exists 32, zmin, zmax|exists 16, zmin, zmax|exists 32, zmin, zmax|cbn [in_type] in Rm; contradiction].
  - split; [reflexivity|]. split; [|split; [eapply Forall_impl; [|exact Hr]; cbn [in_type]; intros; lia|intro; lia]]. repeat split; try lia; try exact F1; try (apply Qlt_alt; vm_compute; reflexivity). left. split; [reflexivity|]. eapply Forall_impl; [|exact Hr]. cbn [in_type]. intros; lia.
  - split; [reflexivity|]. split; [|split; assumption]. repeat split; try lia; try exact F1; try (apply K; lia). left. split; [reflexivity|]. eapply Forall_impl; [|exact Hr]. cbn [in_type]. intros; lia.
  - split; [reflexivity|]. split; [|split; assumption]. repeat split; try lia; try exact F1; try (apply K; lia). left. split; [reflexivity|]. eapply Forall_impl; [|exact Hr]. cbn [in_type]. intros; lia.
  - split; [reflexivity|]. split; [|split; assumption]. repeat split; try lia; try exact F1; try (apply K; lia). right. split; [reflexivity|]. eapply Forall_impl; [|exact Hr]. cbn [in_type]. intros; lia.
  - split; [reflexivity|]. split; [|split; assumption]. repeat split; try lia; try exact F1; try (apply K; lia). left. split; [reflexivity|]. eapply Forall_impl; [|exact Hr]. cbn [in_type]. intros; lia.
  - split; [reflexivity|]. split; [|split; assumption]. repeat split; try lia; try exact F1; try (apply K; lia). right. split; [reflexivity|]. eapply Forall_impl; [|exact Hr]. cbn [in_type]. intros; lia.
Qed.
Lemma scaled_int : forall zmin z, scaled zmin 1 (inject_Z zmin) z = inject_Z z.
Proof. intros zmin z. unfold scaled. rewrite <- (Qred_int z). apply Qred_complete. rewrite Qmult_1_r, <- inject_Z_plus. replace (z - zmin + zmin) with z by lia. reflexivity. Qed.
Lemma round_int : forall z, round_q (inject_Z z) = z.
Proof. intro z. unfold round_q. cbn [Qnum Qden inject_Z]. rewrite <- (Z.mul_1_r z) at 1. apply round_div_exact. lia. Qed.
Lemma nearest_low : forall z, Z.abs z <= 2 ^ 24 -> nearest (inject_Z z) = inject_Z z.
Proof. intros z H. destruct (single_nearest _ (int_single z H)) as [_ E]. rewrite E. apply Qred_int. Qed.
Definition raw_types : list Z := [2; 5; 3].
Definition round_types : list Z := [10; 12; 18].
Definition float_types : list Z := [1; 4; 20; 21].
Lemma int_points : forall o p t zmin l ob, reads o p t zmin 1 (inject_Z zmin) l ob -> Forall (fun z => zmin - 1 <= z) l -> (Z.abs zmin <= 2 ^ 24 \/ In t raw_types) ->
  (In t raw_types \/ In t round_types -> o_points ob = map PI l) /\ (In t float_types -> o_points ob = map (fun z => PF (inject_Z z)) l).
Proof.
  intros o p t zmin l ob R Hm Hz. pose proof (rd_points _ _ _ _ _ _ _ _ R) as D. unfold decode_points in D.
  rewrite (rd_ratio _ _ _ _ _ _ _ _ R), (rd_scale _ _ _ _ _ _ _ _ R), (rd_off _ _ _ _ _ _ _ _ R), (rd_type _ _ _ _ _ _ _ _ R), (rd_zmin _ _ _ _ _ _ _ _ R), (rd_special _ _ _ _ _ _ _ _ R) in D.
  change (Qnum 1 =? 0) with false in D. cbn iota in D. replace (Qred (nearest 1 / 1)) with 1%Q in D by (vm_compute; reflexivity). change (is_integer 1) with true in D.
  assert (Hint : is_integer (nearest (inject_Z zmin)) = true) by (destruct (nearest_int zmin) as [k ->]; unfold is_integer; cbn [Qnum Qden inject_Z]; rewrite Z.mod_1_r; reflexivity). rewrite Hint in D. rewrite !andb_true_r in D.
  assert (Hlow : ~ In t raw_types -> nearest (inject_Z zmin) = inject_Z zmin) by (intro N; destruct Hz as [Hz|Hz]; [apply nearest_low; exact Hz|contradiction]).
  split; intro Ht.
  - destruct Ht as [Ht|Ht]; cbn [raw_types round_types In] in Ht.
    + destruct Ht as [<- | [<- | [<- | []]]]; cbn in D; congruence.
    + assert (En : nearest (inject_Z zmin) = inject_Z zmin) by (apply Hlow; intro X; cbn [raw_types In] in X; lia). rewrite En in D.
      assert (Em : map (fun z => PI (round_q (scaled zmin 1 (inject_Z zmin) z))) l = map PI l) by (apply map_ext; intro z; rewrite scaled_int, round_int; reflexivity). rewrite Em in D.
      destruct Ht as [<- | [<- | [<- | []]]]; cbn in D; congruence.
  - assert (En : nearest (inject_Z zmin) = inject_Z zmin) by (apply Hlow; intro X; cbn [raw_types float_types In] in X, Ht; lia). rewrite En in D.
    assert (Em : map (fun z => if ((if special o then 1 else 0) =? 1) && (z =? zmin - 2) then PN else PF (scaled zmin 1 (inject_Z zmin) z)) l = map (fun z => PF (inject_Z z)) l).
    { apply map_ext_in. intros z Iz. pose proof (proj1 (Forall_forall _ _) Hm z Iz) as A. cbn beta in A. assert (E : (z =? zmin - 2) = false) by lia. rewrite E, andb_false_r, scaled_int. reflexivity. }
    rewrite Em in D. cbn [float_types In] in Ht. destruct Ht as [<- | [<- | [<- | [<- | []]]]]; cbn in D; congruence.
Qed.

(** * Signals *)
Lemma int_item : forall bad o p t l ty, l <> [] -> Forall (in_type t) l -> zlen l < 2 ^ 28 -> zlen l = size (p_x p) * size (p_y p) * Z.max (wsize p ty) 1 -> In ty obj_types -> item_ok bad o p (Ints t l, ty).
Proof.
  intros bad o p t l ty H1 H2 H3 H4 H5. destruct (int_norm bad (special o) t l H1 H2 H3) as (bsize & zmin & zmax & N & K & _). split; [exact H5|]. exists bsize, zmin, zmax, 1%Q, (inject_Z zmin), l. split; [exact N|]. split; [exact K|exact H4].
Qed.
Lemma int_item_reads : forall bad o p t l ty ob, l <> [] -> Forall (in_type t) l -> zlen l < 2 ^ 28 -> item_reads bad o p (Ints t l, ty) ob -> (low l \/ In ty raw_types) ->
  exists zmin, reads o p ty zmin 1 (inject_Z zmin) l ob /\ (In ty raw_types \/ In ty round_types -> o_points ob = map PI l) /\ (In ty float_types -> o_points ob = map (fun z => PF (inject_Z z)) l).
Proof.
  intros bad o p t l ty ob H1 H2 H3 (b & zm & zx & sc & of & ints & N & R) H. destruct (int_norm bad (special o) t l H1 H2 H3) as (bsize & zmin & zmax & N' & K & M & L). cbn [fst snd] in *.
  assert (E : (b, zm, zx, sc, of, ints) = (bsize, zmin, zmax, 1%Q, inject_Z zmin, l)) by congruence. inversion E; subst. exists zmin. split; [exact R|]. apply (int_points o p ty zmin l ob R M). destruct H as [H|H]; [left; apply L; exact H|right; exact H].
Qed.
Lemma nonempty : forall A (l : list A), 0 < zlen l -> l <> [].
Proof. intros A l H E. subst l. cbn in H. lia. Qed.
Lemma zlen_map : forall A B (g : A -> B) l, zlen (map g l) = zlen l.
Proof. intros. unfold zlen. rewrite map_length. reflexivity. Qed.
Lemma reshape_ok : forall sh l, prodZ sh = zlen l -> Forall (fun n => 0 < n) sh -> reshape sh l = Ok l.
Proof.
  intros sh l H F. unfold reshape. assert (E1 : (prodZ sh =? zlen l) = true) by lia. assert (E2 : forallb (fun n => 0 <=? n) sh = true) by (apply forallb_forall; intros n Hn; pose proof (proj1 (Forall_forall _ _) F n Hn) as X; cbn beta in X; lia). rewrite E1, E2. reflexivity.
Qed.
Lemma stack_ok : forall sh os, Forall (fun ob => prodZ sh = zlen (o_points ob)) os -> Forall (fun n => 0 < n) sh -> stack sh os = Ok (List.concat (map o_points os)).
Proof.
  intros sh os H F. unfold stack. assert (E : mapM (fun ob => reshape sh (o_points ob)) os = Ok (map o_points os)). { induction H as [|ob os H1 H2 IH]; [reflexivity|]. cbn [mapM map]. rewrite reshape_ok by assumption. cbn [bind]. rewrite IH. reflexivity. }
  rewrite E. reflexivity.
Qed.
Lemma along_first : forall A n sh (l : list A), zlen l = n * prodZ sh -> 0 <= n -> 0 <= prodZ sh -> along 0 (n :: sh) l = records (Z.to_nat n) (Z.to_nat (prodZ sh)) l.
Proof.
  intros A n sh l Hl Hn Hp. unfold along. cbn [firstn skipn nth]. change (Z.to_nat (prodZ [])) with 1%nat. cbn [seq map List.concat Nat.mul Nat.add]. set (k := Z.to_nat n). set (m := Z.to_nat (prodZ sh)). 
  apply nth_ext with (d := []) (d' := []); [rewrite map_length, seq_length, records_length; reflexivity|]. intros i Hi. rewrite map_length, seq_length in Hi.
  rewrite (nth_indep _ [] (slice ((k + 0) * m) m l ++ [])) by (rewrite map_length, seq_length; exact Hi).
  erewrite (nth_error_nth (records k m l)) by (apply nth_records; exact Hi).
  erewrite nth_error_nth; [reflexivity|]. rewrite nth_error_map. rewrite (nth_error_nth' (seq 0 k) 0%nat) by (rewrite seq_length; exact Hi). rewrite seq_nth by exact Hi. cbn [option_map Nat.add]. rewrite app_nil_r. reflexivity.
Qed.

Section Signals.
  Variable bad : Z.
  Variable zip : list Z -> list Z.
  Variable unzip : list Z -> res (list Z).
  Variable o : options.
  Variable comment : pystr.
  Hypothesis Hz : zlib_ok zip unzip.
  Hypothesis Ho : options_ok o comment.
  (** A signal is written, and [r] is read *)
  Definition returns (s : signal) (r : result) : Prop := exists f, write_sur bad zip o comment s = Ok f /\ load_sur unzip f = Ok r.

  Lemma xax_read : forall p t zmin sc of l ob x, reads o p t zmin sc of l ob -> p_x p = Some x -> forall nav, xax nav (o_fields ob) = {| a_name := a_name x; a_units := a_units x; a_size := a_size x; a_scale := a_scale x; a_offset := a_offset x; a_nav := nav |}.
  Proof. intros p t zmin sc of l ob x R E nav. unfold xax. rewrite (rd_xn _ _ _ _ _ _ _ _ R), (rd_xu _ _ _ _ _ _ _ _ R), (rd_x _ _ _ _ _ _ _ _ R), (rd_xs _ _ _ _ _ _ _ _ R), (rd_xo _ _ _ _ _ _ _ _ R), E. reflexivity. Qed.
  Lemma yax_read : forall p t zmin sc of l ob y, reads o p t zmin sc of l ob -> p_y p = Some y -> forall nav, yax nav (o_fields ob) = {| a_name := a_name y; a_units := a_units y; a_size := a_size y; a_scale := a_scale y; a_offset := a_offset y; a_nav := nav |}.
  Proof. intros p t zmin sc of l ob y R E nav. unfold yax. rewrite (rd_yn _ _ _ _ _ _ _ _ R), (rd_yu _ _ _ _ _ _ _ _ R), (rd_y _ _ _ _ _ _ _ _ R), (rd_ys _ _ _ _ _ _ _ _ R), (rd_yo _ _ _ _ _ _ _ _ R), E. reflexivity. Qed.
  Lemma tax_read : forall p t zmin sc of l ob a, reads o p t zmin sc of l ob -> p_t p = Some a -> ~ (a_scale a == 0)%Q -> forall n nav, tax n nav (o_fields ob) = {| a_name := a_name a; a_units := a_units a; a_size := int_at (o_fields ob) n; a_scale := a_scale a; a_offset := a_offset a; a_nav := nav |}.
  Proof.
    intros p t zmin sc of l ob a R E H n nav. unfold tax. rewrite (rd_tn _ _ _ _ _ _ _ _ R), (rd_tu _ _ _ _ _ _ _ _ R), (rd_ts _ _ _ _ _ _ _ _ R), (rd_to _ _ _ _ _ _ _ _ R), E. cbn [nx ux sx ox axis_or].
    assert (X : (Qnum (a_scale a) =? 0) = false) by (destruct (Qnum (a_scale a) =? 0) eqn:X; [|reflexivity]; exfalso; apply H; unfold Qeq; cbn; lia). rewrite X. reflexivity.
  Qed.
  Lemma axis_eta : forall a nav, a_nav a = nav -> {| a_name := a_name a; a_units := a_units a; a_size := a_size a; a_scale := a_scale a; a_offset := a_offset a; a_nav := nav |} = a.
  Proof. intros a nav <-. destruct a; reflexivity. Qed.

  Lemma single_read : forall s x y ta t l ty, split_signal s = Ok (one ty x y ta (Ints t l)) -> opt_ok 16 x -> opt_ok 16 y -> opt_ok 13 ta -> size x * size y < 2 ^ 31 -> In ty obj_types ->
    Forall (in_type t) l -> zlen l < 2 ^ 28 -> zlen l = size x * size y * Z.max (if ty =? 21 then axis_or a_size 0 ta else 0) 1 -> (low l \/ In ty raw_types) ->
    exists f ob zmin, write_sur bad zip o comment s = Ok f /\ read_sur unzip f = Ok [ob] /\ reads o (one ty x y ta (Ints t l)) ty zmin 1 (inject_Z zmin) l ob /\
    (In ty raw_types \/ In ty round_types -> o_points ob = map PI l) /\ (In ty float_types -> o_points ob = map (fun z => PF (inject_Z z)) l).
  Proof.
    intros s x y ta t l ty Hs Hx Hy Ht Hxy Hty Hr Hn Hl Hlow. set (p := one ty x y ta (Ints t l)) in *. destruct (opt_text _ _ Hx) as (_ & _ & _ & _ & Sx). destruct (opt_text _ _ Hy) as (_ & _ & _ & _ & Sy).
    assert (Hne : l <> []) by (apply nonempty; rewrite Hl; set (m := Z.max _ 1); assert (1 <= m) by lia; clearbody m; clear - Sx Sy H; nia).
    destruct (write_read bad zip unzip o s p comment Hz Ho Hs) as (f & obs & W & R & I).
    - unfold split_ok. change (p_x p) with x. change (p_y p) with y. change (p_t p) with ta. change (p_objects p) with 1. change (p_channels p) with 1. repeat (split; [assumption || lia|]). exact Hxy.
    - change (combine (p_data p) (p_types p)) with [(Ints t l, ty)]. constructor; [|constructor]. apply int_item; assumption.
    - reflexivity.
    - change (combine (p_data p) (p_types p)) with [(Ints t l, ty)] in I. inversion I as [|? ob ? obs' I1 I2]; subst. inversion I2; subst.
      destruct (int_item_reads _ _ _ _ _ _ _ Hne Hr Hn I1 Hlow) as (zmin & Rd & P1 & P2). exists f, ob, zmin. repeat (split; [assumption|]). assumption.
  Qed.
  Ltac fin := lazymatch goal with |- returns _ _ => idtac | |- In _ _ => vm_compute; tauto | |- _ \/ _ => left; assumption | |- _ => cbn [size axis_or Z.eqb Pos.eqb]; rewrite ?Z.max_l by lia; lia end.
  (** Images of integers and booleans *)
  Theorem C74_surface : forall y x t l, axis_ok 16 y -> axis_ok 16 x -> a_nav y = false -> a_nav x = false -> Forall (in_type t) l -> zlen l = a_size y * a_size x -> zlen l < 2 ^ 28 ->
    returns {| s_axes := [y; x]; s_data := Ints t l |} {| r_axes := [(y, 0); (x, 1)]; r_shape := [a_size y; a_size x]; r_data := map PI l |}.
  Proof.
    intros y x t l Hy Hx Ny Nx Hr Hl Hn. pose proof Hy as (_ & _ & Sy & _). pose proof Hx as (_ & _ & Sx & _). set (ty := match t with TBool => 3 | _ => 2 end).
    assert (Hs : split_signal {| s_axes := [y; x]; s_data := Ints t l |} = Ok (one ty (Some x) (Some y) None (Ints t l))) by (unfold split_signal; cbn [s_axes s_data filter]; rewrite Ny, Nx; cbn [negb]; unfold ty; destruct t; reflexivity).
    assert (Ht : In ty raw_types /\ In ty obj_types /\ (ty =? 21) = false) by (unfold ty; destruct t; vm_compute; tauto). destruct Ht as (Ht & Ht' & Hw).
    destruct (single_read _ _ _ _ _ _ _ Hs Hx Hy I) as (f & ob & zmin & W & R & Rd & P & _); try assumption; try (cbn [size axis_or]; rewrite ?Hw; lia); [right; exact Ht|].
    exists f. split; [exact W|]. unfold load_sur. rewrite R. cbn [bind]. unfold build_sur.
    rewrite (rd_type _ _ _ _ _ _ _ _ Rd), (rd_x _ _ _ _ _ _ _ _ Rd), (rd_y _ _ _ _ _ _ _ _ Rd), (P ltac:(left; exact Ht)). rewrite (xax_read _ _ _ _ _ _ _ x Rd eq_refl false), (yax_read _ _ _ _ _ _ _ y Rd eq_refl false), (axis_eta x false Nx), (axis_eta y false Ny).
    cbn [p_x p_y one size axis_or]. assert (Er : reshape [a_size y; a_size x] (map PI l) = Ok (map PI l)) by (apply reshape_ok; [rewrite zlen_map, Hl; unfold prodZ; cbn [fold_right]; ring|repeat constructor; lia]). rewrite Er. unfold ty. destruct t; reflexivity.
  Qed.
  (** Profiles *)
  Theorem C74_profile : forall x t l, axis_ok 16 x -> a_nav x = false -> ~ In (a_name x) [str "Wavelength"; str "Energy"; str "Energy Loss"; str "E"] -> Forall (in_type t) l -> zlen l = a_size x -> zlen l < 2 ^ 28 -> low l ->
    returns {| s_axes := [x]; s_data := Ints t l |} {| r_axes := [(x, 0)]; r_shape := [a_size x]; r_data := map (fun z => PF (inject_Z z)) l |}.
  Proof.
    intros x t l Hx Nx Hname Hr Hl Hn Hlow. pose proof Hx as (_ & _ & Sx & _).
    assert (Hs : split_signal {| s_axes := [x]; s_data := Ints t l |} = Ok (one 1 (Some x) None None (Ints t l))).
    { unfold split_signal. cbn [s_axes s_data filter]. rewrite Nx. cbn [negb]. unfold is_spectrum. cbn [existsb]. rewrite orb_false_r. fold (existsb (eqb_str (a_name x)) spectrum_names).
      destruct (existsb (eqb_str (a_name x)) spectrum_names) eqn:E; [|reflexivity]. apply existsb_exists in E. destruct E as (n & In' & E). apply eqb_str_spec in E. subst n. contradiction. }
    destruct (single_read _ _ _ _ _ _ _ Hs Hx I I) as (f & ob & zmin & W & R & Rd & _ & P); try assumption; fin.
    exists f. split; [exact W|]. unfold load_sur. rewrite R. cbn [bind]. unfold build_sur.
    rewrite (rd_type _ _ _ _ _ _ _ _ Rd), (P ltac:(cbn; tauto)). rewrite (xax_read _ _ _ _ _ _ _ x Rd eq_refl false), (axis_eta x false Nx). cbn [Z.eqb Pos.eqb]. rewrite zlen_map, Hl. reflexivity.
  Qed.
  Lemma spectrum_true : forall x axes, In x axes -> In (a_name x) [str "Wavelength"; str "Energy"; str "Energy Loss"; str "E"] -> is_spectrum axes = true.
  Proof. intros x axes Hx H. unfold is_spectrum. apply existsb_exists. exists x. split; [exact Hx|]. apply existsb_exists. exists (a_name x). split; [exact H|]. apply eqb_str_spec. reflexivity. Qed.
  (** Spectra *)
  Theorem C74_spectrum : forall x t l, axis_ok 16 x -> a_nav x = false -> In (a_name x) [str "Wavelength"; str "Energy"; str "Energy Loss"; str "E"] -> Forall (in_type t) l -> zlen l = a_size x -> 1 < zlen l < 2 ^ 28 -> low l ->
    returns {| s_axes := [x]; s_data := Ints t l |} {| r_axes := [(x, 1)]; r_shape := [a_size x]; r_data := map (fun z => PF (inject_Z z)) l |}.
  Proof.
    intros x t l Hx Nx Hname Hr Hl Hn Hlow. pose proof Hx as (_ & _ & Sx & _).
    assert (Hs : split_signal {| s_axes := [x]; s_data := Ints t l |} = Ok (one 20 (Some x) None None (Ints t l))) by (unfold split_signal; cbn [s_axes s_data filter]; rewrite Nx; cbn [negb]; rewrite (spectrum_true x) by (try exact Hname; left; reflexivity); reflexivity).
    destruct (single_read _ _ _ _ _ _ _ Hs Hx I I) as (f & ob & zmin & W & R & Rd & _ & P); try assumption; fin.
    exists f. split; [exact W|]. unfold load_sur. rewrite R. cbn [bind]. unfold build_sur.
    rewrite (rd_type _ _ _ _ _ _ _ _ Rd), (rd_x _ _ _ _ _ _ _ _ Rd), (rd_y _ _ _ _ _ _ _ _ Rd), (P ltac:(cbn; tauto)). rewrite (xax_read _ _ _ _ _ _ _ x Rd eq_refl false), (axis_eta x false Nx). cbn [Z.eqb Pos.eqb p_x p_y one size axis_or].
    rewrite reshape_ok; [|rewrite zlen_map, Hl; unfold prodZ; cbn [fold_right]; ring|repeat constructor; lia]. cbn [bind app filter Z.eqb Pos.eqb negb]. assert (E : (a_size x =? 1) = false) by lia. rewrite E. reflexivity.
  Qed.
  Theorem C74_spectra : forall y x t l, axis_ok 16 y -> axis_ok 16 x -> a_nav y = true -> a_nav x = false -> In (a_name x) [str "Wavelength"; str "Energy"; str "Energy Loss"; str "E"] -> Forall (in_type t) l ->
    zlen l = a_size y * a_size x -> zlen l < 2 ^ 28 -> 1 < a_size y -> 1 < a_size x -> low l ->
    returns {| s_axes := [y; x]; s_data := Ints t l |} {| r_axes := [(y, 0); (x, 1)]; r_shape := [a_size y; a_size x]; r_data := map (fun z => PF (inject_Z z)) l |}.
  Proof.
    intros y x t l Hy Hx Ny Nx Hname Hr Hl Hn H1 H2 Hlow. pose proof Hx as (_ & _ & Sx & _). pose proof Hy as (_ & _ & Sy & _).
    assert (Hs : split_signal {| s_axes := [y; x]; s_data := Ints t l |} = Ok (one 20 (Some x) (Some y) None (Ints t l))) by (unfold split_signal; cbn [s_axes s_data filter]; rewrite Nx, Ny; cbn [negb]; rewrite (spectrum_true x) by (try exact Hname; right; left; reflexivity); reflexivity).
    destruct (single_read _ _ _ _ _ _ _ Hs Hx Hy I) as (f & ob & zmin & W & R & Rd & _ & P); try assumption; fin.
    exists f. split; [exact W|]. unfold load_sur. rewrite R. cbn [bind]. unfold build_sur.
    rewrite (rd_type _ _ _ _ _ _ _ _ Rd), (rd_x _ _ _ _ _ _ _ _ Rd), (rd_y _ _ _ _ _ _ _ _ Rd), (P ltac:(cbn; tauto)). rewrite (xax_read _ _ _ _ _ _ _ x Rd eq_refl false), (yax_read _ _ _ _ _ _ _ y Rd eq_refl true), (axis_eta x false Nx), (axis_eta y true Ny). cbn [Z.eqb Pos.eqb p_x p_y one size axis_or].
    rewrite reshape_ok; [|rewrite zlen_map, Hl; unfold prodZ; cbn [fold_right]; ring|repeat constructor; lia]. cbn [bind filter]. assert (E : (a_size x =? 1) = false) by lia. assert (E' : (a_size y =? 1) = false) by lia. rewrite E, E'. reflexivity.
  Qed.
  (** Maps of spectra *)
  Theorem C74_map : forall y x w t l, axis_ok 16 y -> axis_ok 16 x -> axis_ok 13 w -> a_nav y = true -> a_nav x = true -> a_nav w = false -> ~ (a_scale w == 0)%Q -> Forall (in_type t) l ->
    zlen l = a_size y * a_size x * a_size w -> zlen l < 2 ^ 28 -> low l ->
    returns {| s_axes := [y; x; w]; s_data := Ints t l |} {| r_axes := [(y, 0); (x, 1); (w, 2)]; r_shape := [a_size y; a_size x; a_size w]; r_data := map (fun z => PF (inject_Z z)) l |}.
  Proof.
    intros y x w t l Hy Hx Hw Ny Nx Nw Hsc Hr Hl Hn Hlow. pose proof Hx as (_ & _ & Sx & _). pose proof Hy as (_ & _ & Sy & _). pose proof Hw as (_ & _ & Sw & _).
    assert (Hs : split_signal {| s_axes := [y; x; w]; s_data := Ints t l |} = Ok (one 21 (Some x) (Some y) (Some w) (Ints t l))) by (unfold split_signal; cbn [s_axes s_data filter]; rewrite Nx, Ny, Nw; cbn [negb]; destruct t; reflexivity).
    assert (Hxy : a_size x * a_size y < 2 ^ 31) by (clear - Hl Hn Sx Sy Sw; nia).
    destruct (single_read _ _ _ _ _ _ _ Hs Hx Hy Hw) as (f & ob & zmin & W & R & Rd & _ & P); try assumption; fin.
    exists f. split; [exact W|]. unfold load_sur. rewrite R. cbn [bind]. unfold build_sur.
    rewrite (rd_type _ _ _ _ _ _ _ _ Rd), (rd_x _ _ _ _ _ _ _ _ Rd), (rd_y _ _ _ _ _ _ _ _ Rd), (P ltac:(cbn; tauto)). rewrite (xax_read _ _ _ _ _ _ _ x Rd eq_refl true), (yax_read _ _ _ _ _ _ _ y Rd eq_refl true), (tax_read _ _ _ _ _ _ _ w Rd eq_refl Hsc 14%nat false), (rd_w _ _ _ _ _ _ _ _ Rd), (axis_eta x true Nx), (axis_eta y true Ny).
    change (wsize (one 21 (Some x) (Some y) (Some w) (Ints t l)) 21) with (a_size w). rewrite (axis_eta w false Nw). cbn [Z.eqb Pos.eqb p_x p_y one size axis_or app].
    rewrite reshape_ok; [|rewrite zlen_map, Hl; unfold prodZ; cbn [fold_right]; ring|repeat constructor; lia]. reflexivity.
  Qed.

  (** Series *)
  Definition row_ok (p : split) (t : itype) (l : list Z) : Prop := l <> [] /\ Forall (in_type t) l /\ zlen l < 2 ^ 28 /\ zlen l = size (p_x p) * size (p_y p).
  Lemma rows_item : forall p t rows types, Forall (row_ok p t) rows -> Forall (fun ty => In ty obj_types /\ ty <> 21) types -> Forall (item_ok bad o p) (combine (map (Ints t) rows) types).
  Proof.
    intros p t rows. induction rows as [|l rows IH]; intros types Hr Ht; [constructor|]. destruct types as [|ty types]; [constructor|]. cbn [map combine]. pose proof (Forall_inv Hr) as (R1 & R2 & R3 & R4). pose proof (Forall_inv Ht) as [T1 T2].
    constructor; [|apply IH; [exact (Forall_inv_tail Hr)|exact (Forall_inv_tail Ht)]]. apply int_item; try assumption. unfold wsize. assert (E : (ty =? 21) = false) by lia. rewrite E. change (Z.max 0 1) with 1. lia.
  Qed.
  Lemma rows_read : forall p t g (types' : list Z) rows types obs, Forall (row_ok p t) rows -> List.length rows = List.length types -> Forall (fun ty => In ty types') types ->
    (types' = raw_types /\ g = PI \/ Forall low rows /\ (types' = round_types /\ g = PI \/ types' = float_types /\ g = (fun z => PF (inject_Z z)))) -> Forall2 (item_reads bad o p) (combine (map (Ints t) rows) types) obs -> map o_points obs = map (map g) rows.
  Proof.
    intros p t g types' rows. induction rows as [|l rows IH]; intros types obs Hr Hl Ht Hg H; [cbn in H; inversion H; reflexivity|]. destruct types as [|ty types]; [discriminate|]. cbn [map combine] in H. inversion H as [|? ob ? obs' H1 H2]; subst.
    pose proof (Forall_inv Hr) as (R1 & R2 & R3 & R4). pose proof (Forall_inv Ht) as T1. cbn [map]. f_equal; [|apply (IH types); [exact (Forall_inv_tail Hr)|cbn in Hl; lia|exact (Forall_inv_tail Ht)| |exact H2]].
    - destruct Hg as [[E1 E2]|[Hlow [[E1 E2]|[E1 E2]]]]; subst types' g.
      + destruct (int_item_reads _ _ _ _ _ _ _ R1 R2 R3 H1 ltac:(right; exact T1)) as (zmin & _ & P & _). apply P. left. exact T1.
      + destruct (int_item_reads _ _ _ _ _ _ _ R1 R2 R3 H1 ltac:(left; exact (Forall_inv Hlow))) as (zmin & _ & P & _). apply P. right. exact T1.
      + destruct (int_item_reads _ _ _ _ _ _ _ R1 R2 R3 H1 ltac:(left; exact (Forall_inv Hlow))) as (zmin & _ & _ & P). apply P. exact T1.
    - destruct Hg as [Hg|[Hlow Hg]]; [left; exact Hg|right; split; [exact (Forall_inv_tail Hlow)|exact Hg]].
  Qed.
  Lemma series_read : forall s p t rows types' g, split_signal s = Ok p -> split_ok p -> p_data p = map (Ints t) rows -> List.length (p_types p) = List.length rows -> zlen rows = p_objects p * p_channels p ->
    Forall (row_ok p t) rows -> Forall (fun ty => In ty types') (p_types p) ->
    (types' = raw_types /\ g = PI \/ Forall low rows /\ (types' = round_types /\ g = PI \/ types' = float_types /\ g = (fun z => PF (inject_Z z)))) -> ~ In 21 (p_types p) ->
    exists f ob obs zmin scale off ints, write_sur bad zip o comment s = Ok f /\ read_sur unzip f = Ok (ob :: obs) /\ map o_points (ob :: obs) = map (map g) rows /\ reads o p (hd 0 (p_types p)) zmin scale off ints ob.
  Proof.
    intros s p t rows types' g Hs Hp Hd Hl Hn Hr Ht Hg H21. destruct (write_read bad zip unzip o s p comment Hz Ho Hs Hp) as (f & obs & W & R & I).
    - rewrite Hd. apply rows_item; [exact Hr|]. apply Forall_forall. intros ty Hty. split; [|intros ->; contradiction]. pose proof (proj1 (Forall_forall _ _) Ht ty Hty) as X. cbn beta in X.
      destruct Hg as [[-> _]|[_ [[-> _]|[-> _]]]]; cbn [raw_types round_types float_types In] in X; vm_compute; tauto.
    - rewrite Hd, <- Hn. unfold zlen. rewrite combine_length, map_length, Hl. lia.
    - rewrite Hd in I. pose proof (rows_read p t g types' rows (p_types p) obs Hr (eq_sym Hl) Ht Hg I) as Hpts. destruct Hp as (_ & _ & _ & Hp1 & Hp2 & _).
      destruct rows as [|l rows]; [exfalso; change (zlen []) with 0 in Hn; clear - Hn Hp1 Hp2; nia|]. destruct (p_types p) as [|ty types]; [discriminate|]. cbn [map combine] in I. inversion I as [|? ob ? obs' I1 I2]; subst.
      destruct I1 as (bsize & zmin & zmax & scale & off & ints & _ & Rd). exists f, ob, obs', zmin, scale, off, ints. cbn [hd]. repeat (split; [assumption|]). exact Rd.
  Qed.
  Lemma concat_map_map : forall A B (g : A -> B) ls, List.concat (map (map g) ls) = map g (List.concat ls).
  Proof. intros A B g ls. induction ls as [|l ls IH]; [reflexivity|]. cbn [map List.concat]. rewrite map_app, IH. reflexivity. Qed.
  Lemma rows_ok : forall p t n m l, Forall (in_type t) l -> zlen l = n * m -> 0 < n -> 0 < m -> zlen l < 2 ^ 28 -> m = size (p_x p) * size (p_y p) ->
    let rows := records (Z.to_nat n) (Z.to_nat m) l in Forall (row_ok p t) rows /\ zlen rows = n /\ List.concat rows = l /\ Forall (fun r => zlen r = m) rows.
  Proof.
    intros p t n m l Hr Hl Hn Hm Hs He rows. assert (Hlen : List.length l = (Z.to_nat n * Z.to_nat m)%nat) by (unfold zlen in Hl; clear - Hl Hn Hm; nia).
    assert (Hc : List.concat rows = l) by (unfold rows; rewrite records_flat by lia; rewrite <- Hlen; apply firstn_all). assert (Hb : Forall (fun r => List.length r = Z.to_nat m) rows) by (apply records_each; lia).
    split; [|split; [unfold rows, zlen; rewrite records_length; lia|split; [exact Hc|eapply Forall_impl; [|exact Hb]; cbn beta; intros r E; unfold zlen; lia]]].
    apply Forall_forall. intros r Ir. pose proof (proj1 (Forall_forall _ _) Hb r Ir) as Lr. cbn beta in Lr. assert (Er : zlen r = m) by (unfold zlen; lia). split; [apply nonempty; lia|]. split; [|split; [clear - Er Hl Hn Hm Hs; nia|congruence]].
    apply Forall_forall. intros z Iz. apply (proj1 (Forall_forall _ _) Hr). rewrite <- Hc. apply in_concat. exists r. split; assumption.
  Qed.
  (** Series of images: the series is the first axis *)
  Theorem C74_surfaces : forall a y x t l, axis_ok 13 a -> axis_ok 16 y -> axis_ok 16 x -> a_nav a = true -> a_nav y = false -> a_nav x = false -> ~ (a_scale a == 0)%Q -> Forall (in_type t) l ->
    zlen l = a_size a * (a_size y * a_size x) -> zlen l < 2 ^ 28 -> a_size a < 2 ^ 16 ->
    returns {| s_axes := [a; y; x]; s_data := Ints t l |} {| r_axes := [(a, 0); (y, 1); (x, 2)]; r_shape := [a_size a; a_size y; a_size x]; r_data := map PI l |}.
  Proof.
    intros a y x t l Ha Hy Hx Na Ny Nx Hsc Hr Hl Hn Hsz. pose proof Hx as (_ & _ & Sx & _). pose proof Hy as (_ & _ & Sy & _). pose proof Ha as (_ & _ & Sa & _).
    set (m := a_size y * a_size x) in *. assert (Hm : 0 < m) by (clear - Sx Sy; unfold m; nia). set (rows := records (Z.to_nat (a_size a)) (Z.to_nat m) l).
    assert (Hal : along 0 [a_size a; a_size y; a_size x] l = rows) by (rewrite along_first; unfold prodZ; cbn [fold_right]; rewrite ?Z.mul_1_r; fold m; [reflexivity|exact Hl|lia|lia]).
    set (p := {| p_x := Some x; p_y := Some y; p_t := Some a; p_types := 5 :: repeat 2 (List.length rows - 1); p_data := map (Ints t) rows; p_objects := a_size a; p_channels := 1 |}).
    destruct (rows_ok p t (a_size a) m l Hr Hl ltac:(lia) Hm Hn ltac:(unfold p, m; cbn; ring)) as (R1 & R2 & R3 & R4). fold rows in R1, R2, R3, R4.
    assert (Hs : split_signal {| s_axes := [a; y; x]; s_data := Ints t l |} = Ok p).
    { unfold split_signal. cbn [s_axes s_data filter]. rewrite Na, Ny, Nx. cbn [negb nav_index map]. rewrite Na. cbn [split_array]. rewrite Hal. rewrite zlen_map, R2, map_length. unfold p. destruct rows as [|r rs] eqn:Er; [cbn in R2; lia|]. cbn [List.length repeat set_head bind]. rewrite Nat.sub_0_r || replace (S (List.length rs) - 1)%nat with (List.length rs) by lia. reflexivity. }
    destruct (series_read _ p t rows raw_types PI Hs) as (f & ob & obs & zmin & sc & of & ints & W & R & P & Rd).
    - unfold split_ok, p. cbn [p_x p_y p_t p_objects p_channels opt_ok size axis_or]. repeat (split; [assumption || lia|]). clear - Hl Hn Sx Sy Sa Hm; unfold m in *; nia.
    - reflexivity.
    - unfold p. cbn [p_types List.length]. rewrite repeat_length. unfold zlen in R2. lia.
    - rewrite R2. unfold p. cbn [p_objects p_channels]. lia.
    - exact R1.
    - unfold p. cbn [p_types]. constructor; [cbn; tauto|]. apply Forall_forall. intros ty Hty. apply repeat_spec in Hty. subst ty. cbn. tauto.
    - left. split; reflexivity.
    - unfold p. cbn [p_types]. intros [X|X]; [discriminate|]. apply repeat_spec in X. discriminate.
    - exists f. split; [exact W|]. unfold load_sur. rewrite R. cbn [bind]. unfold build_sur. rewrite (rd_type _ _ _ _ _ _ _ _ Rd), (rd_x _ _ _ _ _ _ _ _ Rd), (rd_y _ _ _ _ _ _ _ _ Rd). change (hd 0 (p_types p)) with 5. cbn [Z.eqb Pos.eqb orb].
      rewrite (xax_read _ _ _ _ _ _ _ x Rd eq_refl false), (yax_read _ _ _ _ _ _ _ y Rd eq_refl false), (tax_read _ _ _ _ _ _ _ a Rd eq_refl Hsc 3%nat true), (rd_objects _ _ _ _ _ _ _ _ Rd), (axis_eta x false Nx), (axis_eta y false Ny).
      change (p_objects p) with (a_size a). rewrite (axis_eta a true Na). change (size (p_x p)) with (a_size x). change (size (p_y p)) with (a_size y).
      assert (Lo : zlen (ob :: obs) = a_size a) by (rewrite <- R2; apply (f_equal (@List.length _)) in P; rewrite !map_length in P; unfold zlen; lia).
      rewrite stack_ok; [| |repeat constructor; lia].
      + cbn [bind]. rewrite Lo, P, concat_map_map, R3. reflexivity.
      + apply Forall_forall. intros ob' Iob. assert (Ip : In (o_points ob') (map (map PI) rows)) by (rewrite <- P; apply in_map; exact Iob). apply in_map_iff in Ip. destruct Ip as (r & <- & Ir). rewrite zlen_map. pose proof (proj1 (Forall_forall _ _) R4 r Ir) as Lr. cbn beta in Lr. rewrite Lr. unfold m, prodZ. cbn [fold_right]. ring.
  Qed.
  (** Series of profiles *)
  Theorem C74_profiles : forall a x t l, axis_ok 13 a -> axis_ok 16 x -> a_nav a = true -> a_nav x = false -> (forall n, In n [str "Wavelength"; str "Energy"; str "Energy Loss"; str "E"] -> n <> a_name a /\ n <> a_name x) ->
    ~ (a_scale a == 0)%Q -> Forall (in_type t) l -> zlen l = a_size a * a_size x -> zlen l < 2 ^ 28 -> a_size a < 2 ^ 16 -> Forall (fun z => Z.abs z <= 2 ^ 24) l ->
    returns {| s_axes := [a; x]; s_data := Ints t l |} {| r_axes := [(a, 0); (x, 1)]; r_shape := [a_size a; a_size x]; r_data := map (fun z => PF (inject_Z z)) l |}.
  Proof.
    intros a x t l Ha Hx Na Nx Hname Hsc Hr Hl Hn Hsz Hlow. pose proof Hx as (_ & _ & Sx & _). pose proof Ha as (_ & _ & Sa & _).
    set (rows := records (Z.to_nat (a_size a)) (Z.to_nat (a_size x)) l).
    assert (Hal : along 0 [a_size a; a_size x] l = rows) by (rewrite along_first; unfold prodZ; cbn [fold_right]; rewrite ?Z.mul_1_r; [reflexivity|exact Hl|lia|lia]).
    set (p := {| p_x := Some x; p_y := None; p_t := Some a; p_types := 4 :: repeat 1 (List.length rows - 1); p_data := map (Ints t) rows; p_objects := 1 + Z.of_nat (List.length rows - 1); p_channels := 1 |}).
    destruct (rows_ok p t (a_size a) (a_size x) l Hr Hl ltac:(lia) ltac:(lia) Hn ltac:(unfold p; cbn; ring)) as (R1 & R2 & R3 & R4). fold rows in R1, R2, R3, R4.
    assert (Hs : split_signal {| s_axes := [a; x]; s_data := Ints t l |} = Ok p).
    { assert (Hsp : is_spectrum [a; x] = false). { unfold is_spectrum. destruct (existsb _ [a; x]) eqn:E; [|reflexivity]. exfalso. apply existsb_exists in E. destruct E as (b & Ib & E). apply existsb_exists in E. destruct E as (n & In' & E). apply eqb_str_spec in E. destruct (Hname n In'). destruct Ib as [<- | [<- | []]]; congruence. }
      unfold split_signal. cbn [s_axes s_data filter]. rewrite Na, Nx. cbn [negb nav_index map]. rewrite Na, Hsp. cbn [split_array]. rewrite Hal, map_length. reflexivity. }
    assert (Hlows : Forall low rows).
    { apply Forall_forall. intros r Ir. pose proof (proj1 (Forall_forall _ _) R4 r Ir) as Lr. cbn beta in Lr. destruct r as [|z r]; [cbn in Lr; lia|]. destruct (minl_spec r z) as [Im Fm]. exists (minl z r). split; [exact Im|]. split; [exact Fm|].
      apply (proj1 (Forall_forall _ _) Hlow). rewrite <- R3. apply in_concat. exists (z :: r). split; assumption. }
    destruct (series_read _ p t rows float_types (fun z => PF (inject_Z z)) Hs) as (f & ob & obs & zmin & sc & of & ints & W & R & P & Rd).
    - unfold split_ok, p. cbn [p_x p_y p_t p_objects p_channels opt_ok size axis_or]. unfold zlen in R2. repeat (split; [assumption || lia || exact I|]). lia.
    - reflexivity.
    - unfold p. cbn [p_types List.length]. rewrite repeat_length. unfold zlen in R2. lia.
    - unfold p. cbn [p_objects p_channels]. unfold zlen in *. lia.
    - exact R1.
    - unfold p. cbn [p_types]. constructor; [cbn; tauto|]. apply Forall_forall. intros ty Hty. apply repeat_spec in Hty. subst ty. cbn. tauto.
    - right. split; [exact Hlows|]. right. split; reflexivity.
    - unfold p. cbn [p_types]. intros [X|X]; [discriminate|]. apply repeat_spec in X. discriminate.
    - exists f. split; [exact W|]. unfold load_sur. rewrite R. cbn [bind]. unfold build_sur. rewrite (rd_type _ _ _ _ _ _ _ _ Rd). change (hd 0 (p_types p)) with 4. cbn [Z.eqb Pos.eqb orb].
      rewrite (xax_read _ _ _ _ _ _ _ x Rd eq_refl false), (tax_read _ _ _ _ _ _ _ a Rd eq_refl Hsc 3%nat true), (rd_objects _ _ _ _ _ _ _ _ Rd), (axis_eta x false Nx).
      assert (Ep : p_objects p = a_size a) by (unfold p; cbn [p_objects]; unfold zlen in R2; lia). rewrite Ep, (axis_eta a true Na).
      assert (Lo : zlen (ob :: obs) = a_size a) by (rewrite <- R2; apply (f_equal (@List.length _)) in P; rewrite !map_length in P; unfold zlen; lia).
      assert (Lp : Forall (fun ob' => zlen (o_points ob') = a_size x) (ob :: obs)).
      { apply Forall_forall. intros ob' Iob. assert (Ip : In (o_points ob') (map (map (fun z => PF (inject_Z z))) rows)) by (rewrite <- P; apply in_map; exact Iob). apply in_map_iff in Ip. destruct Ip as (r & <- & Ir). rewrite zlen_map. exact (proj1 (Forall_forall _ _) R4 r Ir). }
      rewrite (Forall_inv Lp). rewrite stack_ok; [| |repeat constructor; lia].
      + cbn [bind]. rewrite Lo, P, concat_map_map, R3. reflexivity.
      + eapply Forall_impl; [|exact Lp]. cbn beta. intros ob' E. rewrite E. unfold prodZ. cbn [fold_right]. ring.
  Qed.

  (** Colours *)
  Definition pixel_ok (hi : Z) (c : Z * Z * Z) : Prop := let '(r, g, b) := c in 0 <= r < hi /\ 0 <= g < hi /\ 0 <= b < hi.
  (** No name, no unit, three channels *)
  Definition channel_axis : axis := {| a_name := []; a_units := []; a_size := 3; a_scale := 1; a_offset := 0; a_nav := true |}.
  Definition first_of (c : Z * Z * Z) : Z := let '(r, _, _) := c in r.
  Definition second_of (c : Z * Z * Z) : Z := let '(_, g, _) := c in g.
  Definition third_of (c : Z * Z * Z) : Z := let '(_, _, b) := c in b.
  Lemma low_between : forall l, l <> [] -> Forall (fun z => 0 <= z < 2 ^ 16) l -> low l.
  Proof. intros [|z r] H F; [congruence|]. destruct (minl_spec r z) as [Im Fm]. exists (minl z r). split; [exact Im|]. split; [exact Fm|]. pose proof (proj1 (Forall_forall _ _) F _ Im) as X. cbn beta in X. lia. Qed.
  (** Colour images: the channels one after the other *)
  Theorem C74_rgb : forall y x l, axis_ok 16 y -> axis_ok 16 x -> a_nav y = false -> a_nav x = false -> Forall (pixel_ok (2 ^ 16)) l -> zlen l = a_size y * a_size x -> zlen l < 2 ^ 28 ->
    returns {| s_axes := [y; x]; s_data := Rgb l |} {| r_axes := [(channel_axis, 0); (y, 1); (x, 2)]; r_shape := [3; a_size y; a_size x]; r_data := map PI (map first_of l ++ map second_of l ++ map third_of l) |}.
  Proof.
    intros y x l Hy Hx Ny Nx Hp Hl Hn. pose proof Hx as (_ & _ & Sx & _). pose proof Hy as (_ & _ & Sy & _). assert (Hne : l <> []) by (apply nonempty; clear - Hl Sx Sy; nia).
    set (rows := [map red l; map green l; map blue l]).
    set (p := {| p_x := Some x; p_y := Some y; p_t := None; p_types := [12; 10; 10]; p_data := map (Ints TI32) rows; p_objects := 1; p_channels := 3 |}).
    assert (Hs : split_signal {| s_axes := [y; x]; s_data := Rgb l |} = Ok p) by (unfold split_signal; cbn [s_axes s_data filter]; rewrite Ny, Nx; reflexivity).
    assert (Hc : forall c, (c = red \/ c = green \/ c = blue) -> row_ok p TI32 (map c l) /\ low (map c l) /\ zlen (map c l) = a_size y * a_size x).
    { intros c Hc. assert (Hrange : Forall (fun z => 0 <= z < 2 ^ 16) (map c l)) by (apply Forall_forall; intros z Iz; apply in_map_iff in Iz; destruct Iz as ([[r g] b] & <- & Ip); pose proof (proj1 (Forall_forall _ _) Hp _ Ip) as (A & B & C); destruct Hc as [-> | [-> | ->]]; cbn [red green blue]; assumption).
      assert (Hne' : map c l <> []) by (destruct l; [congruence|discriminate]). split; [|split; [apply low_between; assumption|rewrite zlen_map; exact Hl]]. split; [exact Hne'|]. split; [eapply Forall_impl; [|exact Hrange]; cbn [in_type]; intros; lia|]. rewrite zlen_map. split; [exact Hn|]. rewrite Hl. unfold p. cbn. ring. }
    destruct (Hc red ltac:(tauto)) as (A1 & A2 & A3). destruct (Hc green ltac:(tauto)) as (B1 & B2 & B3). destruct (Hc blue ltac:(tauto)) as (C1 & C2 & C3).
    destruct (series_read _ p TI32 rows round_types PI Hs) as (f & ob & obs & zmin & sc & of & ints & W & R & P & Rd).
    - unfold split_ok, p. cbn [p_x p_y p_t p_objects p_channels opt_ok size axis_or]. repeat (split; [assumption || lia || exact I|]). lia.
    - reflexivity.
    - reflexivity.
    - reflexivity.
    - repeat constructor; try assumption; try apply A1; try apply B1; try apply C1.
    - unfold p. cbn [p_types]. repeat constructor; cbn; tauto.
    - right. split; [repeat constructor; assumption|]. left. split; reflexivity.
    - unfold p. cbn [p_types]. cbn. lia.
    - exists f. split; [exact W|]. unfold load_sur. rewrite R. cbn [bind]. unfold build_sur. rewrite (rd_type _ _ _ _ _ _ _ _ Rd), (rd_x _ _ _ _ _ _ _ _ Rd), (rd_y _ _ _ _ _ _ _ _ Rd). change (hd 0 (p_types p)) with 12. cbn [Z.eqb Pos.eqb orb].
      rewrite (xax_read _ _ _ _ _ _ _ x Rd eq_refl false), (yax_read _ _ _ _ _ _ _ y Rd eq_refl false), (axis_eta x false Nx), (axis_eta y false Ny).
      assert (Et : tax 8 true (o_fields ob) = channel_axis) by (unfold tax; rewrite (rd_tn _ _ _ _ _ _ _ _ Rd), (rd_tu _ _ _ _ _ _ _ _ Rd), (rd_ts _ _ _ _ _ _ _ _ Rd), (rd_to _ _ _ _ _ _ _ _ Rd), (rd_channels _ _ _ _ _ _ _ _ Rd); reflexivity). rewrite Et.
      change (size (p_x p)) with (a_size x). change (size (p_y p)) with (a_size y). assert (Lo : zlen (ob :: obs) = 3) by (apply (f_equal (@List.length _)) in P; rewrite !map_length in P; unfold zlen; cbn in *; lia).
      rewrite stack_ok; [| |repeat constructor; lia].
      + cbn [bind]. rewrite Lo, P. unfold rows. cbn [map List.concat]. rewrite app_nil_r, !map_app. reflexivity.
      + apply Forall_forall. intros ob' Iob. assert (Ip : In (o_points ob') (map (map PI) rows)) by (rewrite <- P; apply in_map; exact Iob). apply in_map_iff in Ip. destruct Ip as (r & <- & Ir). rewrite zlen_map. unfold rows in Ir. cbn [In] in Ir. unfold prodZ. cbn [fold_right]. destruct Ir as [<- | [<- | [<- | []]]]; [rewrite A3|rewrite B3|rewrite C3]; ring.
  Qed.
  Lemma flat_map_seq : forall A B (h : A -> list B) d (l : list A), flat_map (fun i => h (nth i l d)) (seq 0 (List.length l)) = flat_map h l.
  Proof. intros A B h d l. induction l as [|x l IH]; [reflexivity|]. cbn [List.length seq flat_map nth]. f_equal. rewrite <- seq_shift, flat_map_concat_map, map_map, <- flat_map_concat_map. exact IH. Qed.
  Lemma nth_three : forall A B (f g h : A -> B) d d' (l : list A) i, (i < List.length l)%nat ->
    nth (i * 3 + 0) (flat_map (fun x => [f x; g x; h x]) l) d = f (nth i l d') /\ nth (i * 3 + 1) (flat_map (fun x => [f x; g x; h x]) l) d = g (nth i l d') /\ nth (i * 3 + 2) (flat_map (fun x => [f x; g x; h x]) l) d = h (nth i l d').
  Proof. intros A B f g h d d' l. induction l as [|x l IH]; intros i H; [cbn in H; lia|]. destruct i as [|i]; [cbn; tauto|]. cbn [flat_map app]. cbn [List.length] in H. specialize (IH i ltac:(lia)). exact IH. Qed.
  Lemma flat_map_in : forall A B (f g : A -> list B) l, (forall x, In x l -> f x = g x) -> flat_map f l = flat_map g l.
  Proof. intros A B f g l H. rewrite !flat_map_concat_map. f_equal. apply map_ext_in. exact H. Qed.
  Lemma channels_ok : forall m (frames : list (list (Z * Z * Z))), Forall (fun f => List.length f = m) frames ->
    channels_last (List.length frames) 3 m (flat_map (fun f => [map PI (map red f); map PI (map green f); map PI (map blue f)]) frames) = flat_map (fun c => [PI (first_of c); PI (second_of c); PI (third_of c)]) (List.concat frames).
  Proof.
    intros m frames H. unfold channels_last. transitivity (flat_map (fun i => flat_map (fun c => [PI (first_of c); PI (second_of c); PI (third_of c)]) (nth i frames [])) (seq 0 (List.length frames))).
    - apply flat_map_in. intros i Ii. apply in_seq in Ii. destruct (nth_three _ _ (fun f => map PI (map red f)) (fun f => map PI (map green f)) (fun f => map PI (map blue f)) [] [] frames i ltac:(lia)) as (E0 & E1 & E2).
      set (fr := nth i frames []) in *. assert (Lf : List.length fr = m) by (apply (proj1 (Forall_forall _ _) H); apply nth_In; lia). rewrite <- (flat_map_seq _ _ _ (0, 0, 0) fr), Lf. apply flat_map_in. intros q Iq. apply in_seq in Iq.
      cbn [seq map]. rewrite E0, E1, E2. rewrite !map_map.
      rewrite (nth_indep (map (fun x => PI (red x)) fr) PN (PI (red (0, 0, 0)))), (nth_indep (map (fun x => PI (green x)) fr) PN (PI (green (0, 0, 0)))), (nth_indep (map (fun x => PI (blue x)) fr) PN (PI (blue (0, 0, 0)))) by (rewrite map_length; lia).
      rewrite (map_nth (fun x => PI (red x))), (map_nth (fun x => PI (green x))), (map_nth (fun x => PI (blue x))). reflexivity.
    - rewrite (flat_map_seq _ _ (fun fr => flat_map (fun c => [PI (first_of c); PI (second_of c); PI (third_of c)]) fr)). clear H. induction frames as [|f frames IH]; [reflexivity|]. cbn [flat_map List.concat]. rewrite flat_map_app, IH. reflexivity.
  Qed.
  Lemma wrap_small : forall z, 0 <= z < 2 ^ 15 -> wrap16 z = z.
  Proof. intros z H. unfold wrap16. apply (signed_mod 2 z); [lia|]. cbn. lia. Qed.
  Lemma as_float_map : forall l, map as_float (flat_map (fun c => [PI (first_of c); PI (second_of c); PI (third_of c)]) l) = flat_map (fun c => [PF (inject_Z (first_of c)); PF (inject_Z (second_of c)); PF (inject_Z (third_of c))]) l.
  Proof. induction l as [|c l IH]; [reflexivity|]. cbn [flat_map app map as_float]. rewrite IH. reflexivity. Qed.
  Lemma flat_three : forall A B (f g h : A -> B) l, List.length (flat_map (fun x => [f x; g x; h x]) l) = (3 * List.length l)%nat.
  Proof. induction l as [|x l IH]; [reflexivity|]. cbn [flat_map app List.length]. rewrite IH. lia. Qed.
  Lemma map_flat_three : forall A B C (k : B -> C) (f g h : A -> B) l, map k (flat_map (fun x => [f x; g x; h x]) l) = flat_map (fun x => [k (f x); k (g x); k (h x)]) l.
  Proof. induction l as [|x l IH]; [reflexivity|]. cbn [flat_map app map]. rewrite IH. reflexivity. Qed.
  (** Series of colour images with values below 2^15: the colours of each point are the last axis *)
  Theorem C74_rgb_series : forall a y x l, axis_ok 13 a -> axis_ok 16 y -> axis_ok 16 x -> a_nav a = true -> a_nav y = false -> a_nav x = false -> ~ (a_scale a == 0)%Q -> Forall (pixel_ok (2 ^ 15)) l ->
    zlen l = a_size a * (a_size y * a_size x) -> zlen l < 2 ^ 28 -> a_size a < 2 ^ 16 ->
    returns {| s_axes := [a; y; x]; s_data := Rgb l |}
      {| r_axes := [({| a_name := a_name a; a_units := a_units a; a_size := a_size a; a_scale := a_scale a; a_offset := a_offset a; a_nav := false |}, 0); (y, 1); (x, 2);
                    ({| a_name := a_name a; a_units := a_units a; a_size := 3; a_scale := a_scale a; a_offset := a_offset a; a_nav := true |}, 3)];
         r_shape := [a_size a; a_size y; a_size x; 3]; r_data := flat_map (fun c => [PF (inject_Z (first_of c)); PF (inject_Z (second_of c)); PF (inject_Z (third_of c))]) l |}.
  Proof.
    intros a y x l Ha Hy Hx Na Ny Nx Hsc Hpx Hl Hn Hsz. pose proof Hx as (_ & _ & Sx & _). pose proof Hy as (_ & _ & Sy & _). pose proof Ha as (_ & _ & Sa & _).
    set (m := a_size y * a_size x) in *. assert (Hm : 0 < m) by (clear - Sx Sy; unfold m; nia). set (frames := records (Z.to_nat (a_size a)) (Z.to_nat m) l).
    assert (Hlen : List.length l = (Z.to_nat (a_size a) * Z.to_nat m)%nat) by (unfold zlen in Hl; clear - Hl Sa Hm; nia).
    assert (Hcat : List.concat frames = l) by (unfold frames; rewrite records_flat by lia; rewrite <- Hlen; apply firstn_all). assert (Hb : Forall (fun r => List.length r = Z.to_nat m) frames) by (apply records_each; lia).
    assert (Lfr : List.length frames = Z.to_nat (a_size a)) by apply records_length.
    assert (Hal : along 0 [a_size a; a_size y; a_size x] l = frames) by (rewrite along_first; unfold prodZ; cbn [fold_right]; rewrite ?Z.mul_1_r; fold m; [reflexivity|exact Hl|lia|lia]).
    assert (Hpf : forall fr, In fr frames -> Forall (pixel_ok (2 ^ 15)) fr) by (intros fr Ifr; apply Forall_forall; intros c Ic; apply (proj1 (Forall_forall _ _) Hpx); rewrite <- Hcat; apply in_concat; exists fr; split; assumption).
    set (rows := flat_map (fun fr => [map red fr; map green fr; map blue fr]) frames). set (types := List.concat (repeat [12; 10; 10] (Z.to_nat (a_size a)))).
    set (p := {| p_x := Some x; p_y := Some y; p_t := Some a; p_types := 18 :: tl types; p_data := map (Ints TI16) rows; p_objects := a_size a; p_channels := 3 |}).
    assert (Lty : List.length types = (3 * Z.to_nat (a_size a))%nat) by (unfold types; rewrite (concat_length_const _ 3); [rewrite repeat_length; lia|]; apply Forall_forall; intros t It; apply repeat_spec in It; subst t; reflexivity).
    assert (Lro : List.length rows = (3 * Z.to_nat (a_size a))%nat) by (unfold rows; rewrite flat_three, Lfr; reflexivity).
    assert (Hs : split_signal {| s_axes := [a; y; x]; s_data := Rgb l |} = Ok p).
    { unfold split_signal. cbn [s_axes s_data filter]. rewrite Na, Ny, Nx. cbn [negb nav_index map]. rewrite Na. fold types. rewrite Hal.
      assert (Et : set_head 18 types = Ok (18 :: tl types)) by (destruct types; [cbn in Lty; lia|reflexivity]). rewrite Et. cbn [bind]. unfold p. f_equal. f_equal. unfold rows. rewrite map_flat_three.
      rewrite !flat_map_concat_map. f_equal. apply map_ext_in. intros fr Ifr. pose proof (Hpf fr Ifr) as Hfr.
      assert (Hw : forall c, (c = red \/ c = green \/ c = blue) -> map wrap16 (map c fr) = map c fr). { intros c Hc. rewrite <- (map_id (map c fr)) at 2. apply map_ext_in. intros z Iz. apply in_map_iff in Iz. destruct Iz as ([[r g] b] & <- & Ip). pose proof (proj1 (Forall_forall _ _) Hfr _ Ip) as (A & B & C). apply wrap_small. destruct Hc as [-> | [-> | ->]]; cbn [red green blue]; assumption. }
      rewrite (Hw red), (Hw green), (Hw blue) by tauto. reflexivity. }
    assert (Hrow : forall r, In r rows -> row_ok p TI16 r /\ low r /\ zlen r = m).
    { intros r Ir. unfold rows in Ir. apply in_flat_map in Ir. destruct Ir as (fr & Ifr & Ir). pose proof (proj1 (Forall_forall _ _) Hb fr Ifr) as Lf. cbn beta in Lf.
      assert (Hc : exists c, (c = red \/ c = green \/ c = blue) /\ r = map c fr) by (cbn [In] in Ir; destruct Ir as [<- | [<- | [<- | []]]]; [exists red|exists green|exists blue]; tauto). destruct Hc as (c & Hc & ->).
      assert (Hrange : Forall (fun z => 0 <= z < 2 ^ 15) (map c fr)) by (apply Forall_forall; intros z Iz; apply in_map_iff in Iz; destruct Iz as ([[r g] b] & <- & Ip); pose proof (proj1 (Forall_forall _ _) (Hpf fr Ifr) _ Ip) as (A & B & C); destruct Hc as [-> | [-> | ->]]; cbn [red green blue]; assumption).
      assert (Lz : zlen (map c fr) = m) by (rewrite zlen_map; unfold zlen; lia). assert (Hne : map c fr <> []) by (apply nonempty; lia).
      split; [|split; [|exact Lz]]. 
      - split; [exact Hne|]. split; [eapply Forall_impl; [|exact Hrange]; cbn [in_type]; intros; lia|]. rewrite Lz. split; [clear - Hl Hn Sa Hm; nia|]. unfold p, m. cbn. ring.
      - apply low_between; [exact Hne|]. eapply Forall_impl; [|exact Hrange]. cbn beta. intros; lia. }
    destruct (series_read _ p TI16 rows round_types PI Hs) as (f & ob & obs & zmin & sc & of & ints & W & R & P & Rd).
    - unfold split_ok, p. cbn [p_x p_y p_t p_objects p_channels opt_ok size axis_or]. repeat (split; [assumption || lia|]). clear - Hl Hn Sx Sy Sa Hm; unfold m in *; nia.
    - reflexivity.
    - unfold p. cbn [p_types List.length]. destruct types as [|t0 types']; [cbn in Lty; lia|]. cbn [tl]. cbn [List.length] in Lty. lia.
    - unfold zlen. rewrite Lro. unfold p. cbn [p_objects p_channels]. lia.
    - apply Forall_forall. intros r Ir. apply Hrow. exact Ir.
    - unfold p. cbn [p_types]. constructor; [cbn; tauto|]. apply Forall_forall. intros ty Hty. assert (It : In ty types) by (destruct types; [contradiction|right; exact Hty]). unfold types in It. apply in_concat in It. destruct It as (q & Iq & It). apply repeat_spec in Iq. subst q. cbn in It |- *. tauto.
    - right. split; [apply Forall_forall; intros r Ir; apply Hrow; exact Ir|]. left. split; reflexivity.
    - unfold p. cbn [p_types]. intros [X|X]; [discriminate|]. assert (It : In 21 types) by (destruct types; [contradiction|right; exact X]). unfold types in It. apply in_concat in It. destruct It as (q & Iq & It). apply repeat_spec in Iq. subst q. cbn in It. lia.
    - exists f. split; [exact W|]. unfold load_sur. rewrite R. cbn [bind]. unfold build_sur. rewrite (rd_type _ _ _ _ _ _ _ _ Rd), (rd_x _ _ _ _ _ _ _ _ Rd), (rd_y _ _ _ _ _ _ _ _ Rd), (rd_objects _ _ _ _ _ _ _ _ Rd), (rd_channels _ _ _ _ _ _ _ _ Rd). change (hd 0 (p_types p)) with 18. cbn [Z.eqb Pos.eqb orb].
      rewrite (xax_read _ _ _ _ _ _ _ x Rd eq_refl false), (yax_read _ _ _ _ _ _ _ y Rd eq_refl false), (tax_read _ _ _ _ _ _ _ a Rd eq_refl Hsc 3%nat false), (tax_read _ _ _ _ _ _ _ a Rd eq_refl Hsc 8%nat true), (rd_objects _ _ _ _ _ _ _ _ Rd), (rd_channels _ _ _ _ _ _ _ _ Rd), (axis_eta x false Nx), (axis_eta y false Ny).
      change (p_objects p) with (a_size a). change (p_channels p) with 3. change (size (p_x p)) with (a_size x). change (size (p_y p)) with (a_size y).
      assert (Lo : List.length (ob :: obs) = (3 * Z.to_nat (a_size a))%nat) by (apply (f_equal (@List.length _)) in P; rewrite !map_length in P; lia).
      assert (El : zlen (ob :: obs) <? a_size a * 3 = false) by (unfold zlen; lia). rewrite El. rewrite firstz_firstn, firstn_all2 by lia.
      assert (Em : mapM (fun ob => reshape [a_size y; a_size x] (o_points ob)) (ob :: obs) = Ok (map o_points (ob :: obs))).
      { assert (Hre : Forall (fun ob' => prodZ [a_size y; a_size x] = zlen (o_points ob')) (ob :: obs)).
        { apply Forall_forall. intros ob' Iob. assert (Ip : In (o_points ob') (map (map PI) rows)) by (rewrite <- P; apply in_map; exact Iob). apply in_map_iff in Ip. destruct Ip as (r & <- & Ir). rewrite zlen_map. destruct (Hrow r Ir) as (_ & _ & Lr). rewrite Lr. unfold m, prodZ. cbn [fold_right]. ring. }
        clear - Hre Sx Sy. induction Hre as [|ob' os H1 H2 IH]; [reflexivity|]. cbn [mapM map]. rewrite reshape_ok; [|exact H1|repeat constructor; lia]. cbn [bind]. rewrite IH. reflexivity. }
      rewrite Em. cbn [bind]. rewrite P. unfold rows. rewrite map_flat_three. replace (Z.to_nat (prodZ [a_size y; a_size x])) with (Z.to_nat m) by (unfold m, prodZ; cbn [fold_right]; f_equal; ring). rewrite <- Lfr. change (Z.to_nat 3) with 3%nat.
      rewrite (channels_ok (Z.to_nat m) frames Hb), Hcat, as_float_map. reflexivity.
  Qed.
End Signals.

(** * Examples *)
Definition same (b : list Z) : list Z := 7 :: b.
Definition undo (b : list Z) : res (list Z) := match b with 7 :: r => Ok r | _ => Err OtherError end.
Definition opts (sp cp : bool) : options :=
  {| special := sp; compressed := cp; object_name := str "sample"; operator_name := []; absolute := 0; private_zone := []; client_zone := [1]; date := [0; 1; 12; 15; 6; 2024; 5]; z_name := str "Height"; z_unit := str "um" |}.
Definition ax (name : pystr) (n : Z) (nav : bool) : axis := {| a_name := name; a_units := str "nm"; a_size := n; a_scale := 1 # 4; a_offset := -3; a_nav := nav |}.
Definition shown (sp cp : bool) (s : signal) : res (list Z * list point * list (Z * Z)) :=
  let! f := write_sur 0 same (opts sp cp) (str "$A = 1") s in let! r := load_sur undo f in Ok (r_shape r, r_data r, map (fun p : axis * Z => (a_size (fst p), snd p)) (r_axes r)).
Example C74_surface_example : shown true true {| s_axes := [ax (str "y") 2 false; ax (str "x") 3 false]; s_data := Ints TI32 [- 2 ^ 31; 5; 0; 2 ^ 31 - 1; 33554433; -9] |} =
  Ok ([2; 3], map PI [- 2 ^ 31; 5; 0; 2 ^ 31 - 1; 33554433; -9], [(2, 0); (3, 1)]).
Proof. vm_compute. reflexivity. Qed.
Example C74_map_example : shown false false {| s_axes := [ax (str "y") 1 true; ax (str "x") 2 true; ax (str "Wavelength") 2 false]; s_data := Ints TU16 [40000; 5; 7; 65535] |} =
  Ok ([1; 2; 2], map (fun z => PF (inject_Z z)) [40000; 5; 7; 65535], [(1, 0); (2, 1); (2, 2)]).
Proof. vm_compute. reflexivity. Qed.
Example C74_rgb_example : shown false true {| s_axes := [ax (str "y") 1 false; ax (str "x") 2 false]; s_data := Rgb [(1, 2, 3); (65535, 5, 6)] |} = Ok ([3; 1; 2], map PI [1; 65535; 2; 5; 3; 6], [(3, 0); (1, 1); (2, 2)]).
Proof. vm_compute. reflexivity. Qed.
Example C74_series_example : shown false true {| s_axes := [ax (str "t") 2 true; ax (str "y") 1 false; ax (str "x") 2 false]; s_data := Rgb [(1, 2, 3); (255, 5, 6); (7, 8, 9); (10, 11, 12)] |} =
  Ok ([2; 1; 2; 3], map (fun z => PF (inject_Z z)) [1; 2; 3; 255; 5; 6; 7; 8; 9; 10; 11; 12], [(2, 0); (1, 1); (2, 2); (3, 3)]).
Proof. vm_compute. reflexivity. Qed.
Example C74_hyps : zlib_ok same undo /\ options_ok (opts true true) (str "$A = 1") /\ axis_ok 13 (ax (str "Wavelength") 3 true) /\ low [40000; 5; 7] /\ Forall (pixel_ok (2 ^ 15)) [(1, 2, 3); (255, 5, 6)].
Proof.
  assert (C : forall s, forallb (fun c => (0 <=? c) && (c <? 256)) s = true -> chars s) by (intros s H; apply Forall_forall; intros c Hc; pose proof (proj1 (forallb_forall _ _) H c Hc); cbn beta in *; lia).
  assert (E : forall q, (Qabs q ?= inject_Z (2 ^ 127))%Q = Lt -> nearest q = q -> exact32 q) by (intros q A B; split; [apply Qlt_alt; exact A|exact B]).
  split; [split; [reflexivity|intro b; unfold same; rewrite zlen_cons; pose proof (zlen_nonneg _ b); lia]|]. split.
  - split; [apply C; reflexivity|]. split; [constructor|]. split; [cbn; lia|]. split; [constructor|]. split; [vm_compute; reflexivity|]. split; [cbn; lia|]. split; [reflexivity|]. split; [repeat constructor; lia|]. split; [apply C; reflexivity|]. split; [apply C; reflexivity|]. split; [apply C; reflexivity|vm_compute; reflexivity].
  - split; [|split; [exists 5; repeat split; [right; left; reflexivity|repeat constructor; lia|lia]|repeat constructor; lia]].
    split; [split; [apply C; reflexivity|split; [right; split; cbn; lia|cbn; lia]]|]. split; [split; [apply C; reflexivity|split; [right; split; cbn; lia|cbn; lia]]|]. split; [cbn; lia|]. split; apply E; vm_compute; reflexivity.
Qed.
(** The offset is a float of 32 bits: profiles of great numbers are shifted *)
Theorem C74_offset_refuted : shown false true {| s_axes := [ax (str "x") 2 false]; s_data := Ints TI32 [16777217; 16777219] |} = Ok ([2], map (fun z => PF (inject_Z z)) [16777216; 16777218], [(2, 0)]).
Proof. vm_compute. reflexivity. Qed.
(** Colours of 16 bits become negative in series *)
Theorem C74_rgb16_refuted : shown false true {| s_axes := [ax (str "t") 1 true; ax (str "y") 1 false; ax (str "x") 1 false]; s_data := Rgb [(40000, 5, 6)] |} = Ok ([1; 1; 1; 3], map (fun z => PF (inject_Z z)) [-25536; 5; 6], [(1, 0); (1, 1); (1, 2); (3, 3)]).
Proof. vm_compute. reflexivity. Qed.
(** A series of one spectrum loses an axis, and the other has index 1 in data of one dimension *)
Theorem C74_one_spectrum_refuted : shown false true {| s_axes := [ax (str "y") 1 true; ax (str "Energy") 2 false]; s_data := Ints TU8 [3; 4] |} = Ok ([2], map (fun z => PF (inject_Z z)) [3; 4], [(2, 1)]).
Proof. vm_compute. reflexivity. Qed.
(** Spectra of one point lose the axis of the data only *)
Theorem C74_one_point_refuted : shown false true {| s_axes := [ax (str "y") 2 true; ax (str "Energy") 1 false]; s_data := Ints TU8 [3; 4] |} = Ok ([2], map (fun z => PF (inject_Z z)) [3; 4], [(2, 0); (1, 1)]).
Proof. vm_compute. reflexivity. Qed.
Print Assumptions C74_surface.
Print Assumptions C74_profile.
Print Assumptions C74_spectrum.
Print Assumptions C74_spectra.
Print Assumptions C74_map.
Print Assumptions C74_surfaces.
Print Assumptions C74_profiles.
Print Assumptions C74_rgb.
Print Assumptions C74_rgb_series.
Print Assumptions C74_hyps.
Print Assumptions C74_offset_refuted.
Print Assumptions C74_rgb16_refuted.
Print Assumptions C74_one_spectrum_refuted.
Print Assumptions C74_one_point_refuted.
