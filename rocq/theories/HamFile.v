(** Property C89: pixels and axes of Hamamatsu streak images. *)
From Coq Require Import QArith.
From Verif Require Import Base Text Bytes Utf8 SfsModel SfsProps BcfUnpack HierModel RowMajor RenModel RenBlocks RenPset RenData HamModel.
Local Open Scope Z_scope.

(** * Specification *)
Record image := { m_mark : list Z; m_x : Z; m_y : Z; m_type : Z; m_images : Z; m_channels : Z; m_channel : Z; m_time : Z; m_marker : list Z; m_info : list Z; m_comment : list Z;
  m_width : Z; m_lines : Z; m_bytes : nat; m_rows : list (list Z); m_rest : list Z }.
Definition image_bytes (d : image) : list Z :=
  m_mark d ++ le 2 (zlen (m_comment d)) ++ le 2 (m_width d) ++ le 2 (m_lines d) ++ le 2 (m_x d) ++ le 2 (m_y d) ++ le 2 (m_type d) ++ le 4 (m_images d) ++ le 2 (m_channels d) ++ le 2 (m_channel d) ++ le 8 (m_time d) ++
  m_marker d ++ m_info d ++ m_comment d ++ words (m_bytes d) (List.concat (m_rows d)) ++ m_rest d.
Definition short (x : Z) : Prop := - 2 ^ 15 <= x < 2 ^ 15.
Definition pixel_types : list (Z * nat) := [(0, 1%nat); (2, 2%nat); (3, 4%nat)].
Definition image_ok (d : image) : Prop :=
  List.length (m_mark d) = 2%nat /\ List.length (m_marker d) = 4%nat /\ List.length (m_info d) = 30%nat /\ zlen (m_comment d) < 2 ^ 15 /\
  0 < m_width d < 2 ^ 15 /\ 0 < m_lines d < 2 ^ 15 /\ short (m_x d) /\ short (m_y d) /\ - 2 ^ 31 <= m_images d < 2 ^ 31 /\ short (m_channels d) /\ short (m_channel d) /\ 0 <= m_time d < 2 ^ 64 /\
  In (m_type d, m_bytes d) pixel_types /\ zlen (m_rows d) = m_lines d /\ Forall (fun r => zlen r = m_width d /\ Forall (fun x => 0 <= x < 256 ^ Z.of_nat (m_bytes d)) r) (m_rows d).
Definition without_zeros (s : pystr) : pystr := filter (fun c => negb (c =? 0)) s.
Definition kinds : list (Z * file_type) := [(0, Bit8); (2, Bit16); (3, Bit32)].
(** The texts of the header *)
Definition texts (d : image) (mark marker more comment : pystr) : Prop :=
  utf8_decode (m_mark d) = Ok mark /\ utf8_decode (m_marker d) = Ok marker /\ utf8_decode (m_info d) = Ok more /\ utf8_decode (m_comment d) = Ok comment.
Definition header_of (d : image) (k : file_type) (mark marker more : pystr) : header :=
  {| h_mark := without_zeros mark; h_comment := zlen (m_comment d); h_width := m_width d; h_lines := m_lines d; h_x := m_x d; h_y := m_y d; h_type := k; h_images := m_images d; h_channels := m_channels d; h_channel := m_channel d;
     h_time := m_time d; h_marker := without_zeros marker; h_info := without_zeros more |}.

(** * Reading *)
Lemma signed_front : forall n x r, (0 < n)%nat -> - 2 ^ (8 * Z.of_nat n - 1) <= x < 2 ^ (8 * Z.of_nat n - 1) -> read_signed (Z.of_nat n) (le n x ++ r) = Ok (x, r).
Proof.
  intros n x r N H. unfold read_signed. assert (E : le n x = le n (x mod 256 ^ Z.of_nat n)). { rewrite <- (le_val_le n x). symmetry. rewrite <- (le_length n x) at 1. apply le_le_val. apply le_bytes. }
  assert (P : 0 < 256 ^ Z.of_nat n) by (apply Z.pow_pos_nonneg; lia). rewrite E. rewrite word_front; [|apply Z.mod_pos_bound; exact P|lia]. cbn [bind fst snd]. rewrite Nat2Z.id. unfold signed. assert (B : 256 ^ Z.of_nat n = 2 * 2 ^ (8 * Z.of_nat n - 1)). { change 256 with (2 ^ 8). rewrite <- Z.pow_mul_r by lia. rewrite <- Z.pow_succ_r by lia. f_equal. lia. }
  assert (B2 : 2 ^ (8 * Z.of_nat n) = 2 * 2 ^ (8 * Z.of_nat n - 1)) by (rewrite <- Z.pow_succ_r by lia; f_equal; lia). rewrite B2. rewrite B in *. set (h := 2 ^ (8 * Z.of_nat n - 1)) in *. clearbody h.
  destruct (Z.le_gt_cases 0 x) as [Q|Q].
  - rewrite Z.mod_small by lia. replace (x <? h) with true by lia. reflexivity.
  - assert (M : x mod (2 * h) = x + 2 * h) by (symmetry; apply (Z.mod_unique _ _ (-1)); lia). rewrite M. replace (x + 2 * h <? h) with false by lia. f_equal. f_equal. lia.
Qed.
Lemma short_front : forall x r, short x -> read_signed 2 (le 2 x ++ r) = Ok (x, r).
Proof. intros x r H. exact (signed_front 2 x r ltac:(lia) H). Qed.
Lemma text_front : forall a s r, utf8_decode a = Ok s -> read_utf8 (zlen a) (a ++ r) = Ok (without_zeros s, r).
Proof. intros a s r H. unfold read_utf8. pose proof (zlen_nonneg _ a). replace (zlen a <? -1) with false by lia. replace (zlen a <? 0) with false by lia. cbv zeta. rewrite firstz_front, skipz_front, H. reflexivity. Qed.
Lemma row_total : forall n m (l : list (list Z)), Forall (fun r => zlen r = m) l -> zlen l = n -> zlen (List.concat l) = m * n.
Proof. intros n m l H <-. apply spectra_length. exact H. Qed.
Lemma in_rows : forall (P : Z -> Prop) m (l : list (list Z)), Forall (fun r => zlen r = m /\ Forall P r) l -> Forall P (List.concat l) /\ Forall (fun r => zlen r = m) l.
Proof. intros P m l H. induction H as [|r l [A B] H [IH1 IH2]]; [split; constructor|]. cbn [List.concat]. split; [apply Forall_app; split; assumption|constructor; assumption]. Qed.
Theorem C89_header : forall d k mark marker more comment, image_ok d -> texts d mark marker more comment -> In (m_type d, k) kinds ->
  parse_file (image_bytes d) = Ok (header_of d k mark marker more, without_zeros comment, List.concat (m_rows d)).
Proof.
  intros d k mark marker more comment (L1 & L2 & L3 & LC & W & H & X & Y & I & C1 & C2 & T & PT & LR & R) (T1 & T2 & T3 & T4) K. unfold parse_file, image_bytes.
  replace 2 with (zlen (m_mark d)) at 1 by (unfold zlen; lia). rewrite (text_front _ _ _ T1). cbn [bind]. pose proof (zlen_nonneg _ (m_comment d)) as P.
  assert (ST : short (m_type d)) by (unfold pixel_types in PT; cbn [In] in PT; unfold short; destruct PT as [E|[E|[E|[]]]]; injection E as E _; lia).
  rewrite short_front by (unfold short; lia). cbn [bind]. rewrite short_front by (unfold short; lia). cbn [bind]. rewrite short_front by (unfold short; lia). cbn [bind]. rewrite short_front by exact X. cbn [bind]. rewrite short_front by exact Y. cbn [bind]. rewrite short_front by exact ST. cbn [bind].
  pose proof (signed_front 4 (m_images d)) as S4. change (Z.of_nat 4) with 4 in S4. rewrite S4 by (first [lia|exact I]). clear S4. cbn [bind]. rewrite short_front by exact C1. cbn [bind]. rewrite short_front by exact C2. cbn [bind].
  pose proof (word_front 8 (m_time d)) as S8. change (Z.of_nat 8) with 8 in S8. rewrite S8 by (first [lia|exact T]). clear S8. cbn [bind].
  replace 4 with (zlen (m_marker d)) at 1 by (unfold zlen; lia). rewrite (text_front _ _ _ T2). cbn [bind]. replace 30 with (zlen (m_info d)) at 1 by (unfold zlen; lia). rewrite (text_front _ _ _ T3). cbn [bind]. rewrite (text_front _ _ _ T4). cbn [bind].
  destruct (in_rows _ _ _ R) as [PX RL]. assert (N : m_width d * m_lines d = zlen (List.concat (m_rows d))) by (symmetry; apply row_total; assumption).
  assert (NE : List.concat (m_rows d) <> []) by (intro E; rewrite E in N; change (zlen (@nil Z)) with 0 in N; nia).
  assert (RN : read_numbers (Z.of_nat (m_bytes d)) (m_width d * m_lines d) (words (m_bytes d) (List.concat (m_rows d)) ++ m_rest d) = Ok (List.concat (m_rows d))).
  { unfold read_numbers. rewrite N. assert (B : (0 < m_bytes d)%nat) by (unfold pixel_types in PT; cbn [In] in PT; destruct PT as [E|[E|[E|[]]]]; injection E as _ <-; lia). rewrite (words_read_front (m_bytes d) (List.concat (m_rows d)) (m_rest d) B PX). cbn [fst]. destruct (List.concat (m_rows d)); [contradiction|reflexivity]. }
  unfold pixel_types, kinds in PT, K. cbn [In] in PT, K. destruct PT as [E|[E|[E|[]]]]; injection E as E1 E2; rewrite <- E1 in *; rewrite <- E2 in *; destruct K as [K|[K|[K|[]]]]; try discriminate K; injection K as <-.
  all: cbn [file_type_of pixel_width Z.eqb Pos.eqb]; change (Z.of_nat 1) with 1 in RN; change (Z.of_nat 2) with 2 in RN; change (Z.of_nat 4) with 4 in RN; rewrite RN; reflexivity.
Qed.

(** * Axes: calibrated by pixels, or by a table somewhere in the file *)
Inductive cal := Uncalibrated | Tabulated (pos : Z) (l : list Z).
Definition entry (letter : Z) (what : string) : pystr := str "Scaling" ++ [letter] ++ str what.
Definition calibrated (f : list Z) (sc : list (pystr * pystr)) (letter : Z) (k : cal) : Prop :=
  match k with
  | Uncalibrated => exists t, lookup (entry letter "Type") sc = Some t /\ parse_int t = Ok 1
  | Tabulated pos l => (exists t, lookup (entry letter "Type") sc = Some t /\ parse_int t = Ok 2) /\ lookup (entry letter "ScalingFile") sc = Some (str "#" ++ str_int pos ++ str "," ++ str_int (zlen l)) /\
      0 <= pos /\ (exists r, skipn (Z.to_nat pos) f = words 4 l ++ r) /\ Forall (word_ok 32) l /\ 2 <= zlen l
  end.
Definition x_reversed (k : cal) : bool := match k with Tabulated _ l => reversed l | Uncalibrated => false end.
Definition scale_of (fit : list Z -> number * number) (uniform : bool) (l : list Z) : scaling := if uniform then Fitted (fst (fit l)) (snd (fit l)) else Table l.
Definition x_axis (fit : list Z -> number * number) (uniform : bool) (width : Z) (unit : option pystr) (k : cal) : axis :=
  match k with
  | Uncalibrated => {| a_name := str "Uncalibrated X axis"; a_units := Some (str "px"); a_size := width; a_scaling := Pixels; a_index := 1 |}
  | Tabulated _ l => {| a_name := str "Wavelength"; a_units := unit; a_size := zlen l; a_scaling := scale_of fit uniform (if reversed l then rev l else l); a_index := 1 |}
  end.
Definition y_axis (fit : list Z -> number * number) (uniform : bool) (lines : Z) (unit : option pystr) (k : cal) : axis :=
  match k with
  | Uncalibrated => {| a_name := str "Vertical CCD Position"; a_units := Some (str "px"); a_size := lines; a_scaling := Pixels; a_index := 0 |}
  | Tabulated _ l => {| a_name := str "Time"; a_units := unit; a_size := zlen l; a_scaling := scale_of fit uniform l; a_index := 0 |}
  end.
(** micro seconds are written "us" *)
Definition time_unit (u : option pystr) : option pystr := match u with Some u => Some (if eqb_str u (str "us") then [181; 115] else u) | None => None end.
Lemma no_comma : forall n, ~ In 44 (str_int n).
Proof. intros n K. assert (D : forall m, 0 <= m -> ~ In 44 (dec m)) by (intros m M Q; pose proof (dec_digits m M) as F; rewrite Forall_forall in F; apply F in Q; discriminate Q). unfold str_int in K. destruct (n <? 0) eqn:E; [destruct K as [K|K]; [discriminate K|]|]; revert K; apply D; lia. Qed.
Lemma calibration_read : forall f pos l, 0 <= pos -> (exists r, skipn (Z.to_nat pos) f = words 4 l ++ r) -> Forall (word_ok 32) l -> 2 <= zlen l ->
  calibration f (Some (str "#" ++ str_int pos ++ str "," ++ str_int (zlen l))) = Ok (l, false).
Proof.
  intros f pos l P [r S] W L. unfold calibration. change (str "#" ++ str_int pos ++ str "," ++ str_int (zlen l)) with (35 :: str_int pos ++ 44 :: str_int (zlen l)). cbv beta iota. rewrite split_char_app by apply no_comma. rewrite split_char_nosep by apply no_comma. rewrite !parse_int_str_int. cbn [bind]. replace (pos <? 0) with false by lia.
  unfold read_numbers. rewrite skipz_skipn. rewrite S. rewrite four_words by exact W. cbn [fst]. destruct l as [|x l]; [unfold zlen in L; cbn in L; lia|]. cbn [bind]. replace (zlen (x :: l) =? 1) with false by lia. reflexivity.
Qed.
Theorem C89_axes : forall fit uniform h f c sc kx ky, lookup (str "Scaling") c = Some (Entries sc) -> calibrated f sc 88 kx -> calibrated f sc 89 ky ->
  get_axes fit uniform h f c = Ok ([y_axis fit uniform (h_lines h) (time_unit (lookup (entry 89 "Unit") sc)) ky; x_axis fit uniform (h_width h) (lookup (entry 88 "Unit") sc) kx], x_reversed kx).
Proof.
  intros fit uniform h f c sc kx ky HS HX HY. unfold get_axes, get_section. rewrite HS. cbn [bind]. unfold scaling_entry.
  change (str "ScalingX" ++ str "Unit") with (entry 88 "Unit"). change (str "ScalingY" ++ str "Unit") with (entry 89 "Unit"). change (str "ScalingX" ++ str "Type") with (entry 88 "Type"). change (str "ScalingY" ++ str "Type") with (entry 89 "Type"). change (str "ScalingX" ++ str "ScalingFile") with (entry 88 "ScalingFile"). change (str "ScalingY" ++ str "ScalingFile") with (entry 89 "ScalingFile").
  assert (US : forall t n, parse_int t = Ok n -> (if eqb_str t (str "us") then [181; 115] else t) = t) by (intros t n H; destruct (eqb_str t (str "us")) eqn:E; [apply eqb_str_spec in E; subst t; vm_compute in H; discriminate H|reflexivity]).
  assert (UC : forall a b, (if eqb_str (35 :: a ++ b) (str "us") then [181; 115] else 35 :: a ++ b) = 35 :: a ++ b) by (intros a b; reflexivity).
  assert (AX : exists tx, lookup (entry 88 "Type") sc = Some tx /\ parse_int tx = Ok (match kx with Uncalibrated => 1 | _ => 2 end) /\ forall u, set_axis fit uniform h f true (match kx with Uncalibrated => 1 | _ => 2 end) u (lookup (entry 88 "ScalingFile") sc) = Ok (x_axis fit uniform (h_width h) u kx, x_reversed kx)).
  { destruct kx as [|pos l]; [destruct HX as (t & L & T); exists t; repeat split; assumption|]. destruct HX as ((t & L & T) & F & P & R & W & N). exists t. split; [exact L|]. split; [exact T|]. intro u. unfold set_axis. cbn [Z.eqb Pos.eqb]. rewrite F. rewrite calibration_read by assumption. cbn [bind].
    destruct l as [|x0 [|x1 l]]; [unfold zlen in N; cbn in N; lia|unfold zlen in N; cbn in N; lia|]. cbn [bind]. unfold x_axis, x_reversed. change (gt32 x0 x1) with (reversed (x0 :: x1 :: l)). set (all := x0 :: x1 :: l) in *. set (dt := if reversed all then rev all else all). assert (LD : zlen dt = zlen all) by (unfold dt, zlen; destruct (reversed all); [rewrite rev_length|]; reflexivity).
    unfold scale_of. destruct uniform; [|cbn [bind]; rewrite LD; reflexivity]. destruct dt as [|a b] eqn:E; [unfold zlen in LD, N; cbn in LD; lia|]. replace (zlen (a :: b) =? 1) with false by lia. cbn [bind]. rewrite LD. reflexivity. }
  assert (AY : exists ty, lookup (entry 89 "Type") sc = Some ty /\ parse_int ty = Ok (match ky with Uncalibrated => 1 | _ => 2 end) /\ forall u, set_axis fit uniform h f false (match ky with Uncalibrated => 1 | _ => 2 end) u (match lookup (entry 89 "ScalingFile") sc with Some y => Some (if eqb_str y (str "us") then [181; 115] else y) | None => None end) = Ok (y_axis fit uniform (h_lines h) u ky, false)).
  { destruct ky as [|pos l]; [destruct HY as (t & L & T); exists t; repeat split; assumption|]. destruct HY as ((t & L & T) & F & P & R & W & N). exists t. split; [exact L|]. split; [exact T|]. intro u. unfold set_axis. cbn [Z.eqb Pos.eqb]. rewrite F. change (str "#" ++ str_int pos ++ str "," ++ str_int (zlen l)) with (35 :: str_int pos ++ (44 :: str_int (zlen l))). rewrite UC. change (35 :: str_int pos ++ (44 :: str_int (zlen l))) with (str "#" ++ str_int pos ++ str "," ++ str_int (zlen l)). rewrite calibration_read by assumption. cbn [bind].
    unfold y_axis, scale_of. destruct uniform; [|reflexivity]. destruct l as [|a b]; [unfold zlen in N; cbn in N; lia|]. replace (zlen (a :: b) =? 1) with false by lia. reflexivity. }
  destruct AX as (tx & X1 & X2 & X3). destruct AY as (ty & Y1 & Y2 & Y3). rewrite X1, Y1. rewrite (US _ _ Y2). cbn [int_of]. rewrite X2, Y2. cbn [bind]. rewrite X3. cbn [bind]. rewrite Y3. cbn [bind fst snd]. reflexivity.
Qed.

(** * Whole files *)
Definition as_shown (rev_x : bool) (rows : list (list Z)) : list Z := List.concat (if rev_x then map (@rev Z) rows else rows).
Lemma reshape_rows : forall axes rv n m rows, map a_size axes = [n; m] -> zlen rows = n -> Forall (fun r => zlen r = m) rows -> 0 < n -> 0 <= m -> reshape axes rv (List.concat rows) = Ok (as_shown rv rows).
Proof.
  intros axes rv n m rows A L R N M. unfold reshape. rewrite A. rewrite (row_total n m rows R L). replace ((0 <=? n) && (0 <=? m) && (n * m =? m * n)) with true by lia. unfold as_shown. destruct rv; [|reflexivity]. rewrite <- L. unfold zlen at 1. rewrite Nat2Z.id. rewrite <- (app_nil_r (List.concat rows)). rewrite records_concat; [reflexivity|]. eapply Forall_impl; [|exact R]. cbn beta. unfold zlen. intros. lia.
Qed.
Definition fits (n : Z) (k : cal) : Prop := match k with Tabulated _ l => zlen l = n | Uncalibrated => True end.
Theorem C89_image : forall fit float uniform name d k mark marker more text c sc kx ky g q dt sp, image_ok d -> texts d mark marker more text -> In (m_type d, k) kinds ->
  process_comment (without_zeros text) = Ok c -> lookup (str "Scaling") c = Some (Entries sc) -> calibrated (image_bytes d) sc 88 kx -> calibrated (image_bytes d) sc 89 ky -> fits (m_width d) kx -> fits (m_lines d) ky ->
  map_general name c = Ok g -> map_signal c = Ok q -> map_detector float c = Ok dt -> map_spectrometer float c = Ok sp ->
  file_reader fit float uniform name (image_bytes d) =
  Ok {| s_header := header_of d k mark marker more; s_comment := c;
        s_axes := [y_axis fit uniform (m_lines d) (time_unit (lookup (entry 89 "Unit") sc)) ky; x_axis fit uniform (m_width d) (lookup (entry 88 "Unit") sc) kx];
        s_data := as_shown (x_reversed kx) (m_rows d); s_general := g; s_quantity := q; s_detector := dt; s_spectrometer := sp |}.
Proof.
  intros fit float uniform name d k mark marker more text c sc kx ky g q dt sp OK TX K PC HS HX HY FX FY G Q D S. unfold file_reader. rewrite (C89_header d k mark marker more text OK TX K). cbn [bind]. rewrite PC. cbn [bind]. rewrite (C89_axes fit uniform _ _ c sc kx ky HS HX HY). cbn [bind]. cbn [h_lines h_width header_of].
  destruct OK as (_ & _ & _ & _ & W & H & _ & _ & _ & _ & _ & _ & _ & LR & R). destruct (in_rows _ _ _ R) as [_ RL].
  rewrite (reshape_rows _ _ (m_lines d) (m_width d) (m_rows d)); [|destruct kx, ky; cbn [map a_size x_axis y_axis]; cbn in FX, FY; congruence|exact LR|exact RL|lia|lia]. cbn [bind]. rewrite G, Q. cbn [bind]. rewrite D. cbn [bind]. rewrite S. reflexivity.
Qed.
(** The pixel shown at column x *)
Theorem C89_pixel : forall rv rows n m y x, zlen rows = n -> Forall (fun r => zlen r = m) rows -> 0 <= y < n -> 0 <= x < m ->
  nth (Z.to_nat (y * m + x)) (as_shown rv rows) 0 = nth (Z.to_nat (if rv : bool then m - 1 - x else x)) (nth (Z.to_nat y) rows []) 0.
Proof.
  intros rv rows n m y x L R Y X. unfold as_shown. subst n. set (shown := if rv then map (@rev Z) rows else rows).
  assert (RS : Forall (fun r => zlen r = m) shown). { unfold shown. destruct rv; [|exact R]. apply Forall_forall. intros r H. apply in_map_iff in H. destruct H as (r' & <- & H). unfold zlen. rewrite rev_length. exact (proj1 (Forall_forall _ _) R r' H). }
  assert (LS : (Z.to_nat y < List.length shown)%nat) by (unfold shown, zlen in *; destruct rv; [rewrite map_length|]; lia).
  assert (C : forall (l : list (list Z)) i, Forall (fun r => zlen r = m) l -> (i < List.length l)%nat -> nth (i * Z.to_nat m + Z.to_nat x) (List.concat l) 0 = nth (Z.to_nat x) (nth i l []) 0).
  { clear - X. intros l i H. revert i. induction H as [|r l Hr H IH]; intros i Hi; [cbn in Hi; lia|]. unfold zlen in Hr. cbn [List.concat]. destruct i as [|i]; cbn [Nat.mul Nat.add nth]; [apply app_nth1; lia|]. rewrite app_nth2 by lia. cbn [List.length] in Hi. replace (Z.to_nat m + i * Z.to_nat m + Z.to_nat x - List.length r)%nat with (i * Z.to_nat m + Z.to_nat x)%nat by lia. apply IH. lia. }
  replace (Z.to_nat (y * m + x)) with (Z.to_nat y * Z.to_nat m + Z.to_nat x)%nat by nia. rewrite C by assumption. unfold shown. destruct rv; [|reflexivity]. change (@nil Z) with (rev (@nil Z)) at 1. rewrite map_nth. assert (E : zlen (nth (Z.to_nat y) rows []) = m) by (apply (proj1 (Forall_forall _ _) R); apply nth_In; unfold zlen in Y; lia). unfold zlen in E. rewrite rev_nth by lia. f_equal. lia.
Qed.
(** Other kinds of files cannot be read *)
Theorem C89_kinds : forall z, ~ In z (map fst kinds) -> pixel_width (file_type_of z) = None.
Proof. intros z H. cbn in H. unfold file_type_of. replace (z =? 0) with false by lia. destruct (z =? 1); [reflexivity|]. replace (z =? 2) with false by lia. replace (z =? 3) with false by lia. reflexivity. Qed.
(** Tables that do not fit the image *)
Theorem C89_misfit : forall axes rv n m data, map a_size axes = [n; m] -> n * m <> zlen data -> reshape axes rv data = Err ValueError.
Proof. intros axes rv n m data A N. unfold reshape. rewrite A. replace (_ && _) with false by lia. reflexivity. Qed.
(** A calibrated image of one column cannot be read *)
Theorem C89_column_refuted : forall fit uniform h f sc c pos w r, lookup (str "Scaling") c = Some (Entries sc) -> 0 <= pos -> skipn (Z.to_nat pos) f = le 4 w ++ r -> word_ok 32 w ->
  lookup (entry 88 "Type") sc = Some (str "2") -> lookup (entry 89 "Type") sc = Some (str "1") -> lookup (entry 88 "ScalingFile") sc = Some (str "#" ++ str_int pos ++ str "," ++ str "1") -> get_axes fit uniform h f c = Err IndexError.
Proof.
  intros fit uniform h f sc c pos w r HS P S W X Y F. unfold get_axes, get_section. rewrite HS. cbn [bind]. unfold scaling_entry. change (str "ScalingX" ++ str "Type") with (entry 88 "Type"). change (str "ScalingY" ++ str "Type") with (entry 89 "Type"). change (str "ScalingX" ++ str "ScalingFile") with (entry 88 "ScalingFile"). rewrite X, Y, F. 
  change (if eqb_str (str "1") (str "us") then [181; 115] else str "1") with (str "1"). cbn [int_of]. change (parse_int (str "2")) with (Ok 2). change (parse_int (str "1")) with (Ok 1). cbn [bind]. unfold set_axis at 1. cbn [Z.eqb Pos.eqb]. unfold calibration. change (str "#" ++ str_int pos ++ str "," ++ str "1") with (35 :: str_int pos ++ 44 :: str "1"). cbv beta iota. rewrite split_char_app by apply no_comma. change (split_char 44 (str "1")) with [str "1"]. rewrite parse_int_str_int. cbn [bind]. change (parse_int (str "1")) with (Ok 1). cbn [bind]. replace (pos <? 0) with false by lia.
  unfold read_numbers. rewrite skipz_skipn. rewrite S. replace (le 4 w ++ r) with (words 4 [w] ++ r) by (cbn [words flat_map]; rewrite app_nil_r; reflexivity). pose proof (four_words [w] r ltac:(constructor; [exact W|constructor])) as R. change (zlen [w]) with 1 in R. rewrite R. reflexivity.
Qed.
(** A table before the start of the file, and an image of one pixel that is cut off, are refused *)
Theorem C89_before : forall fit uniform h f sc c pos n, lookup (str "Scaling") c = Some (Entries sc) -> pos < 0 ->
  lookup (entry 88 "Type") sc = Some (str "2") -> lookup (entry 89 "Type") sc = Some (str "1") -> lookup (entry 88 "ScalingFile") sc = Some (str "#" ++ str_int pos ++ str "," ++ str_int n) -> get_axes fit uniform h f c = Err IOError.
Proof.
  intros fit uniform h f sc c pos n HS P X Y F. unfold get_axes, get_section. rewrite HS. cbn [bind]. unfold scaling_entry. change (str "ScalingX" ++ str "Type") with (entry 88 "Type"). change (str "ScalingY" ++ str "Type") with (entry 89 "Type"). change (str "ScalingX" ++ str "ScalingFile") with (entry 88 "ScalingFile"). rewrite X, Y, F.
  change (if eqb_str (str "1") (str "us") then [181; 115] else str "1") with (str "1"). cbn [int_of]. change (parse_int (str "2")) with (Ok 2). change (parse_int (str "1")) with (Ok 1). cbn [bind]. unfold set_axis at 1. cbn [Z.eqb Pos.eqb]. unfold calibration. change (str "#" ++ str_int pos ++ str "," ++ str_int n) with (35 :: str_int pos ++ 44 :: str_int n). cbv beta iota. rewrite split_char_app by apply no_comma. rewrite split_char_nosep by apply no_comma. rewrite !parse_int_str_int. cbn [bind]. replace (pos <? 0) with true by lia. reflexivity.
Qed.
Theorem C89_cut : forall d mark marker more comment p, image_ok d -> texts d mark marker more comment -> m_width d = 1 -> m_lines d = 1 -> m_rows d = [[p]] ->
  parse_file (firstn (List.length (image_bytes d) - List.length (le (m_bytes d) p ++ m_rest d)) (image_bytes d)) = Err IndexError.
Proof.
  intros d mark marker more comment p (L1 & L2 & L3 & LC & W & H & X & Y & I & C1 & C2 & T & PT & LR & R) (T1 & T2 & T3 & T4) W1 H1 RW.
  assert (CB : forall (a b : list Z), firstn (List.length (a ++ b) - List.length b) (a ++ b) = a) by (intros a b; rewrite app_length; replace (List.length a + List.length b - List.length b)%nat with (List.length a) by lia; rewrite firstn_app, Nat.sub_diag, firstn_all; apply app_nil_r).
  assert (IB : image_bytes d = (m_mark d ++ le 2 (zlen (m_comment d)) ++ le 2 (m_width d) ++ le 2 (m_lines d) ++ le 2 (m_x d) ++ le 2 (m_y d) ++ le 2 (m_type d) ++ le 4 (m_images d) ++ le 2 (m_channels d) ++ le 2 (m_channel d) ++ le 8 (m_time d) ++ m_marker d ++ m_info d ++ m_comment d ++ []) ++ le (m_bytes d) p ++ m_rest d) by (unfold image_bytes; rewrite RW; cbn [List.concat app words flat_map]; rewrite app_nil_r, <- !app_assoc; reflexivity).
  rewrite IB, CB. clear CB IB. unfold parse_file.
  replace 2 with (zlen (m_mark d)) at 1 by (unfold zlen; lia). rewrite (text_front _ _ _ T1). cbn [bind]. pose proof (zlen_nonneg _ (m_comment d)) as P.
  assert (ST : short (m_type d)) by (unfold pixel_types in PT; cbn [In] in PT; unfold short; destruct PT as [E|[E|[E|[]]]]; injection E as E _; lia).
  rewrite short_front by (unfold short; lia). cbn [bind]. rewrite short_front by (unfold short; lia). cbn [bind]. rewrite short_front by (unfold short; lia). cbn [bind]. rewrite short_front by exact X. cbn [bind]. rewrite short_front by exact Y. cbn [bind]. rewrite short_front by exact ST. cbn [bind].
  pose proof (signed_front 4 (m_images d)) as S4. change (Z.of_nat 4) with 4 in S4. rewrite S4 by (first [lia|exact I]). clear S4. cbn [bind]. rewrite short_front by exact C1. cbn [bind]. rewrite short_front by exact C2. cbn [bind].
  pose proof (word_front 8 (m_time d)) as S8. change (Z.of_nat 8) with 8 in S8. rewrite S8 by (first [lia|exact T]). clear S8. cbn [bind].
  replace 4 with (zlen (m_marker d)) at 1 by (unfold zlen; lia). rewrite (text_front _ _ _ T2). cbn [bind]. replace 30 with (zlen (m_info d)) at 1 by (unfold zlen; lia). rewrite (text_front _ _ _ T3). cbn [bind]. rewrite (text_front _ _ _ T4). cbn [bind].
  assert (RN : forall w, 0 < w -> read_numbers w (m_width d * m_lines d) [] = Err IndexError) by (intros w P0; rewrite W1, H1; unfold read_numbers, read_words; cbn [fst]; change (zlen (@nil Z)) with 0; rewrite Z.div_0_l by lia; reflexivity).
  unfold pixel_types in PT. cbn [In] in PT. destruct PT as [E|[E|[E|[]]]]; injection E as E1 E2; rewrite <- E1 in *; cbn [file_type_of pixel_width Z.eqb Pos.eqb]; rewrite RN by lia; reflexivity.
Qed.

Print Assumptions C89_header.
Print Assumptions C89_axes.
Print Assumptions C89_image.
Print Assumptions C89_pixel.
Print Assumptions C89_kinds.
Print Assumptions C89_misfit.
Print Assumptions C89_column_refuted.
Print Assumptions C89_before.
Print Assumptions C89_cut.
