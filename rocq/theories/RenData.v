(** Property C83: data and axes of Renishaw files. *)
From Coq Require Import QArith.
From Verif Require Import Base Text Bytes Utf8 SfsModel SfsProps BcfUnpack HierModel RowMajor SurFloat SurQuantity RenModel RenBlocks RenPset.
Local Open Scope Z_scope.

(** * Specification *)
Definition words (w : nat) (l : list Z) : list Z := flat_map (le w) l.
Definition has (bs : list blk) (key : string) (body : list Z) : Prop := exists b r, In b bs /\ key_of b = str key /\ b_body b = body ++ r.
Definition without (bs : list blk) (keys : list string) : Prop := forall k, In k keys -> ~ In (str k) (map key_of bs).
Definition metadata_keys : list string := ["YLST_0"; "WXIS_0"; "WXCS_0"; "WXDA_0"; "ZLDC_0"; "WARP_0"; "WARP_1"; "WXDM_0"; "MAP_0"; "MAP_1"; "TEXT_0"]%string.
(** Origins: one number of 64 bits for every spectrum *)
Record orig := { r_type : Z; r_unit : Z; r_note : list Z; r_data : list Z }.
Definition orig_bytes (o : orig) : list Z := le 4 (r_type o) ++ le 4 (r_unit o) ++ r_note o ++ words 8 (r_data o).
Definition known_types : list Z := zseq 0 20 ++ zseq 22 6.
Definition orig_ok (n : Z) (o : orig) : Prop :=
  In (r_type o) known_types /\ 0 <= r_unit o < 2 ^ 32 /\ List.length (r_note o) = 16%nat /\ Forall (fun c => 0 <= c < 128) (r_note o) /\ zlen (r_data o) = n /\ Forall (fun x => 0 <= x < 2 ^ 63) (r_data o).
(** Single precision words: a larger than b *)
Definition above (a b : Z) : bool := gt32 a b.
Definition reversed (xs : list Z) : bool := match xs with x0 :: x1 :: _ => above x0 x1 | _ => false end.
Record parts := { p_header : header; p_unit : Z; p_list : list Z; p_spectra : list (list Z); p_origins : list orig }.
Definition word_ok (n : Z) (x : Z) : Prop := 0 <= x < 2 ^ n.
Definition parts_ok (d : parts) : Prop :=
  let h := p_header d in
  2 <= zlen (p_list d) /\ zlen (p_list d) = h_points h /\ Forall (word_ok 32) (p_list d) /\ word_ok 32 (p_unit d) /\
  zlen (p_spectra d) = h_spectra h /\ 0 < h_spectra h /\ Forall (fun s => zlen s = h_points h /\ Forall (word_ok 32) s) (p_spectra d) /\
  Forall (orig_ok (h_spectra h)) (p_origins d) /\ NoDup (map r_type (p_origins d)) /\ zlen (p_origins d) < 2 ^ 32.
Definition is_file (bs : list blk) (d : parts) : Prop :=
  Forall blk_ok bs /\ NoDup (map key_of bs) /\ without bs metadata_keys /\ parse_header (table_of 0 bs) (file_of bs) = Ok (p_header d) /\
  (exists t, word_ok 32 t /\ has bs "XLST_0" (le 4 t ++ le 4 (p_unit d) ++ words 4 (p_list d))) /\
  has bs "DATA_0" (words 4 (List.concat (p_spectra d))) /\
  has bs "ORGN_0" (le 4 (zlen (p_origins d)) ++ List.concat (map orig_bytes (p_origins d))).
Record grid := { g_flag : Z; g_offset : list Z; g_scale : list Z; g_size : list Z }.
Definition grid_bytes (unused lines : Z) (g : grid) : list Z := le 4 (g_flag g) ++ le 4 unused ++ words 4 (g_offset g) ++ words 4 (g_scale g) ++ words 4 (g_size g) ++ le 4 lines.
Definition grid_ok (g : grid) : Prop := word_ok 32 (g_flag g) /\ List.length (g_offset g) = 3%nat /\ List.length (g_scale g) = 3%nat /\ List.length (g_size g) = 3%nat /\ Forall (word_ok 32) (g_offset g ++ g_scale g ++ g_size g).
Definition has_grid (bs : list blk) (g : grid) : Prop := grid_ok g /\ exists unused lines, word_ok 32 unused /\ word_ok 32 lines /\ has bs "WMAP_0" (grid_bytes unused lines g).
(** Origins that are axes *)
Definition is_axis (o : orig) : bool := negb ((r_type o =? 16) || (r_type o =? 17)).
Definition timeless (o : orig) : bool := negb (r_type o =? 11).
Definition signal_axis (fit : list Z -> number * number) (uniform : bool) (i : Z) (d : parts) : axis :=
  let data := if reversed (p_list d) then rev (p_list d) else p_list d in
  {| a_name := signal_name (p_unit d); a_size := h_points (p_header d); a_index := Some i; a_units := Some (unit_text (p_unit d));
     a_scaling := if uniform then Uniform (fst (fit data)) (snd (fit data)) else Values data; a_navigate := false |}.
Definition ordered (d : parts) (spectra : list (list Z)) : list Z := List.concat (if reversed (p_list d) then map (@rev Z) spectra else spectra).
Definition no_acquisition : acquisition := {| q_wavenumber := None; q_groove := None; q_model := None; q_temperature := None; q_frames := None; q_exposure := None; q_cosmic := None |}.
Definition result (d : parts) (shape data : list Z) (axes : list axis) : signal :=
  {| s_header := p_header d; s_shape := shape; s_data := data; s_axes := axes; s_acquisition := no_acquisition; s_date := date_and_time (h_start (p_header d)); s_original := []; s_unmatched := [] |}.

(** * Contents of blocks *)
Lemma block_at : forall bs key body, Forall blk_ok bs -> NoDup (map key_of bs) -> has bs key body -> exists pos size r, find_block key (table_of 0 bs) = Some (pos, size) /\ skipz pos (file_of bs) = body ++ r /\ 0 <= pos.
Proof.
  intros bs key body OK ND (b & r0 & I & K & E). destruct (C81_contents bs OK b I ND) as (pos & size & L & S & B & P & _). exists pos, size, (r0 ++ skipn (Z.to_nat (size - 16)) (skipz pos (file_of bs))). split; [unfold find_block; rewrite <- K; exact L|]. split; [|exact P].
  rewrite app_assoc, <- E, <- B. unfold bytes_at, slice. rewrite skipz_skipn. symmetry. apply firstn_skipn.
Qed.
Lemma table_keys : forall bs pos, map fst (table_of pos bs) = map key_of bs.
Proof. induction bs as [|b bs IH]; intro pos; [reflexivity|]. cbn [table_of map fst]. rewrite IH. reflexivity. Qed.
Lemma lookup_absent : forall A k (l : list (pystr * A)), ~ In k (map fst l) -> lookup k l = None.
Proof. intros A k l H. induction l as [|[j v] l IH]; [reflexivity|]. cbn [lookup]. replace (eqb_str k j) with false; [apply IH; intro K; apply H; right; exact K|]. symmetry. apply eqb_str_neq. intros ->. apply H. left. reflexivity. Qed.
Lemma no_block : forall bs keys k, without bs keys -> In k keys -> find_block k (table_of 0 bs) = None.
Proof. intros bs keys k W I. unfold find_block. apply lookup_absent. rewrite table_keys. apply W. exact I. Qed.
Lemma words_length : forall w l, zlen (words w l) = zlen l * Z.of_nat w.
Proof. intros w l. unfold words, zlen. induction l as [|x l IH]; [reflexivity|]. cbn [flat_map List.length]. rewrite app_length, le_length. lia. Qed.
Lemma words_read_front : forall w l r, (0 < w)%nat -> Forall (fun x => 0 <= x < 256 ^ Z.of_nat w) l -> read_words (Z.of_nat w) (zlen l) (words w l ++ r) = (l, r).
Proof.
  intros w l r W H. unfold read_words. pose proof (words_length w l) as L. pose proof (zlen_nonneg _ l) as P. pose proof (zlen_nonneg _ r) as Pr. replace (zlen l <? 0) with false by lia. replace (0 <=? zlen l) with true by lia. assert (D : zlen l <= zlen (words w l ++ r) / Z.of_nat w) by (apply Z.div_le_lower_bound; [lia|]; rewrite zlen_app, L; nia).
  replace (zlen l <=? _) with true by lia. cbn [andb]. rewrite Z.min_l by exact D. rewrite Nat2Z.id. unfold zlen at 1. rewrite Nat2Z.id. f_equal.
  - unfold words. rewrite flat_map_concat_map. rewrite <- (map_length (le w) l) at 1. rewrite records_concat by (apply Forall_forall; intros x Hx; apply in_map_iff in Hx; destruct Hx as (y & <- & _); apply le_length). rewrite map_map. rewrite <- (map_id l) at 2. apply map_ext_in. intros x Hx. rewrite le_val_le. apply Z.mod_small. exact (proj1 (Forall_forall _ _) H x Hx).
  - rewrite <- L. apply skipz_app.
Qed.
Lemma four_words : forall l r, Forall (word_ok 32) l -> read_words 4 (zlen l) (words 4 l ++ r) = (l, r).
Proof. intros l r H. exact (words_read_front 4 l r ltac:(lia) H). Qed.
Lemma each_front : forall l r, Forall (word_ok 32) l -> read_each 4 (List.length l) (words 4 l ++ r) = Ok (l, r).
Proof. intros l r H. induction H as [|x l Hx H IH]; [reflexivity|]. cbn [List.length read_each]. change (words 4 (x :: l)) with (le 4 x ++ words 4 l). rewrite <- app_assoc. rewrite quad_front by exact Hx. cbn [bind]. rewrite IH. reflexivity. Qed.

(** * Origins *)
Definition origin_of (o : orig) : origin :=
  {| o_type := r_type o; o_units := unit_text (r_unit o); o_note := true; o_data := if r_type o =? 11 then map (fun y => y - hd 0 (r_data o)) (r_data o) else r_data o |}.
Lemma known_in : forall t, In t known_types -> known_type (t mod 2 ^ 31) = t /\ 0 <= t < 28.
Proof. intros t H. unfold known_types in H. apply in_app_or in H. assert (R : (0 <= t <= 19) \/ (22 <= t <= 27)) by (destruct H as [H|H]; apply in_zseq in H; cbn in H; lia). split; [|lia]. rewrite Z.mod_small by lia. unfold known_type. replace (_ || _) with true by lia. reflexivity. Qed.
Lemma put_origin_fresh : forall o l, ~ In (o_type o) (map o_type l) -> put_origin o l = l ++ [o].
Proof. intros o l H. induction l as [|a l IH]; [reflexivity|]. cbn [put_origin map] in *. replace (o_type a =? o_type o) with false by (symmetry; apply Z.eqb_neq; intro E; apply H; left; exact E). rewrite IH by (intro K; apply H; right; exact K). reflexivity. Qed.
Lemma ascii_note : forall n, Forall (fun c => 0 <= c < 128) n -> utf8_decode n = Ok n.
Proof. intros n H. induction H as [|c n Hc H IH]; [reflexivity|]. cbn [utf8_decode]. replace (c <? 128) with true by lia. rewrite IH. reflexivity. Qed.
Lemma origins_read : forall n os nav r, 0 < n -> Forall (orig_ok n) os -> NoDup (map o_type nav ++ map r_type os) ->
  parse_origins (List.length os) n nav (List.concat (map orig_bytes os) ++ r) = Ok (nav ++ map origin_of (filter is_axis os)).
Proof.
  intros n os. induction os as [|o os IH]; intros nav r N H ND; [cbn; rewrite app_nil_r; reflexivity|]. inversion H as [|? ? (T & U & L & A & D & W) H']; subst. cbn [List.length parse_origins map List.concat]. unfold orig_bytes at 1. rewrite <- !app_assoc.
  destruct (known_in _ T) as [KT RT]. rewrite quad_front by lia. cbn [bind]. rewrite KT. rewrite quad_front by exact U. cbn [bind]. assert (Z16 : 16 = zlen (r_note o)) by (unfold zlen; lia). assert (F16 : forall r', firstz 16 (r_note o ++ r') = r_note o) by (intro; rewrite Z16; apply firstz_front). assert (S16 : forall r', skipz 16 (r_note o ++ r') = r') by (intro; rewrite Z16; apply skipz_front). rewrite F16, S16. rewrite (ascii_note _ A). cbn [is_ok]. 
  pose proof (words_read_front 8 (r_data o) (List.concat (map orig_bytes os) ++ r) ltac:(lia)) as R. change (Z.of_nat 8) with 8 in R. rewrite R by (eapply Forall_impl; [|exact W]; cbn beta; intros; lia). clear R.
  assert (E : (if is_time (r_type o) then match map (signed 8) (r_data o) with [] => Err IndexError | x :: l => Ok (x - x :: map (fun y => y - x) l) end else Ok (r_data o)) = Ok (o_data (origin_of o))).
  { unfold origin_of, is_time. cbn [o_data]. destruct (r_type o =? 11); [|reflexivity]. assert (S : map (signed 8) (r_data o) = r_data o). { rewrite <- (map_id (r_data o)) at 2. apply map_ext_in. intros x Hx. pose proof (proj1 (Forall_forall _ _) W x Hx) as B. cbn beta in B. unfold signed. change (8 * Z.of_nat 8) with 64. replace (x <? 2 ^ (64 - 1)) with true by lia. reflexivity. }
    rewrite S. destruct (r_data o) as [|x l] eqn:Ed; [exfalso; try rewrite Ed in N; unfold zlen in N; cbn in N; lia|]. reflexivity. }
  cbv beta iota zeta. rewrite E. cbn [bind]. clear E. cbn [filter]. unfold is_axis at 1. destruct ((r_type o =? 16) || (r_type o =? 17)) eqn:X; cbn [negb].
  - apply IH; [exact N|exact H'|]. cbn [map] in ND. apply NoDup_remove_1 in ND. exact ND.
  - rewrite put_origin_fresh by (cbn [o_type]; cbn [map] in ND; apply NoDup_remove_2 in ND; intro K; apply ND; apply in_or_app; left; exact K).
    rewrite IH; [|exact N|exact H'|rewrite map_app, <- app_assoc; exact ND]. cbn [map]. rewrite <- app_assoc. reflexivity.
Qed.

(** * Reading a file *)
Definition plain_axis (fit : list Z -> number * number) (uniform : bool) (d : parts) : axis :=
  let a := signal_axis fit uniform 0 d in {| a_name := a_name a; a_size := a_size a; a_index := None; a_units := a_units a; a_scaling := a_scaling a; a_navigate := a_navigate a |}.
Definition nav_of (d : parts) : list origin :=
  let nav := map origin_of (filter is_axis (p_origins d)) in
  match h_type (p_header d), nav with Series, ([] | [_]) => nav | _, _ => filter (fun o => negb (is_time (o_type o))) nav end.
Lemma xlist_read : forall fit uniform bs d, is_file bs d -> parts_ok d -> parse_xlist fit uniform (table_of 0 bs) (p_header d) (file_of bs) = Ok (plain_axis fit uniform d, reversed (p_list d)).
Proof.
  intros fit uniform bs d (OK & ND & _ & _ & (t & Ht & HX) & _) (L2 & LP & WX & WU & _). destruct (block_at bs _ _ OK ND HX) as (pos & size & r & F & S & _). unfold parse_xlist. rewrite F. unfold parse_list. rewrite S. rewrite <- !app_assoc. rewrite quad_front by exact Ht. cbn [bind snd]. rewrite quad_front by exact WU. cbn [bind]. unfold read_single. change (kind_width F4) with 4. rewrite <- LP. rewrite four_words by exact WX. cbv beta iota zeta. replace (zlen (p_list d) =? 1) with false by lia. cbn [bind fst snd]. unfold kind_value. rewrite map_id.
  unfold plain_axis, signal_axis. rewrite <- LP. destruct (p_list d) as [|x0 [|x1 l]] eqn:E; [unfold zlen in L2; cbn in L2; lia|unfold zlen in L2; cbn in L2; lia|]. reflexivity.
Qed.
Lemma orgn_read : forall bs d, is_file bs d -> parts_ok d -> parse_orgn (table_of 0 bs) (p_header d) (file_of bs) = Ok (nav_of d).
Proof.
  intros bs d (OK & ND & _ & _ & _ & _ & HO) (_ & _ & _ & _ & _ & N & _ & O & NT & LO). destruct (block_at bs _ _ OK ND HO) as (pos & size & r & F & S & _). unfold parse_orgn. rewrite F, S. rewrite <- app_assoc. rewrite quad_front by (split; [apply zlen_nonneg|exact LO]). cbn [bind]. unfold zlen at 1. rewrite Nat2Z.id. rewrite origins_read; [reflexivity|exact N|exact O|exact NT].
Qed.
Lemma spectra_length : forall n (l : list (list Z)), Forall (fun s => zlen s = n) l -> zlen (List.concat l) = n * zlen l.
Proof. intros n l H. induction H as [|s l Hs H IH]; [unfold zlen; cbn; lia|]. cbn [List.concat]. rewrite zlen_app, IH, Hs. change (s :: l) with ([s] ++ l). rewrite zlen_app. change (zlen [s]) with 1. lia. Qed.
Lemma parts_spectra : forall d, parts_ok d -> Forall (fun s => zlen s = h_points (p_header d)) (p_spectra d).
Proof. intros d (_ & _ & _ & _ & _ & _ & H & _). eapply Forall_impl; [|exact H]. cbn beta. intros s [A _]. exact A. Qed.
Lemma data_read : forall bs d, is_file bs d -> parts_ok d -> parse_data (table_of 0 bs) (p_header d) (file_of bs) = Ok (List.concat (p_spectra d)).
Proof.
  intros bs d (OK & ND & _ & _ & _ & HD & _) P. pose proof (parts_spectra d P) as SL. destruct P as (_ & _ & _ & _ & LS & _ & HS & _). destruct (block_at bs _ _ OK ND HD) as (pos & size & r & F & S & _). unfold parse_data. rewrite F, S. rewrite <- LS. rewrite <- (spectra_length _ _ SL). rewrite four_words; [reflexivity|].
  clear - HS. induction HS as [|s l [_ Hs] H IH]; [constructor|]. cbn [List.concat]. apply Forall_app. split; assumption.
Qed.
Lemma wmap_read : forall bs g, Forall blk_ok bs -> NoDup (map key_of bs) -> has_grid bs g -> parse_wmap (table_of 0 bs) (file_of bs) = Ok (Some {| w_flag := g_flag g; w_offset := g_offset g; w_scale := g_scale g; w_size := g_size g |}).
Proof.
  intros bs g OK ND ((Wf & L1 & L2 & L3 & W) & u & n & Wu & Wn & HW). destruct (block_at bs _ _ OK ND HW) as (pos & size & r & F & S & _). unfold parse_wmap. rewrite F, S. unfold grid_bytes. rewrite <- !app_assoc. rewrite quad_front by exact Wf. cbn [bind]. rewrite quad_front by exact Wu. cbn [bind]. apply Forall_app in W. destruct W as [W1 W]. apply Forall_app in W. destruct W as [W2 W3].
  rewrite <- L1 at 1. rewrite each_front by exact W1. cbn [bind]. rewrite <- L2 at 1. rewrite each_front by exact W2. cbn [bind]. rewrite <- L3 at 1. rewrite each_front by exact W3. cbn [bind]. rewrite quad_front by exact Wn. reflexivity.
Qed.
Lemma read_core : forall fit mean uniform bs d w, is_file bs d -> parts_ok d -> parse_wmap (table_of 0 bs) (file_of bs) = Ok w ->
  read_file fit mean uniform (file_of bs) =
  let! nav := nav_axes (p_header d) (nav_of d) w in let! axes := all_axes (plain_axis fit uniform d) nav in
  let! p := reshape mean (p_header d) axes (plain_axis fit uniform d) (reversed (p_list d)) (List.concat (p_spectra d)) in Ok (result d (fst p) (snd p) axes).
Proof.
  intros fit mean uniform bs d w HF P HW. pose proof HF as (OK & ND & NM & HH & _). unfold read_file. pose proof (C81_blocks bs OK ND) as B. unfold locate in B. rewrite B. cbn [bind]. rewrite HH. cbn [bind]. unfold parse_ylist.
  assert (NB : forall k, In k metadata_keys -> find_block k (table_of 0 bs) = None) by (intros k Hk; apply (no_block bs metadata_keys k NM Hk)).
  rewrite NB by (cbn; tauto). cbn [bind parse_all]. unfold parse_metadata, pset_size. rewrite !NB by (cbn; tauto). cbn [bind Z.eqb map_wxdm lookup]. unfold parse_map, parse_text. rewrite !NB by (cbn; tauto). cbn [bind]. rewrite xlist_read, orgn_read, data_read by assumption. cbn [bind]. rewrite HW. cbn [bind].
  destruct (nav_axes (p_header d) (nav_of d) w) as [nav|e]; [|reflexivity]. cbn [bind]. destruct (all_axes (plain_axis fit uniform d) nav) as [axes|e]; [|reflexivity]. cbn [bind]. destruct (reshape _ _ _ _ _ _) as [p|e]; [|reflexivity]. reflexivity.
Qed.
Lemma signal_size_plain : forall fit uniform d, parts_ok d -> signal_size (plain_axis fit uniform d) = h_points (p_header d).
Proof. intros fit uniform d (_ & LP & _). unfold signal_size, plain_axis, signal_axis. cbn [a_scaling a_size]. destruct uniform; [reflexivity|]. destruct (reversed (p_list d)); [unfold zlen; rewrite rev_length; exact LP|exact LP]. Qed.
Lemma prodZ_end : forall a n, prodZ (a ++ [n]) = prodZ a * n.
Proof. intros a n. induction a as [|x a IH]; [unfold prodZ; cbn [app fold_right]; lia|]. cbn [app]. change (prodZ (x :: a ++ [n])) with (x * prodZ (a ++ [n])). change (prodZ (x :: a)) with (x * prodZ a). rewrite IH. lia. Qed.
(** The first [k] spectra, in their order *)
Lemma reshape_spectra : forall mean d axes sig k, parts_ok d -> signal_size sig = h_points (p_header d) -> prodZ (map a_size (removelast axes)) = k -> 0 <= k <= zlen (p_spectra d) ->
  unfinished (p_header d) = true \/ k = h_spectra (p_header d) ->
  reshape mean (p_header d) axes sig (reversed (p_list d)) (List.concat (p_spectra d)) = Ok (map a_size (removelast axes) ++ [h_points (p_header d)], ordered d (firstz k (p_spectra d))).
Proof.
  intros mean d axes sig k P HS HK R U. unfold reshape. rewrite HK. replace (negb (unfinished (p_header d)) && negb (h_spectra (p_header d) =? k)) with false by (destruct U as [-> | <-]; [reflexivity|rewrite Z.eqb_refl; destruct (unfinished (p_header d)); reflexivity]).
  cbn [bind]. rewrite HS. rewrite prodZ_end, HK. pose proof (parts_spectra d P) as SL. rewrite (spectra_length _ _ SL). set (n := h_points (p_header d)) in *.
  assert (N : 2 <= n) by (destruct P as (A & B & _); unfold n; lia). replace (0 <=? k * n) with true by nia. replace (k * n <=? n * zlen (p_spectra d)) with true by nia. cbn [andb]. f_equal. f_equal. unfold ordered.
  assert (Q : firstz (k * n) (List.concat (p_spectra d)) = List.concat (firstz k (p_spectra d)) /\ Forall (fun s => List.length s = Z.to_nat n) (firstz k (p_spectra d)) /\ List.length (firstz k (p_spectra d)) = Z.to_nat k).
  { rewrite !firstz_firstn. repeat split.
    - replace (Z.to_nat (k * n)) with (Z.to_nat k * Z.to_nat n)%nat by nia. generalize (Z.to_nat k) as j. clear - SL N. induction SL as [|s l Hs SL IH]; intro j; [rewrite !firstn_nil; reflexivity|]. destruct j as [|j]; [reflexivity|]. cbn [firstn List.concat]. rewrite firstn_app. unfold zlen in Hs. rewrite firstn_all2 by lia. f_equal. replace (S j * Z.to_nat n - List.length s)%nat with (j * Z.to_nat n)%nat by lia. apply IH.
    - apply Forall_forall. intros s Hs. assert (I : In s (p_spectra d)) by (rewrite <- (firstn_skipn (Z.to_nat k)); apply in_or_app; left; exact Hs). clear Hs. rename I into Hs. pose proof (proj1 (Forall_forall _ _) SL s Hs) as E. cbn beta in E. unfold zlen in E. lia.
    - rewrite firstn_length. unfold zlen in R. lia. }
  destruct Q as (Q1 & Q2 & Q3). rewrite Q1. destruct (reversed (p_list d)); [|reflexivity]. rewrite <- Q3. rewrite <- (app_nil_r (List.concat (firstz k (p_spectra d)))). rewrite records_concat by exact Q2. reflexivity.
Qed.

(** * Maps *)
Definition map_axis (name : string) (i size : Z) (o : orig) (offset scale : Z) : axis :=
  {| a_name := str name; a_size := size; a_index := Some i; a_units := Some (unit_text (r_unit o)); a_scaling := Uniform (Word4 offset) (Word4 scale); a_navigate := true |}.
Definition spatial (d : parts) : list orig := filter (fun o => is_axis o && timeless o) (p_origins d).
Lemma timeless_map : forall l, filter (fun o => negb (is_time (o_type o))) (map origin_of (filter is_axis l)) = map origin_of (filter (fun o => is_axis o && timeless o) l).
Proof.
  intro l. induction l as [|o l IH]; [reflexivity|]. cbn [filter]. destruct (is_axis o); cbn [andb]; [|exact IH]. cbn [map filter]. unfold is_time at 1, timeless at 1. change (o_type (origin_of o)) with (r_type o). destruct (r_type o =? 11); cbn [negb]; [exact IH|]. cbn [map]. rewrite IH. reflexivity.
Qed.
Lemma nav_map : forall d, h_type (p_header d) <> Series -> nav_of d = map origin_of (spatial d).
Proof. intros d H. unfold nav_of, spatial. rewrite timeless_map. destruct (h_type (p_header d)); try reflexivity. contradiction. Qed.
Lemma all_two : forall sig x y, all_axes sig [(str "X", x); (str "Y", y)] = Ok [at_index 0 y; at_index 1 x; at_index 2 sig].
Proof. reflexivity. Qed.
Definition free_axis (name : string) (size : Z) (units : pystr) (offset scale : Z) : axis :=
  {| a_name := str name; a_size := size; a_index := None; a_units := Some units; a_scaling := Uniform (Word4 offset) (Word4 scale); a_navigate := true |}.
Lemma grid_axes : forall h g u nx ny nz x0 y0 z0 dx dy dz, g_flag g <> 128 -> g_size g = [nx; ny; nz] -> g_offset g = [x0; y0; z0] -> g_scale g = [dx; dy; dz] ->
  map_axes h {| w_flag := g_flag g; w_offset := g_offset g; w_scale := g_scale g; w_size := g_size g |} u =
  [(str "X", free_axis "X" nx u x0 dx); (str "Y", free_axis "Y" (if unfinished h then h_spectra h / nx else ny) u y0 dy)].
Proof. intros h g u nx ny nz x0 y0 z0 dx dy dz Fl -> -> ->. unfold map_axes. cbn [w_flag w_size w_offset w_scale]. replace (g_flag g =? 128) with false by lia. reflexivity. Qed.
Theorem C83_map : forall fit mean uniform bs d g o os nx ny nz x0 y0 z0 dx dy dz, is_file bs d -> parts_ok d -> has_grid bs g ->
  h_type (p_header d) = Mapping -> h_spectra (p_header d) = h_capacity (p_header d) -> spatial d = o :: os ->
  g_flag g <> 128 -> g_size g = [nx; ny; nz] -> g_offset g = [x0; y0; z0] -> g_scale g = [dx; dy; dz] -> nx * ny = h_spectra (p_header d) ->
  read_file fit mean uniform (file_of bs) =
  Ok (result d [ny; nx; h_points (p_header d)] (ordered d (p_spectra d)) [map_axis "Y" 0 ny o y0 dy; map_axis "X" 1 nx o x0 dx; signal_axis fit uniform 2 d]).
Proof.
  intros fit mean uniform bs d g o os nx ny nz x0 y0 z0 dx dy dz HF P HG T C So Fl Gs Go Gc N. pose proof HF as (OK & ND & _). rewrite (read_core fit mean uniform bs d _ HF P (wmap_read bs g OK ND HG)). unfold nav_axes. rewrite T. rewrite nav_map by (rewrite T; discriminate). rewrite So. cbn [map bind].
  rewrite (grid_axes _ _ _ nx ny nz x0 y0 z0 dx dy dz) by assumption. unfold unfinished. rewrite C, Z.eqb_refl. cbn [negb]. rewrite all_two. cbn [bind]. change (o_units (origin_of o)) with (unit_text (r_unit o)).
  set (axes := [_; _; _]). rewrite (reshape_spectra mean d axes _ (h_spectra (p_header d)) P (signal_size_plain _ _ _ P)).
  - cbn [bind fst snd]. f_equal. unfold axes. cbn [removelast map a_size app]. f_equal. f_equal. rewrite firstz_firstn. destruct P as (_ & _ & _ & _ & L & _). rewrite <- L. unfold zlen. rewrite Nat2Z.id. apply firstn_all.
  - unfold axes, at_index, free_axis. cbn [removelast map a_size]. unfold prodZ. cbn [fold_right]. lia.
  - destruct P as (_ & _ & _ & _ & L & Q & _). lia.
  - right. reflexivity.
Qed.
(** A map that was not finished: the lines that were *)
Theorem C83_unfinished : forall fit mean uniform bs d g o os nx ny nz x0 y0 z0 dx dy dz, is_file bs d -> parts_ok d -> has_grid bs g ->
  h_type (p_header d) = Mapping -> h_spectra (p_header d) <> h_capacity (p_header d) -> spatial d = o :: os ->
  g_flag g <> 128 -> g_size g = [nx; ny; nz] -> g_offset g = [x0; y0; z0] -> g_scale g = [dx; dy; dz] -> 0 < nx ->
  let lines := h_spectra (p_header d) / nx in
  read_file fit mean uniform (file_of bs) =
  Ok (result d [lines; nx; h_points (p_header d)] (ordered d (firstz (lines * nx) (p_spectra d))) [map_axis "Y" 0 lines o y0 dy; map_axis "X" 1 nx o x0 dx; signal_axis fit uniform 2 d]).
Proof.
  intros fit mean uniform bs d g o os nx ny nz x0 y0 z0 dx dy dz HF P HG T C So Fl Gs Go Gc N lines. pose proof HF as (OK & ND & _). rewrite (read_core fit mean uniform bs d _ HF P (wmap_read bs g OK ND HG)). unfold nav_axes. rewrite T. rewrite nav_map by (rewrite T; discriminate). rewrite So. cbn [map bind].
  rewrite (grid_axes _ _ _ nx ny nz x0 y0 z0 dx dy dz) by assumption. assert (U : unfinished (p_header d) = true) by (unfold unfinished; replace (_ =? _) with false by lia; reflexivity). rewrite U. rewrite all_two. cbn [bind]. change (o_units (origin_of o)) with (unit_text (r_unit o)). fold lines.
  set (axes := [_; _; _]). rewrite (reshape_spectra mean d axes _ (lines * nx) P (signal_size_plain _ _ _ P)).
  - reflexivity.
  - unfold axes, at_index, free_axis. cbn [removelast map a_size]. unfold prodZ. cbn [fold_right]. lia.
  - destruct P as (_ & _ & _ & _ & L & Q & _). unfold lines. rewrite L. split; [|rewrite Z.mul_comm; apply Z.mul_div_le; lia]. assert (0 <= h_spectra (p_header d) / nx) by (apply Z.div_pos; lia). nia.
  - left. exact U.
Qed.
(** Points on a line: the distance *)
Definition line_axis (size : Z) (o : orig) (dx dy : Z) : axis :=
  {| a_name := str "Abs. Distance"; a_size := size; a_index := Some 0; a_units := Some (unit_text (r_unit o)); a_scaling := Uniform (Exact 0) (Length dx dy); a_navigate := true |}.
Lemma line_axes : forall h g u nx ny nz dx dy dz, g_flag g = 128 -> g_size g = [nx; ny; nz] -> g_scale g = [dx; dy; dz] ->
  map_axes h {| w_flag := g_flag g; w_offset := g_offset g; w_scale := g_scale g; w_size := g_size g |} u =
  [(str "Distance", {| a_name := str "Abs. Distance"; a_size := nx; a_index := None; a_units := Some u; a_scaling := Uniform (Exact 0) (Length dx dy); a_navigate := true |})].
Proof. intros h g u nx ny nz dx dy dz Fl -> ->. unfold map_axes. cbn [w_flag w_size w_offset w_scale]. rewrite Fl. reflexivity. Qed.
Theorem C83_line : forall fit mean uniform bs d g o os nx ny nz dx dy dz, is_file bs d -> parts_ok d -> has_grid bs g ->
  h_type (p_header d) = Mapping -> spatial d = o :: os -> g_flag g = 128 -> g_size g = [nx; ny; nz] -> g_scale g = [dx; dy; dz] -> nx = h_spectra (p_header d) ->
  read_file fit mean uniform (file_of bs) = Ok (result d [nx; h_points (p_header d)] (ordered d (p_spectra d)) [line_axis nx o dx dy; signal_axis fit uniform 1 d]).
Proof.
  intros fit mean uniform bs d g o os nx ny nz dx dy dz HF P HG T So Fl Gs Gc N. pose proof HF as (OK & ND & _). rewrite (read_core fit mean uniform bs d _ HF P (wmap_read bs g OK ND HG)). unfold nav_axes. rewrite T. rewrite nav_map by (rewrite T; discriminate). rewrite So. cbn [map bind].
  rewrite (line_axes _ _ _ nx ny nz dx dy dz) by assumption. cbn [all_axes bind]. change (o_units (origin_of o)) with (unit_text (r_unit o)).
  set (axes := [_; _]). rewrite (reshape_spectra mean d axes _ nx P (signal_size_plain _ _ _ P)).
  - cbn [bind fst snd]. f_equal. unfold axes. cbn [removelast map a_size app]. unfold result. f_equal. f_equal. rewrite firstz_firstn. destruct P as (_ & _ & _ & _ & L & _). rewrite N, <- L. unfold zlen. rewrite Nat2Z.id. apply firstn_all.
  - unfold axes, at_index. cbn [removelast map a_size]. unfold prodZ. cbn [fold_right]. lia.
  - destruct P as (_ & _ & _ & _ & L & Q & _). lia.
  - right. exact N.
Qed.
(** ... which cannot be read before it is finished *)
Theorem C83_line_refuted : forall fit mean uniform bs d g o os nx ny nz dx dy dz, is_file bs d -> parts_ok d -> has_grid bs g ->
  h_type (p_header d) = Mapping -> spatial d = o :: os -> g_flag g = 128 -> g_size g = [nx; ny; nz] -> g_scale g = [dx; dy; dz] -> h_spectra (p_header d) < nx -> h_spectra (p_header d) <> h_capacity (p_header d) ->
  read_file fit mean uniform (file_of bs) = Err ValueError.
Proof.
  intros fit mean uniform bs d g o os nx ny nz dx dy dz HF P HG T So Fl Gs Gc N C. pose proof HF as (OK & ND & _). rewrite (read_core fit mean uniform bs d _ HF P (wmap_read bs g OK ND HG)). unfold nav_axes. rewrite T. rewrite nav_map by (rewrite T; discriminate). rewrite So. cbn [map bind].
  rewrite (line_axes _ _ _ nx ny nz dx dy dz) by assumption. cbn [all_axes bind]. unfold reshape. unfold unfinished. replace (h_spectra (p_header d) =? h_capacity (p_header d)) with false by lia. cbn [negb andb bind removelast map app]. rewrite (signal_size_plain _ _ _ P). rewrite (spectra_length _ _ (parts_spectra d P)). unfold at_index. cbn [a_size]. unfold prodZ. cbn [fold_right].
  assert (B : 2 <= h_points (p_header d)) by (destruct P as (A & B & _); lia). assert (L : zlen (p_spectra d) = h_spectra (p_header d)) by (destruct P as (_ & _ & _ & _ & L & _); exact L). rewrite L. replace (nx * (h_points (p_header d) * 1) <=? h_points (p_header d) * h_spectra (p_header d)) with false by (symmetry; apply Z.leb_gt; nia). rewrite andb_false_r. reflexivity.
Qed.
(** * Single spectra: the mean of all *)
Definition mean_spectrum (mean : list Z -> Z) (n : Z) (spectra : list (list Z)) : list Z := map (fun j => mean (map (fun s => nth j s 0) spectra)) (seq 0 (Z.to_nat n)).
Definition in_order (d : parts) (s : list Z) : list Z := if reversed (p_list d) then rev s else s.
Theorem C83_single : forall fit mean uniform bs d, is_file bs d -> parts_ok d -> (exists w, parse_wmap (table_of 0 bs) (file_of bs) = Ok w) ->
  h_type (p_header d) = Single \/ h_type (p_header d) = Unspecified -> h_spectra (p_header d) = h_capacity (p_header d) ->
  read_file fit mean uniform (file_of bs) =
  Ok (result d [h_points (p_header d)] (in_order d (match p_spectra d with [s] => s | l => mean_spectrum mean (h_points (p_header d)) l end)) [signal_axis fit uniform 0 d]).
Proof.
  intros fit mean uniform bs d HF P [w HW] T C. rewrite (read_core fit mean uniform bs d w HF P HW). replace (nav_axes (p_header d) (nav_of d) w) with (@Ok (list (pystr * axis)) []) by (unfold nav_axes; destruct T as [-> | ->]; reflexivity). cbn [bind all_axes]. unfold reshape, unfinished. rewrite C, Z.eqb_refl. cbn [negb andb removelast map app]. change (prodZ []) with 1.
  pose proof (parts_spectra d P) as SL. pose proof P as (A & B & _ & _ & L & Q & _). rewrite <- C. set (n := h_points (p_header d)) in *. assert (N : 2 <= n) by lia. rewrite (signal_size_plain _ _ _ P). fold n. change (prodZ [n]) with (n * 1). rewrite Z.mul_1_r. change (Z.to_nat 1) with 1%nat. rewrite <- L.
  assert (R : forall s, zlen s = n -> (if (0 <=? n) && (n <=? zlen s) then Ok ([n], if reversed (p_list d) then List.concat (map (@rev Z) (records 1 (Z.to_nat n) (firstz n s))) else firstz n s) else Err ValueError) = Ok ([n], in_order d s)).
  { intros s Hs. replace (0 <=? n) with true by lia. replace (n <=? zlen s) with true by lia. cbn [andb]. f_equal. f_equal. assert (FS : firstz n s = s) by (rewrite firstz_firstn; apply firstn_all2; unfold zlen in Hs; lia). rewrite FS. unfold in_order. destruct (reversed (p_list d)); [|reflexivity]. cbn [records map List.concat]. rewrite app_nil_r. f_equal. apply firstn_all2. unfold zlen in Hs. lia. }
  destruct (p_spectra d) as [|s [|s' l]] eqn:E; [unfold zlen in L; cbn in L; lia| |].
  - change (zlen [s] =? 1) with true. cbn [negb bind List.concat]. rewrite app_nil_r. inversion SL as [|? ? Hs _]; subst. rewrite R by exact Hs. reflexivity.
  - set (all := s :: s' :: l) in *. assert (LA : 2 <= zlen all) by (unfold all, zlen; cbn [List.length]; lia). replace (zlen all =? 1) with false by lia. cbn [negb]. unfold average. rewrite (spectra_length n all SL). replace (0 <? zlen all) with true by lia. rewrite Z.mod_mul by lia. cbn [andb Z.eqb bind]. rewrite Z.div_mul by lia.
    assert (RC : records (Z.to_nat (zlen all)) (Z.to_nat n) (List.concat all) = all). { unfold zlen. rewrite Nat2Z.id. rewrite <- (app_nil_r (List.concat all)). apply records_concat. eapply Forall_impl; [|exact SL]. cbn beta. unfold zlen. intros. lia. }
    rewrite RC. assert (MS : map mean (columns (Z.to_nat n) all) = mean_spectrum mean n all) by (unfold columns, mean_spectrum; rewrite map_map; reflexivity). rewrite MS. rewrite R; [reflexivity|]. unfold mean_spectrum, zlen. rewrite map_length, seq_length. lia.
Qed.
(** * Series *)
Definition time_value (o : orig) (x : Z) : res Q := if r_type o =? 11 then Ok (inject_Z (x - hd 0 (r_data o))) else val64 x.
Definition start_of (o : orig) (q : Q) : number := if r_type o =? 11 then Exact q else Word8 (hd 0 (r_data o)).
Definition names : list (Z * string) :=
  [(0, "Arbitrary"); (1, "Spectral"); (2, "Intensity"); (3, "X"); (4, "Y"); (5, "Z"); (6, "Spatial_R"); (7, "Spatial_Theta"); (8, "Spatial_Phi"); (9, "Temperature"); (10, "Pressure"); (11, "Time"); (12, "Derivative");
   (13, "Polarization"); (14, "FocusTrack_Z"); (15, "TempRampRate"); (18, "ElapsedTimeIntervals"); (19, "Frequency"); (22, "Mp_Well_Spatial_X"); (23, "Mp_Well_Spatial_Y"); (24, "Mp_LocationIndex"); (25, "Mp_WellReference"); (26, "EndMarker"); (27, "ExposureTime")]%string.
Definition series_of (n : Z) (o : orig) (name : string) (s : scaling) (u : option pystr) : axis := {| a_name := str name; a_size := n; a_index := Some 0; a_units := u; a_scaling := s; a_navigate := true |}.
Lemma names_ok : forall t s, In (t, s) names -> type_name t = str s.
Proof. intros t s H. unfold names in H. cbn [In] in H. repeat (destruct H as [H|H]; [injection H as <- <-; reflexivity|]). destruct H. Qed.
Lemma mapM_all : forall A B (f : A -> res B) l r, Forall2 (fun x y => f x = Ok y) l r -> mapM f l = Ok r.
Proof. intros A B f l r H. induction H as [|x y l r E H IH]; [reflexivity|]. cbn [mapM]. rewrite E. cbn [bind]. rewrite IH. reflexivity. Qed.
Lemma Forall2_map_l : forall A B C (f : A -> B) (P : B -> C -> Prop) l r, Forall2 (fun x y => P (f x) y) l r -> Forall2 P (map f l) r.
Proof. intros A B C f P l r H. induction H; constructor; assumption. Qed.
Lemma Forall2_len : forall A B (P : A -> B -> Prop) l r, Forall2 P l r -> List.length l = List.length r.
Proof. intros A B P l r H. induction H; cbn [List.length]; congruence. Qed.
Lemma origin_length : forall o, zlen (o_data (origin_of o)) = zlen (r_data o).
Proof. intro o. unfold origin_of. cbn [o_data]. destruct (r_type o =? 11); [unfold zlen; rewrite map_length; reflexivity|reflexivity]. Qed.
Lemma series_read : forall o name q0 q1 l, In (r_type o, name) names -> Forall2 (fun x q => time_value o x = Ok q) (r_data o) (q0 :: q1 :: l) ->
  let step := ((last (q1 :: l) q1 - q0) / inject_Z (zlen (q1 :: l)))%Q in
  series_axis (origin_of o) = Ok (str name, {| a_name := str name; a_size := zlen (r_data o); a_index := None; a_units := if (r_type o =? 14) || Qeq_bool step 0 then None else Some (unit_text (r_unit o));
    a_scaling := if (r_type o =? 14) || Qeq_bool step 0 then Default else Uniform (start_of o q0) (Exact step); a_navigate := true |}).
Proof.
  intros o name q0 q1 l HN HQ step. unfold series_axis. change (o_note (origin_of o)) with true. cbn [negb]. change (o_type (origin_of o)) with (r_type o). rewrite (names_ok _ _ HN). rewrite origin_length.
  assert (M : mapM (series_value (r_type o)) (o_data (origin_of o)) = Ok (q0 :: q1 :: l)).
  { apply mapM_all. unfold origin_of, series_value, is_time. cbn [o_data]. unfold time_value in HQ. destruct (r_type o =? 11) eqn:T; [|exact HQ]. apply Forall2_map_l. exact HQ. }
  rewrite M. cbn [bind]. change (o_units (origin_of o)) with (unit_text (r_unit o)). fold step. destruct ((r_type o =? 14) || Qeq_bool step 0); [reflexivity|]. f_equal. f_equal. f_equal. unfold start_of, is_time, origin_of. cbn [o_data]. destruct (r_type o =? 11); reflexivity.
Qed.
Definition only_axis (d : parts) (o : orig) : Prop := filter is_axis (p_origins d) = [o] \/ (2 <= zlen (filter is_axis (p_origins d)) /\ spatial d = [o]).
Lemma nav_series : forall d o, h_type (p_header d) = Series -> only_axis d o -> nav_of d = [origin_of o].
Proof.
  intros d o T [H|[L H]]; unfold nav_of; rewrite T; [rewrite H; reflexivity|]. rewrite timeless_map. fold (spatial d). rewrite H. destruct (filter is_axis (p_origins d)) as [|a [|b l]]; [unfold zlen in L; cbn in L; lia|unfold zlen in L; cbn in L; lia|reflexivity].
Qed.
(** One axis that is not a time, or only a time *)
Theorem C83_series : forall fit mean uniform bs d o name q0 q1 l, is_file bs d -> parts_ok d -> (exists w, parse_wmap (table_of 0 bs) (file_of bs) = Ok w) ->
  h_type (p_header d) = Series -> only_axis d o -> In (r_type o, name) names -> Forall2 (fun x q => time_value o x = Ok q) (r_data o) (q0 :: q1 :: l) ->
  let n := h_spectra (p_header d) in let step := ((last (q1 :: l) q1 - q0) / inject_Z (n - 1))%Q in let default := (r_type o =? 14) || Qeq_bool step 0 in
  read_file fit mean uniform (file_of bs) =
  Ok (result d [n; h_points (p_header d)] (ordered d (p_spectra d))
       [series_of n o name (if default then Default else Uniform (start_of o q0) (Exact step)) (if default then None else Some (unit_text (r_unit o))); signal_axis fit uniform 1 d]).
Proof.
  intros fit mean uniform bs d o name q0 q1 l HF P [w HW] T HO HN HQ n step default. rewrite (read_core fit mean uniform bs d w HF P HW). unfold nav_axes. rewrite T. rewrite (nav_series d o T HO). cbn [mapM]. rewrite (series_read o name q0 q1 l HN HQ). cbn [bind all_axes].
  pose proof P as (_ & _ & _ & _ & L & Q & _ & OO & _). assert (LO : zlen (r_data o) = n). { assert (I : In o (p_origins d)) by (destruct HO as [HO|[_ HO]]; [assert (K : In o (filter is_axis (p_origins d))) by (rewrite HO; left; reflexivity)|assert (K : In o (spatial d)) by (rewrite HO; left; reflexivity)]; apply filter_In in K; exact (proj1 K)). exact (proj1 (proj2 (proj2 (proj2 (proj2 (proj1 (Forall_forall _ _) OO o I)))))). }
  assert (LQ : zlen (q1 :: l) = n - 1). { apply Forall2_len in HQ. cbn [List.length] in HQ. rewrite <- LO. unfold zlen. cbn [List.length]. lia. }
  rewrite LQ. fold step. fold default. rewrite LO. set (axes := [_; _]). rewrite (reshape_spectra mean d axes _ n P (signal_size_plain _ _ _ P)).
  - cbn [bind fst snd]. f_equal. unfold axes. cbn [removelast map a_size app]. unfold result. f_equal. f_equal. rewrite firstz_firstn. unfold n. rewrite <- L. unfold zlen. rewrite Nat2Z.id. apply firstn_all.
  - unfold axes, at_index. cbn [removelast map a_size]. unfold prodZ. cbn [fold_right]. lia.
  - rewrite L. unfold n. lia.
  - right. reflexivity.
Qed.
(** A series of one spectrum has no step *)
Theorem C83_one_refuted : forall fit mean uniform bs d o name x q0, is_file bs d -> parts_ok d -> (exists w, parse_wmap (table_of 0 bs) (file_of bs) = Ok w) ->
  h_type (p_header d) = Series -> only_axis d o -> In (r_type o, name) names -> r_type o <> 14 -> r_data o = [x] -> time_value o x = Ok q0 -> h_spectra (p_header d) = 1 ->
  read_file fit mean uniform (file_of bs) =
  Ok (result d [1; h_points (p_header d)] (ordered d (p_spectra d)) [series_of 1 o name (Uniform (start_of o q0) NaN) (Some (unit_text (r_unit o))); signal_axis fit uniform 1 d]).
Proof.
  intros fit mean uniform bs d o name x q0 HF P [w HW] T HO HN T14 HD HQ N1. rewrite (read_core fit mean uniform bs d w HF P HW). unfold nav_axes. rewrite T. rewrite (nav_series d o T HO). cbn [mapM].
  assert (S : series_axis (origin_of o) = Ok (str name, {| a_name := str name; a_size := 1; a_index := None; a_units := Some (unit_text (r_unit o)); a_scaling := Uniform (start_of o q0) NaN; a_navigate := true |})).
  { unfold series_axis. change (o_note (origin_of o)) with true. cbn [negb]. change (o_type (origin_of o)) with (r_type o). rewrite (names_ok _ _ HN). rewrite origin_length, HD. assert (M : mapM (series_value (r_type o)) (o_data (origin_of o)) = Ok [q0]).
    { apply mapM_all. unfold origin_of, series_value, is_time. cbn [o_data]. unfold time_value in HQ. rewrite HD in *. destruct (r_type o =? 11); constructor; try constructor; exact HQ. }
    rewrite M. cbn [bind]. replace (r_type o =? 14) with false by lia. change (o_units (origin_of o)) with (unit_text (r_unit o)). f_equal. f_equal. f_equal. unfold start_of, is_time, origin_of. cbn [o_data]. rewrite HD. destruct (r_type o =? 11); reflexivity. }
  rewrite S. cbn [bind all_axes]. pose proof P as (_ & _ & _ & _ & L & Q & _). set (axes := [_; _]). rewrite (reshape_spectra mean d axes _ 1 P (signal_size_plain _ _ _ P)).
  - cbn [bind fst snd]. f_equal. unfold axes. cbn [removelast map a_size app]. unfold result. f_equal. f_equal. rewrite firstz_firstn. rewrite N1 in L. apply firstn_all2. unfold zlen in L. lia.
  - reflexivity.
  - lia.
  - right. lia.
Qed.
(** A series along two axes cannot be read *)
Theorem C83_two_refuted : forall fit mean uniform bs d o1 o2 n1 n2 q1 q2 r1 r2 l1 l2, is_file bs d -> parts_ok d -> (exists w, parse_wmap (table_of 0 bs) (file_of bs) = Ok w) ->
  h_type (p_header d) = Series -> spatial d = [o1; o2] -> In (r_type o1, n1) names -> In (r_type o2, n2) names -> n1 <> "Y"%string -> n2 <> "Y"%string ->
  Forall2 (fun x q => time_value o1 x = Ok q) (r_data o1) (q1 :: r1 :: l1) -> Forall2 (fun x q => time_value o2 x = Ok q) (r_data o2) (q2 :: r2 :: l2) ->
  read_file fit mean uniform (file_of bs) = Err KeyError.
Proof.
  intros fit mean uniform bs d o1 o2 n1 n2 q1 q2 r1 r2 l1 l2 HF P [w HW] T HS N1 N2 Y1 Y2 H1 H2. rewrite (read_core fit mean uniform bs d w HF P HW). unfold nav_axes. rewrite T. assert (NV : nav_of d = [origin_of o1; origin_of o2]).
  { unfold nav_of. rewrite T. rewrite timeless_map. fold (spatial d). rewrite HS. assert (LN : (2 <= List.length (filter is_axis (p_origins d)))%nat). { unfold spatial in HS. rewrite <- (filter_filter_and _ timeless is_axis) in HS. assert (F : forall A (p : A -> bool) m, (List.length (filter p m) <= List.length m)%nat) by (clear; intros A p m; induction m as [|a m IH]; [apply le_n|]; cbn [filter]; destruct (p a); cbn [List.length]; lia). pose proof (F _ timeless (filter is_axis (p_origins d))) as K. rewrite HS in K. exact K. }
    destruct (filter is_axis (p_origins d)) as [|a [|b m]]; [cbn in LN; lia|cbn in LN; lia|reflexivity]. }
  rewrite NV. cbn [mapM]. rewrite (series_read o1 n1 q1 r1 l1 N1 H1), (series_read o2 n2 q2 r2 l2 N2 H2). cbn [bind all_axes lookup].
  assert (NE : forall t s, In (t, s) names -> s <> "Y"%string -> eqb_str (str "Y") (str s) = false). { clear. intros t s H. unfold names in H. cbn [In] in H. repeat (destruct H as [H|H]; [injection H as <- <-; intro K; first [reflexivity|exfalso; apply K; reflexivity]|]). destruct H. }
  rewrite (NE _ _ N1 Y1), (NE _ _ N2 Y2). reflexivity.
Qed.
(** * Files that cannot be read *)
Theorem C83_unknown : forall fit mean uniform bs d w, is_file bs d -> parts_ok d -> parse_wmap (table_of 0 bs) (file_of bs) = Ok w -> h_type (p_header d) = UnknownType -> read_file fit mean uniform (file_of bs) = Err ValueError.
Proof. intros fit mean uniform bs d w HF P HW T. rewrite (read_core fit mean uniform bs d w HF P HW). unfold nav_axes. rewrite T. reflexivity. Qed.
Theorem C83_no_grid : forall fit mean uniform bs d o os, is_file bs d -> parts_ok d -> ~ In (str "WMAP_0") (map key_of bs) -> h_type (p_header d) = Mapping -> spatial d = o :: os -> read_file fit mean uniform (file_of bs) = Err KeyError.
Proof.
  intros fit mean uniform bs d o os HF P HW T So. rewrite (read_core fit mean uniform bs d None HF P). 2:{ unfold parse_wmap. rewrite (no_block bs ["WMAP_0"]%string "WMAP_0"); [reflexivity| |left; reflexivity]. intros k [<-|[]]. exact HW. }
  unfold nav_axes. rewrite T. rewrite nav_map by (rewrite T; discriminate). rewrite So. reflexivity.
Qed.
(** * The direction of the axis: comparison of words is comparison of numbers *)
Definition mag (a : Z) : Z := let e := a / 2 ^ 23 in let m := a mod 2 ^ 23 in if e =? 0 then m else (m + 2 ^ 23) * 2 ^ (e - 1).
Lemma mag_increasing : forall a b, 0 <= a < b -> mag a < mag b.
Proof.
  intros a b H. unfold mag. assert (Pa := Z.div_mod a (2 ^ 23) ltac:(lia)). assert (Pb := Z.div_mod b (2 ^ 23) ltac:(lia)). assert (Ba := Z.mod_pos_bound a (2 ^ 23) ltac:(lia)). assert (Bb := Z.mod_pos_bound b (2 ^ 23) ltac:(lia)). remember (a / 2 ^ 23) as ea. remember (b / 2 ^ 23) as eb. remember (a mod 2 ^ 23) as ma. remember (b mod 2 ^ 23) as mb. clear Heqea Heqeb Heqma Heqmb.
  assert (0 <= ea) by nia. assert (ea <= eb) by nia. destruct (Z.eq_dec ea eb) as [->|N].
  - assert (ma < mb) by lia. destruct (eb =? 0) eqn:E; [assumption|]. apply Z.mul_lt_mono_pos_r; [apply Z.pow_pos_nonneg; lia|lia].
  - replace (eb =? 0) with false by lia. assert (U : (if ea =? 0 then ma else (ma + 2 ^ 23) * 2 ^ (ea - 1)) < 2 ^ 23 * 2 ^ ea).
    { destruct (ea =? 0) eqn:E; [replace ea with 0 by lia; lia|]. replace ea with (1 + (ea - 1)) at 2 by lia. rewrite Z.pow_add_r by lia. assert (0 < 2 ^ (ea - 1)) by (apply Z.pow_pos_nonneg; lia). nia. }
    assert (V : 2 ^ ea <= 2 ^ (eb - 1)) by (apply Z.pow_le_mono_r; lia). assert (0 < 2 ^ ea) by (apply Z.pow_pos_nonneg; lia). nia.
Qed.
Definition signed_mag (w : Z) : Z := if 2 ^ 31 <=? w then - mag (w mod 2 ^ 31) else mag (w mod 2 ^ 31).
Lemma mag_value : forall w q, val32 w = Ok q -> (q * inject_Z (2 ^ 149) == inject_Z (signed_mag w))%Q.
Proof.
  intros w q H. unfold val32 in H. unfold signed_mag, mag. set (a := w mod 2 ^ 31) in *. assert (A := Z.mod_pos_bound w (2 ^ 31) ltac:(lia)). fold a in A. assert (E := Z.div_pos a (2 ^ 23) ltac:(lia) ltac:(lia)). set (e := a / 2 ^ 23) in *. set (m := a mod 2 ^ 23) in *. destruct (e =? 255) eqn:E255; [discriminate H|].
  assert (K : forall M L, -149 <= L -> (q2 M L * inject_Z (2 ^ 149) == inject_Z (M * 2 ^ (L + 149)))%Q).
  { intros M L HL. pose proof (q2_mul M L) as Q. assert (S : inject_Z (2 ^ 149) * inject_Z (up L) == inject_Z (up (- L)) * inject_Z (2 ^ (L + 149))) by (rewrite <- !inject_Z_mult; f_equiv; unfold up; rewrite <- !Z.pow_add_r by lia; f_equal; lia).
    assert (UP : ~ inject_Z (up L) == 0) by (pose proof (up_pos L); intro C; apply (inject_Z_injective (up L) 0) in C; lia). apply (Qmult_inj_r _ _ (inject_Z (up L)) UP). rewrite <- Qmult_assoc, S. rewrite Qmult_assoc, Q. rewrite <- !inject_Z_mult. f_equiv. ring. }
  destruct (e =? 0) eqn:E0; injection H as <-; (rewrite K by lia); f_equiv.
  - change (2 ^ (-149 + 149)) with 1. change (Z.pow_pos 2 31) with (2 ^ 31). destruct (2 ^ 31 <=? w); ring.
  - replace (e - 150 + 149) with (e - 1) by ring. change (Z.pow_pos 2 31) with (2 ^ 31). change (Z.pow_pos 2 23) with (2 ^ 23). destruct (2 ^ 31 <=? w); ring.
Qed.
Lemma mag_order : forall a b, 0 <= a < 2 ^ 32 -> 0 <= b < 2 ^ 32 -> (order32 b <? order32 a = true <-> signed_mag b < signed_mag a).
Proof.
  intros a b Ha Hb. rewrite Z.ltb_lt. unfold order32, signed_mag. assert (A := Z.mod_pos_bound a (2 ^ 31) ltac:(lia)). assert (B := Z.mod_pos_bound b (2 ^ 31) ltac:(lia)).
  assert (Z0 : mag 0 = 0) by reflexivity. assert (NN : forall x, 0 <= x -> 0 <= mag x /\ (mag x = 0 -> x = 0)) by (intros x Hx; destruct (Z.eq_dec x 0) as [->|N]; [lia|pose proof (mag_increasing 0 x ltac:(lia)); lia]).
  assert (MI : forall x y, 0 <= x -> 0 <= y -> (x < y <-> mag x < mag y)). { intros x y Hx Hy. split; [intro L; apply mag_increasing; lia|]. intro L. destruct (Z.lt_trichotomy x y) as [C|[->|C]]; [exact C|lia|]. pose proof (mag_increasing y x ltac:(lia)). lia. }
  destruct (2 ^ 31 <=? a) eqn:Ea; destruct (2 ^ 31 <=? b) eqn:Eb; rewrite ?(Z.mod_small a), ?(Z.mod_small b) in * by lia.
  - pose proof (MI (a mod 2 ^ 31) (b mod 2 ^ 31) ltac:(lia) ltac:(lia)). lia.
  - destruct (NN (a mod 2 ^ 31) ltac:(lia)). destruct (NN b ltac:(lia)). lia.
  - destruct (NN (b mod 2 ^ 31) ltac:(lia)) as [N1 N2]. destruct (NN a ltac:(lia)) as [N3 N4]. destruct (Z.eq_dec (b mod 2 ^ 31) 0) as [E1|E1]; destruct (Z.eq_dec a 0) as [E2|E2]; rewrite ?E1, ?E2, ?Z0 in *; lia.
  - pose proof (MI b a ltac:(lia) ltac:(lia)). lia.
Qed.
Theorem C83_order : forall a b p q, 0 <= a < 2 ^ 32 -> 0 <= b < 2 ^ 32 -> val32 a = Ok p -> val32 b = Ok q -> (above a b = true <-> (q < p)%Q).
Proof.
  intros a b p q Ha Hb Hp Hq. pose proof (mag_value a p Hp) as P. pose proof (mag_value b q Hq) as Q. unfold above, gt32. assert (F : forall w v, val32 w = Ok v -> nan32 w = false).
  { intros w v H. unfold val32 in H. unfold nan32. assert (W := Z.mod_pos_bound w (2 ^ 31) ltac:(lia)). destruct (w mod 2 ^ 31 / 2 ^ 23 =? 255) eqn:E; [discriminate H|]. assert (w mod 2 ^ 31 / 2 ^ 23 <= 255) by (apply Z.lt_succ_r; apply Z.div_lt_upper_bound; lia). assert (w mod 2 ^ 31 / 2 ^ 23 < 255) by lia. assert (w mod 2 ^ 31 < 2 ^ 23 * 255) by (pose proof (Z.mul_succ_div_gt (w mod 2 ^ 31) (2 ^ 23) ltac:(lia)); nia). lia. }
  rewrite (F _ _ Hp), (F _ _ Hq). cbn [negb andb]. rewrite mag_order by assumption. rewrite Zlt_Qlt. rewrite <- P, <- Q. apply Qmult_lt_r. reflexivity.
Qed.

Print Assumptions C83_map.
Print Assumptions C83_unfinished.
Print Assumptions C83_line.
Print Assumptions C83_line_refuted.
Print Assumptions C83_single.
Print Assumptions C83_series.
Print Assumptions C83_one_refuted.
Print Assumptions C83_two_refuted.
Print Assumptions C83_unknown.
Print Assumptions C83_no_grid.
Print Assumptions C83_order.
