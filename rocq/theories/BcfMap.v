(** Claim C53: whole Bruker spectral maps; claim C54: the number of bits of a cell. *)
From Verif Require Import Base Bytes RowMajor SfsModel SfsProps SfsTree BcfModel BcfUnpack.

(** * Specification: spectral maps and their bytes *)
Inductive payload := P16 (ps : list Z) | P12 (ps : list Z) | PGroups (flag : Z) (gs : list group) (adds : list Z).
Record pix := mkPix { p_x : Z; p_chan1 : Z; p_chan2 : Z; p_filler : Z; p_size1 : Z; p_pay : payload }.

Definition pay_flag (p : payload) : Z := match p with P16 _ => 0 | P12 _ => 1 | PGroups f _ _ => f end.
Definition pay_n (p : payload) : Z := match p with P16 ps | P12 ps => zlen ps | PGroups _ _ adds => zlen adds end.
Definition pay_data (p : payload) : list Z :=
  match p with P16 ps => flat_map (le 2) ps | P12 ps => enc12 ps | PGroups _ gs _ => flat_map enc_group gs end.
Definition pay_size (p : payload) : Z := match p with PGroups _ _ _ => zlen (pay_data p) + 4 | _ => zlen (pay_data p) end.
Definition pay_extra (p : payload) : list Z :=
  match p with PGroups _ _ adds => le 4 (2 * zlen adds) ++ flat_map (le 2) adds | _ => [] end.
Definition enc_pix (p : pix) : list Z :=
  le 4 (p_x p) ++ le 2 (p_chan1 p) ++ le 2 (p_chan2 p) ++ le 4 (p_filler p) ++ le 2 (pay_flag (p_pay p)) ++
  le 2 (p_size1 p) ++ le 2 (pay_n (p_pay p)) ++ le 4 (pay_size (p_pay p)) ++ pay_data (p_pay p) ++ pay_extra (p_pay p).
Definition enc_line (ps : list pix) : list Z := le 4 (zlen ps) ++ flat_map enc_pix ps.
Definition enc_map (width : Z) (filler : list Z) (lines : list (list pix)) : list Z :=
  le 4 (zlen lines) ++ le 4 width ++ filler ++ flat_map enc_line lines.

(** The number of counts in channel [c]. *)
Definition spectrum (p : payload) (c : Z) : Z :=
  match p with
  | P16 ps | P12 ps => countZ (Z.eqb c) ps
  | PGroups _ gs adds => nth (Z.to_nat c) (flat_map group_counts gs) 0 + countZ (Z.eqb c) adds
  end.
(** The counts of all pixels of a map that fall into cell (y, x) of the reduced map. *)
Definition at_cell (ds L : Z) (p : pix) (y x c : Z) : Z :=
  if (L / ds =? y) && (p_x p / ds =? x) then spectrum (p_pay p) c else 0.
Fixpoint line_sum (ds L : Z) (ps : list pix) (y x c : Z) : Z :=
  match ps with [] => 0 | p :: ps' => at_cell ds L p y x c + line_sum ds L ps' y x c end.
Fixpoint map_sum (ds L : Z) (lines : list (list pix)) (y x c : Z) : Z :=
  match lines with [] => 0 | l :: lines' => line_sum ds L l y x c + map_sum ds (L + 1) lines' y x c end.

(** What can be stored, with pieces that fit into a chunk. *)
Definition pay_ok (chunk : Z) (p : payload) : Prop :=
  match p with
  | P16 ps => below 65536 ps /\ zlen ps < 65536
  | P12 ps => below 4096 ps /\ zlen ps < 65536
  | PGroups f gs adds => 2 <= f < 65536 /\ Forall group_ok gs /\ below 65536 adds /\ zlen adds < 65536
  end /\ pay_size p <= chunk /\ pay_size p < 2 ^ 32.
Definition pix_ok (chunk width : Z) (p : pix) : Prop :=
  0 <= p_x p < width /\ p_x p < 2 ^ 32 /\ 0 <= p_chan1 p < 65536 /\ 0 <= p_chan2 p < 65536 /\ pay_ok chunk (p_pay p).
(** For the compiled parser: no 32-bit groups, less than 65536 bytes of groups. *)
Definition cy_ok (p : pix) : Prop :=
  match p_pay p with PGroups _ gs _ => Forall no_g32 gs /\ zlen (flat_map enc_group gs) < 65536 | _ => True end.
(** For the Python parser: enough channels in each pixel. *)
Definition py_ok (chunk c : Z) (p : pix) : Prop :=
  match p_pay p with
  | PGroups _ gs adds =>
      let len := zlen (flat_map group_counts gs) + (if p_chan2 p <? p_chan1 p then p_chan1 p - p_chan2 p else 0) in
      c <= p_chan1 p /\ c <= len /\ Forall (fun a => a < len) adds /\ 2 * zlen adds <= chunk
  | _ => c < p_chan1 p
  end.

(** The chunks of a stream: all but the last are full; [py]: the last is not full. *)
Fixpoint chunks_ok (py : bool) (chunk : Z) (l : list (list Z)) : Prop :=
  match l with
  | [] => True
  | [b] => if py then zlen b < chunk else zlen b <= chunk
  | b :: l' => zlen b = chunk /\ chunks_ok py chunk l'
  end.

(** * Streams *)
Definition good (py : bool) (chunk : Z) (s : stream) (l : list Z) : Prop :=
  s_buf s ++ List.concat (s_rest s) = l /\ chunks_ok py chunk (s_rest s) /\
  (if match s_rest s with [] => true | _ => false end
   then (if py then s_off s + zlen (s_buf s) < s_size s else s_off s + zlen (s_buf s) <= s_size s)
   else s_off s + zlen (s_buf s) = s_size s).

Lemma ensure_ok : forall py chunk n s l, good py chunk s l -> 0 <= n -> n <= zlen l -> n <= chunk ->
  exists s', ensure py chunk n s = Ok s' /\ good py chunk s' l /\ n <= zlen (s_buf s').
Proof.
  intros py chunk n [buf off size rest] l [H1 [H2 H3]] Hn Hl Hc. unfold ensure. cbn [s_buf s_off s_size s_rest] in *.
  destruct rest as [|b r].
  - cbn [List.concat] in H1. rewrite app_nil_r in H1. subst l. exists (mkS buf off size []).
    assert (E : (if py then size <=? off + n else size <? off + n) = false) by (destruct py; lia). rewrite E.
    split; [reflexivity|]. split; [|exact Hl]. split; [apply app_nil_r|]. split; [exact I|]. exact H3.
  - destruct (if py then size <=? off + n else size <? off + n) eqn:E.
    + unfold refill. cbn [s_rest s_buf s_off s_size]. eexists. split; [reflexivity|].
      assert (G : good py chunk (mkS (buf ++ b) 0 (chunk + size - off) r) l).
      { split; [|split]; cbn [s_buf s_off s_size s_rest].
        - rewrite <- H1. cbn [List.concat]. rewrite <- app_assoc. reflexivity.
        - destruct r; [exact I|]. apply H2.
        - rewrite zlen_app. destruct r as [|b2 r]; cbn [chunks_ok] in H2.
          + destruct py; lia. + destruct H2 as [H2 _]. lia. }
      split; [exact G|]. cbn [s_buf]. rewrite zlen_app. destruct r as [|b2 r]; cbn [chunks_ok] in H2.
      * rewrite <- H1 in Hl. cbn [List.concat] in Hl. rewrite app_nil_r, zlen_app in Hl. exact Hl.
      * destruct H2 as [H2 _]. pose proof (zlen_nonneg _ buf). lia.
    + exists (mkS buf off size (b :: r)). split; [reflexivity|]. split; [|cbn [s_buf]; destruct py; lia].
      split; [exact H1|]. split; [exact H2|exact H3].
Qed.

Lemma take_ok : forall py chunk s a l, good py chunk s (a ++ l) -> zlen a <= zlen (s_buf s) ->
  exists s', take (zlen a) s = (a, s') /\ good py chunk s' l /\ s_buf s = a ++ s_buf s' /\ s' = mkS (s_buf s') (s_off s + zlen a) (s_size s) (s_rest s).
Proof.
  intros py chunk [buf off size rest] a l [H1 [H2 H3]] Hl. cbn [s_buf s_off s_size s_rest] in *. unfold take. cbn [s_buf s_off s_size s_rest].
  assert (E : exists b, buf = a ++ b /\ b ++ List.concat rest = l).
  { exists (skipn (List.length a) buf). assert (F : firstn (List.length a) buf = a).
    { transitivity (firstn (List.length a) (buf ++ List.concat rest)).
      - rewrite firstn_app. replace (List.length a - List.length buf)%nat with 0%nat by (unfold zlen in Hl; lia). cbn. rewrite app_nil_r. reflexivity.
      - rewrite H1. apply firstn_app_exact. reflexivity. }
    assert (B : buf = a ++ skipn (List.length a) buf) by (rewrite <- F at 1; symmetry; apply firstn_skipn).
    split; [exact B|]. rewrite B in H1 at 1. rewrite <- app_assoc in H1. apply app_inv_head in H1. exact H1. }
  destruct E as [b [-> Hb]]. rewrite firstz_app, skipz_app by reflexivity. eexists. split; [reflexivity|]. split; [|split; reflexivity].
  split; [exact Hb|]. split; [exact H2|]. cbn [s_buf s_off s_size s_rest]. rewrite zlen_app in H3. destruct rest; destruct py; lia.
Qed.

Lemma cy_read_ok : forall chunk s a l n, good false chunk s (a ++ l) -> zlen a = n -> n <= chunk ->
  exists s', cy_read chunk n s = Ok (a, s') /\ good false chunk s' l.
Proof.
  intros chunk s a l n G <- Hc. unfold cy_read. pose proof (zlen_nonneg _ a). pose proof (zlen_nonneg _ l).
  destruct (ensure_ok false chunk (zlen a) s (a ++ l) G) as [s1 [-> [G1 B1]]]; [lia|rewrite zlen_app; lia|exact Hc|]. cbn [bind].
  destruct (take_ok _ _ _ _ _ G1 B1) as [s2 [-> [G2 _]]]. unfold exact. cbn [fst]. rewrite Z.eqb_refl. exists s2. split; [reflexivity|exact G2].
Qed.

(** * Cells *)
Definition cells_are (h w : Z) (d : dims) (f : Z -> Z -> Z -> Z) (arr : list Z) : Prop :=
  zlen arr = h * w * d_chan d /\
  forall y x c, 0 <= y < h -> 0 <= x < w -> 0 <= c < d_chan d -> nth (Z.to_nat ((y * w + x) * d_chan d + c)) arr 0 = wrap d (f y x c).

Lemma cell_range : forall h w k y x c, 0 <= y < h -> 0 <= x < w -> 0 <= c < k -> 0 <= (y * w + x) * k + c < h * w * k.
Proof.
  intros h w k y x c Hy Hx Hc. assert (A : 0 <= y * w + x < h * w) by nia. nia.
Qed.
Lemma cell_inj : forall w k y x y' x' c c', 0 <= x < w -> 0 <= x' < w -> 0 <= c < k -> 0 <= c' < k ->
  (y * w + x) * k + c = (y' * w + x') * k + c' -> y = y' /\ x = x' /\ c = c'.
Proof.
  intros w k y x y' x' c c' Hx Hx' Hc Hc' E. assert (A : y * w + x = y' * w + x') by nia. assert (y = y') by nia. subst y'. repeat split; nia.
Qed.

Lemma nth_set_same : forall n x (l : list Z), (n < List.length l)%nat -> nth n (set_nth n x l) 0 = x.
Proof. intros. apply nth_error_nth. apply set_nth_same. assumption. Qed.
Lemma nth_set_other : forall n m x (l : list Z), (n < List.length l)%nat -> m <> n -> nth m (set_nth n x l) 0 = nth m l 0.
Proof.
  intros n m x l H1 H2. pose proof (set_nth_other _ n m x l H1 H2) as E. destruct (nth_error l m) eqn:E2.
  - rewrite (nth_error_nth _ _ _ E2). apply nth_error_nth. exact E.
  - pose proof E2 as E3. apply nth_error_None in E2. rewrite (nth_overflow l) by exact E2. apply nth_overflow. rewrite set_nth_length by exact H1. exact E2.
Qed.

Lemma wrap_add : forall d a b, wrap d (wrap d a + b) = wrap d (a + b).
Proof. intros. unfold wrap. rewrite Zplus_mod_idemp_l. reflexivity. Qed.

Lemma add_one : forall h w d f arr y0 x0 c0 v, 0 <= y0 < h -> 0 <= x0 < w -> 0 <= c0 < d_chan d -> cells_are h w d f arr ->
  cells_are h w d (fun y x c => f y x c + (if (y0 =? y) && (x0 =? x) && (c0 =? c) then v else 0))
    (set_nth (Z.to_nat ((y0 * w + x0) * d_chan d + c0)) (wrap d (nth (Z.to_nat ((y0 * w + x0) * d_chan d + c0)) arr 0 + v)) arr).
Proof.
  intros h w d f arr y0 x0 c0 v Hy Hx Hc [L H]. pose proof (cell_range h w (d_chan d) y0 x0 c0 Hy Hx Hc) as R.
  assert (Ln : (Z.to_nat ((y0 * w + x0) * d_chan d + c0) < List.length arr)%nat) by (unfold zlen in L; lia).
  split; [unfold zlen in *; rewrite set_nth_length by exact Ln; exact L|]. intros y x c Gy Gx Gc.
  destruct ((y0 =? y) && (x0 =? x) && (c0 =? c)) eqn:E.
  - assert (y0 = y /\ x0 = x /\ c0 = c) as [-> [-> ->]] by lia. rewrite nth_set_same by exact Ln. rewrite H by assumption. apply wrap_add.
  - rewrite nth_set_other; [rewrite Z.add_0_r; apply H; assumption|exact Ln|].
    intro K. pose proof (cell_range h w (d_chan d) y x c Gy Gx Gc) as R2. apply Z2Nat.inj in K; [|lia|lia].
    apply cell_inj in K; try assumption. lia.
Qed.

Lemma cells_ext : forall h w d f g arr, (forall y x c, 0 <= y < h -> 0 <= x < w -> 0 <= c < d_chan d -> f y x c = g y x c) -> cells_are h w d f arr -> cells_are h w d g arr.
Proof. intros h w d f g arr E [L H]. split; [exact L|]. intros. rewrite <- E by assumption. apply H; assumption. Qed.

Lemma total_cons : forall c e evs, total c (e :: evs) = (if fst e =? c then snd e else 0) + total c evs.
Proof. intros. change (e :: evs) with ([e] ++ evs). rewrite total_app. unfold total at 1. cbn [filter map]. destruct (fst e =? c); cbn; lia. Qed.

Lemma add_cells_ok : forall h w d evs f arr y0 x0, 0 <= y0 < h -> 0 <= x0 < w -> Forall (fun e => 0 <= fst e) evs -> cells_are h w d f arr ->
  cells_are h w d (fun y x c => f y x c + (if (y0 =? y) && (x0 =? x) then total c evs else 0)) (add_cells d ((y0 * w + x0) * d_chan d) evs arr).
Proof.
  intros h w d evs. induction evs as [|[c0 v] evs IH]; intros f arr y0 x0 Hy Hx He H.
  - eapply cells_ext; [|exact H]. intros y x c _ _ _. cbn beta. change (total c []) with 0. destruct ((y0 =? y) && (x0 =? x)); lia.
  - inversion He as [|? ? E0 E1]; subst. cbn [fst] in E0. unfold add_cells. cbn [fold_left fst snd].
    destruct (c0 <? d_chan d) eqn:Ec.
    + pose proof (add_one h w d f arr y0 x0 c0 v Hy Hx ltac:(lia) H) as H1. pose proof (IH _ _ y0 x0 Hy Hx E1 H1) as H2.
      eapply cells_ext; [|exact H2]. intros y x c _ _ _. cbn beta. rewrite total_cons. cbn [fst snd].
      destruct ((y0 =? y) && (x0 =? x)); cbn [andb]; [destruct (c0 =? c); lia|lia].
    + pose proof (IH _ _ y0 x0 Hy Hx E1 H) as H2. eapply cells_ext; [|exact H2]. intros y x c _ _ Gc. cbn beta. rewrite total_cons. cbn [fst snd].
      replace (c0 =? c) with false by lia. destruct ((y0 =? y) && (x0 =? x)); lia.
Qed.

Lemma total_ones : forall c l, total c (ones l) = countZ (Z.eqb c) l.
Proof.
  induction l as [|x l IH]; [reflexivity|]. unfold ones in *. cbn [map countZ]. rewrite total_cons, IH. cbn [fst snd]. rewrite (Z.eqb_sym c x). reflexivity.
Qed.
Lemma ones_nonneg : forall m l, below m l -> Forall (fun e => 0 <= fst e) (ones l).
Proof. intros m l. induction 1 as [|x l H _ IH]; constructor; [cbn; lia|exact IH]. Qed.

(** * The compiled parser *)
Lemma cy16_ok : forall ps, below 65536 ps -> cy16 (flat_map (le 2) ps) (zlen ps) = Ok ps.
Proof.
  intros ps H. unfold cy16. replace (Z.to_nat (zlen ps)) with (List.length ps) by (unfold zlen; lia). change 0 with (Z.of_nat 0).
  rewrite (mapM_nth _ ps).
  - rewrite slice_0_all by lia. reflexivity.
  - intros i Hi. cbn [Nat.add]. pose proof (flat_le_at 2 ps [] [] i Hi H) as E. rewrite app_nil_r in E. cbn [app] in E. change (zlen (@nil Z)) with 0 in E.
    unfold cy16_at. set (src := flat_map (le 2) ps) in *.
    assert (L : (2 * i + 1 < List.length src)%nat) by (pose proof (flat_le_len 2 ps) as L; fold src in L; unfold zlen in L; lia).
    assert (B : bytes src). { unfold src. clear. induction ps as [|x l IH]; [constructor|]. apply Forall_app. split; [apply le_bytes|exact IH]. }
    unfold byte. replace (2 * Z.of_nat i <? 0) with false by lia. replace (2 * Z.of_nat i + 1 <? 0) with false by lia.
    replace (Z.to_nat (2 * Z.of_nat i)) with (2 * i)%nat by lia. replace (Z.to_nat (2 * Z.of_nat i + 1)) with (2 * i + 1)%nat by lia.
    destruct (nth_error src (2 * i)) as [a|] eqn:Ea; [|apply nth_error_None in Ea; lia].
    destruct (nth_error src (2 * i + 1)) as [b|] eqn:Eb; [|apply nth_error_None in Eb; lia]. cbn [bind].
    unfold bytes_le in E. rewrite fread_slice in E. replace (Z.to_nat (0 + Z.of_nat i * Z.of_nat 2)) with (2 * i)%nat in E by lia.
    assert (S : slice (2 * i) (Z.to_nat (Z.of_nat 2)) src = [a; b]).
    { unfold slice. rewrite (skipn_nth _ _ _ _ Ea). replace (2 * i + 1)%nat with (S (2 * i)) in Eb by lia. rewrite (skipn_nth _ _ _ _ Eb). reflexivity. }
    rewrite S in E. replace (0 + Z.of_nat i * Z.of_nat 2 <? 0) with false in E by lia. cbn [orb] in E. change (negb (zlen [a; b] =? Z.of_nat 2)) with false in E. cbv iota in E.
    rewrite <- E. f_equal. cbn [le_val]. assert (Hb : is_byte b) by (unfold bytes in B; rewrite Forall_forall in B; apply B; eapply nth_error_In; exact Eb). unfold is_byte in Hb.
    rewrite Z.shiftl_mul_pow2 by lia. change 65280 with (255 * 2 ^ 8). change (2 ^ 8) with 256.
    assert (Land : Z.land (b * 256) (255 * 256) = b * 256).
    { change 256 with (2 ^ 8). rewrite <- !Z.shiftl_mul_pow2 by lia. rewrite <- Z.shiftl_land. f_equal. change 255 with (Z.ones 8). rewrite Z.land_ones by lia. apply Z.mod_small. change (2 ^ 8) with 256. lia. }
    rewrite Land. lia.
  - lia.
Qed.

Lemma g_events_nonneg : forall cutoff gs ch, Forall group_ok gs -> 0 <= ch -> Forall (fun e => 0 <= fst e) (g_events cutoff ch gs).
Proof.
  assert (E : forall cutoff l ch, 0 <= ch -> Forall (fun e => 0 <= fst e) (evs_of cutoff ch l)).
  { intros cutoff l. unfold evs_of. induction l as [|x l IH]; intros ch H; [constructor|]. cbn [List.length zseq combine filter fst].
    destruct (ch <? cutoff); [constructor; [exact H|]|]; apply IH; lia. }
  intros cutoff. induction gs as [|g gs IH]; intros ch Hg Hc; [constructor|]. inversion Hg as [|? ? G Gs]; subst.
  destruct g as [n|a v|a v|a v|a v]; cbn [g_events g_vals group_ok] in *; [apply IH; [exact Gs|lia]|..];
    (apply Forall_app; split; [apply E; exact Hc|apply IH; [exact Gs|unfold zlen; lia]]).
Qed.

Lemma cy_pulses_ok : forall chunk adds s l, 416 <= chunk -> below 65536 adds -> good false chunk s (flat_map (le 2) adds ++ l) ->
  exists s', cy_pulses (List.length adds) chunk s = Ok (adds, s') /\ good false chunk s' l.
Proof.
  intros chunk adds. induction adds as [|a adds IH]; intros s l Hc Hb G.
  - exists s. split; [reflexivity|exact G].
  - inversion Hb as [|? ? A B]; subst. change (flat_map (le 2) (a :: adds)) with (le 2 a ++ flat_map (le 2) adds) in G. rewrite <- app_assoc in G.
    destruct (cy_read_ok chunk s _ _ 2 G) as [s1 [E1 G1]]; [apply zlen_le|lia|]. destruct (IH s1 l Hc B G1) as [s2 [E2 G2]].
    exists s2. split; [|exact G2]. cbn [List.length cy_pulses]. rewrite E1. cbn [bind]. rewrite E2. cbn [bind]. rewrite le_val_small by exact A. reflexivity.
Qed.

Lemma enc_groups_fuel : forall gs, (List.length gs < S (List.length (flat_map enc_group gs)))%nat.
Proof.
  induction gs as [|g gs IH]; [cbn; lia|]. cbn [flat_map]. rewrite app_length. cbn [List.length]. pose proof (enc_group_pos g). unfold zlen in *. lia.
Qed.

Lemma div_lt_cdiv : forall x w ds, 0 < ds -> 0 <= x < w -> 0 <= x / ds < cdiv w ds.
Proof. intros x w ds Hd Hx. split; [apply Z.div_pos; lia|]. apply Z.div_lt_upper_bound; [exact Hd|]. pose proof (cdiv_spec w ds Hd). lia. Qed.

Lemma cy_pixel_ok : forall h w d chunk width L p f arr s l, 416 <= chunk -> 0 < d_ds d -> w = cdiv width (d_ds d) -> 0 <= L / d_ds d < h ->
  pix_ok chunk width p -> cy_ok p -> good false chunk s (enc_pix p ++ l) -> cells_are h w d f arr ->
  exists s' arr', cy_pixel h w d chunk L s arr = Ok (s', arr') /\ good false chunk s' l /\
    cells_are h w d (fun y x c => f y x c + at_cell (d_ds d) L p y x c) arr'.
Proof.
  intros h w d chunk width L p f arr s l Hc Hds Hw HL Hp Hcy G HA. destruct Hp as [Px [Px2 [Pc1 [Pc2 [Pay [Psz Psz2]]]]]].
  unfold enc_pix in G. rewrite <- !app_assoc in G. unfold cy_pixel.
  destruct (cy_read_ok chunk s _ _ 4 G) as [s1 [-> G1]]; [apply zlen_le|lia|]. cbn [bind].
  destruct (cy_read_ok chunk s1 _ _ 2 G1) as [s2 [-> G2]]; [apply zlen_le|lia|]. cbn [bind].
  destruct (cy_read_ok chunk s2 _ _ 2 G2) as [s3 [-> G3]]; [apply zlen_le|lia|]. cbn [bind].
  destruct (cy_read_ok chunk s3 _ _ 4 G3) as [s4 [-> G4]]; [apply zlen_le|lia|]. cbn [bind].
  destruct (cy_read_ok chunk s4 _ _ 2 G4) as [s5 [-> G5]]; [apply zlen_le|lia|]. cbn [bind].
  destruct (cy_read_ok chunk s5 _ _ 2 G5) as [s6 [-> G6]]; [apply zlen_le|lia|]. cbn [bind].
  destruct (cy_read_ok chunk s6 _ _ 2 G6) as [s7 [-> G7]]; [apply zlen_le|lia|]. cbn [bind].
  destruct (cy_read_ok chunk s7 _ _ 4 G7) as [s8 [-> G8]]; [apply zlen_le|lia|]. cbn [bind].
  clear s G s1 G1 s2 G2 s3 G3 s4 G4 s5 G5 s6 G6 s7 G7.
  assert (Sz0 : 0 <= pay_size (p_pay p)). { unfold pay_size. pose proof (zlen_nonneg _ (pay_data (p_pay p))). destruct (p_pay p); lia. }
  assert (F0 : 0 <= pay_flag (p_pay p) < 65536) by (clear - Pay; destruct (p_pay p); cbn in *; lia).
  assert (N0 : 0 <= pay_n (p_pay p) < 65536).
  { destruct (p_pay p) as [ps|ps|fl gs adds]; cbn [pay_n] in *; match goal with |- context [zlen ?q] => pose proof (zlen_nonneg _ q) end; lia. }
  rewrite (le_val_small 4 (p_x p)) by (change (256 ^ Z.of_nat 4) with (2 ^ 32); lia).
  rewrite (le_val_small 2 (pay_flag (p_pay p))) by (change (256 ^ Z.of_nat 2) with 65536; lia).
  rewrite (le_val_small 2 (pay_n (p_pay p))) by (change (256 ^ Z.of_nat 2) with 65536; lia).
  rewrite (le_val_small 4 (pay_size (p_pay p))) by (change (256 ^ Z.of_nat 4) with (2 ^ 32); lia).
  pose proof (div_lt_cdiv (p_x p) width (d_ds d) Hds Px) as HX. rewrite <- Hw in HX.
  replace (p_x p / d_ds d <? w) with true by lia. replace (L / d_ds d <? h) with true by lia. cbn [andb].
  assert (Fin : forall evs, Forall (fun e => 0 <= fst e) evs -> (forall c, 0 <= c < d_chan d -> total c evs = spectrum (p_pay p) c) ->
     cells_are h w d (fun y x c => f y x c + at_cell (d_ds d) L p y x c) (add_cells d ((L / d_ds d * w + p_x p / d_ds d) * d_chan d) evs arr)).
  { intros evs E1 E2. eapply cells_ext; [|apply (add_cells_ok h w d evs f arr _ _ HL HX E1 HA)]. intros y x c _ _ Gc. cbn beta. unfold at_cell. rewrite E2 by exact Gc. reflexivity. }
  destruct (p_pay p) as [ps|ps|fl gs adds] eqn:Ep; cbn [pay_flag pay_n pay_size pay_data pay_extra] in *.
  - cbn [Z.eqb]. destruct (cy_read_ok chunk s8 _ _ _ G8 eq_refl) as [s9 [-> G9]]; [exact Psz|]. cbn [bind]. rewrite cy16_ok by apply Pay. cbn [bind].
    eexists _, _. split; [reflexivity|]. split; [exact G9|]. apply Fin; [eapply ones_nonneg; apply Pay|]. intros c _. apply total_ones.
  - cbn [Z.eqb Pos.eqb]. destruct (cy_read_ok chunk s8 _ _ _ G8 eq_refl) as [s9 [-> G9]]; [exact Psz|]. cbn [bind].
    destruct (C30_pulses ps) as [_ E]; [apply Pay|]. rewrite E. cbn [bind].
    eexists _, _. split; [reflexivity|]. split; [exact G9|]. apply Fin; [eapply ones_nonneg; apply Pay|]. intros c _. apply total_ones.
  - destruct Pay as [Hf [Hg [Ha Hn]]]. replace (fl =? 0) with false by lia. replace (fl =? 1) with false by lia.
    pose proof (zlen_nonneg _ (flat_map enc_group gs)) as Hd. replace (zlen (flat_map enc_group gs) + 4 <? 4) with false by lia.
    replace (zlen (flat_map enc_group gs) + 4 - 4) with (zlen (flat_map enc_group gs)) by lia.
    destruct (cy_read_ok chunk s8 _ _ _ G8 eq_refl) as [s9 [-> G9]]; [lia|]. cbn [bind].
    unfold cy_ok in Hcy. rewrite Ep in Hcy. destruct Hcy as [N32 N64]. rewrite (Z.mod_small (zlen (flat_map enc_group gs)) 65536) by lia.
    pose proof (cy_groups_ok gs (S (List.length (flat_map enc_group gs))) [] [] (d_chan d) 0 Hg N32 (enc_groups_fuel gs)) as E.
    rewrite app_nil_r in E. cbn [app] in E. change (zlen (@nil Z)) with 0 in E. rewrite Z.add_0_l in E. rewrite E. cbn [bind]. rewrite <- app_assoc in G9.
    destruct (cy_read_ok chunk s9 _ _ 4 G9) as [s10 [-> G10]]; [apply zlen_le|lia|]. cbn [bind].
    replace (Z.to_nat (zlen adds)) with (List.length adds) by (unfold zlen; lia).
    destruct (cy_pulses_ok chunk adds s10 l Hc Ha G10) as [s11 [-> G11]]. cbn [bind].
    eexists _, _. split; [reflexivity|]. split; [exact G11|]. apply Fin.
    + apply Forall_app. split; [apply g_events_nonneg; [exact Hg|lia]|eapply ones_nonneg; exact Ha].
    + intros c Gc. rewrite total_app, total_ones, total_groups by (try assumption; lia). replace (c <? d_chan d) with true by lia. rewrite Z.sub_0_r. reflexivity.
Qed.

(** * Lines and maps, for both parsers *)
Section Walk.
Variables (py : bool) (chunk h w : Z) (d : dims).
Variable (step : Z -> stream -> list Z -> res (stream * list Z)).
Variable (line : Z -> stream -> list Z -> res (stream * list Z)).
Variable (ok : pix -> Prop).
Variable (side : (Z -> Z -> Z -> Z) -> Z -> pix -> Prop).
Hypothesis (step_ok : forall L p f arr s l, 0 <= L / d_ds d < h -> ok p -> side f L p ->
  good py chunk s (enc_pix p ++ l) -> cells_are h w d f arr ->
  exists s' arr', step L s arr = Ok (s', arr') /\ good py chunk s' l /\ cells_are h w d (fun y x c => f y x c + at_cell (d_ds d) L p y x c) arr').
Hypothesis (line_ok : forall L (ps : list pix) arr s l, zlen ps < 2 ^ 31 -> good py chunk s (le 4 (zlen ps) ++ l) ->
  exists s', good py chunk s' l /\ line L s arr = times (List.length ps) (fun '(s, a) => step L s a) (s', arr)).

Fixpoint sides (f : Z -> Z -> Z -> Z) (L : Z) (ps : list pix) : Prop :=
  match ps with
  | [] => True
  | p :: ps' => side f L p /\ sides (fun y x c => f y x c + at_cell (d_ds d) L p y x c) L ps'
  end.
Fixpoint all_sides (f : Z -> Z -> Z -> Z) (L : Z) (lines : list (list pix)) : Prop :=
  match lines with
  | [] => True
  | l :: lines' => sides f L l /\ all_sides (fun y x c => f y x c + line_sum (d_ds d) L l y x c) (L + 1) lines'
  end.

Lemma walk_line : forall L ps f arr s l, 0 <= L / d_ds d < h -> Forall ok ps -> sides f L ps ->
  good py chunk s (flat_map enc_pix ps ++ l) -> cells_are h w d f arr ->
  exists s' arr', times (List.length ps) (fun '(s, a) => step L s a) (s, arr) = Ok (s', arr') /\ good py chunk s' l /\
    cells_are h w d (fun y x c => f y x c + line_sum (d_ds d) L ps y x c) arr'.
Proof.
  intros L ps. induction ps as [|p ps IH]; intros f arr s l HL Hok Hs G HA.
  - exists s, arr. split; [reflexivity|]. split; [exact G|]. eapply cells_ext; [|exact HA]. intros. cbn [line_sum]. lia.
  - inversion Hok as [|? ? O1 O2]; subst. destruct Hs as [S1 S2]. cbn [flat_map] in G. rewrite <- app_assoc in G.
    destruct (step_ok L p f arr s _ HL O1 S1 G HA) as [s1 [a1 [E1 [G1 A1]]]].
    destruct (IH _ a1 s1 l HL O2 S2 G1 A1) as [s2 [a2 [E2 [G2 A2]]]].
    exists s2, a2. split; [cbn [List.length times]; rewrite E1; cbn [bind]; exact E2|]. split; [exact G2|].
    eapply cells_ext; [|exact A2]. intros. cbn [line_sum]. lia.
Qed.

Lemma walk_map : forall lines L f arr s l, (forall k, L <= k < L + zlen lines -> 0 <= k / d_ds d < h) -> Forall (fun ps => zlen ps < 2 ^ 31 /\ Forall ok ps) lines ->
  all_sides f L lines -> good py chunk s (flat_map enc_line lines ++ l) -> cells_are h w d f arr ->
  exists s' arr', map_lines line (zseq L (List.length lines)) s arr = Ok (s', arr') /\
    cells_are h w d (fun y x c => f y x c + map_sum (d_ds d) L lines y x c) arr'.
Proof.
  induction lines as [|ps lines IH]; intros L f arr s l HL Hok Hs G HA.
  - exists s, arr. split; [reflexivity|]. eapply cells_ext; [|exact HA]. intros. cbn [map_sum]. lia.
  - inversion Hok as [|? ? [O0 O1] O2]; subst. destruct Hs as [S1 S2]. cbn [flat_map] in G. unfold enc_line in G at 1. rewrite <- !app_assoc in G.
    destruct (line_ok L ps arr s _ O0 G) as [s1 [G1 E1]].
    rewrite zlen_cons in HL. pose proof (zlen_nonneg _ lines).
    destruct (walk_line L ps f arr s1 _ (HL L ltac:(lia)) O1 S1 G1 HA) as [s2 [a2 [E2 [G2 A2]]]].
    destruct (IH (L + 1) (fun y x c => f y x c + line_sum (d_ds d) L ps y x c) a2 s2 l) as [s3 [a3 [E3 A3]]]; [intros; apply HL; lia|exact O2|exact S2|exact G2|exact A2|].
    exists s3, a3. split; [cbn [List.length zseq map_lines]; rewrite E1, E2; cbn [bind]; exact E3|].
    eapply cells_ext; [|exact A3]. intros. cbn [map_sum]. lia.
Qed.
End Walk.

Lemma open_ok : forall py chunk chunks width filler lines tail, 416 <= chunk -> chunks_ok py chunk chunks ->
  List.length filler = 408%nat -> 416 <= zlen (hd [] chunks) -> List.concat chunks = enc_map width filler lines ++ tail ->
  exists b s, open_stream chunk chunks = Ok (b, s) /\ slice 0 4 b = le 4 (zlen lines) /\ slice 4 4 b = le 4 width /\
    good py chunk s (flat_map enc_line lines ++ tail).
Proof.
  intros py chunk chunks width filler lines tail Hc Hk Hf Hb E. destruct chunks as [|b r]; [change (zlen (hd [] [])) with 0 in Hb; lia|].
  cbn [hd] in Hb. cbn [open_stream]. unfold header_len. replace (zlen b <? 416) with false by lia. eexists _, _. split; [reflexivity|].
  set (head := le 4 (zlen lines) ++ le 4 width ++ filler). assert (Lh : zlen head = 416).
  { unfold head. rewrite !zlen_app, !zlen_le. unfold zlen. rewrite Hf. reflexivity. }
  assert (E2 : b ++ List.concat r = head ++ flat_map enc_line lines ++ tail).
  { cbn [List.concat] in E. rewrite E. unfold enc_map, head. rewrite <- !app_assoc. reflexivity. }
  assert (X : exists b', b = head ++ b' /\ b' ++ List.concat r = flat_map enc_line lines ++ tail).
  { exists (skipn (List.length head) b). assert (F : firstn (List.length head) b = head).
    { transitivity (firstn (List.length head) (b ++ List.concat r)).
      - rewrite firstn_app. replace (List.length head - List.length b)%nat with 0%nat by (unfold zlen in *; lia). cbn. rewrite app_nil_r. reflexivity.
      - rewrite E2. apply firstn_app_exact. reflexivity. }
    assert (B : b = head ++ skipn (List.length head) b) by (rewrite <- F at 1; symmetry; apply firstn_skipn).
    split; [exact B|]. rewrite B in E2 at 1. rewrite <- app_assoc in E2. apply app_inv_head in E2. exact E2. }
  destruct X as [b' [-> Hb']]. split; [|split].
  - unfold head. rewrite <- !app_assoc. apply slice_here. apply le_length.
  - unfold head. rewrite <- !app_assoc. apply slice_app; [apply le_length|apply le_length].
  - rewrite skipz_app by exact Lh. split; [exact Hb'|]. cbn [s_buf s_off s_size s_rest]. rewrite zlen_app in Hb. split.
    + destruct r; [exact I|]. apply Hk.
    + destruct r as [|b2 r]; cbn [chunks_ok] in Hk; rewrite zlen_app in Hk; [destruct py; lia|lia].
Qed.

Lemma cells_start : forall h w d, 0 <= h * w * d_chan d -> cells_are h w d (fun _ _ _ => 0) (repeat 0 (Z.to_nat (h * w * d_chan d))).
Proof.
  intros h w d H. split; [unfold zlen; rewrite repeat_length; lia|]. intros. rewrite nth_repeat. unfold wrap. rewrite Zmod_0_l. reflexivity.
Qed.

Lemma lines_range : forall ds n k, 0 < ds -> 0 <= k < 0 + n -> 0 <= k / ds < cdiv n ds.
Proof. intros. apply div_lt_cdiv; lia. Qed.

(** ** The compiled parser *)
Theorem C53_compiled : forall bits ds chunk chunks width c filler lines tail, 416 <= chunk -> 0 < ds -> 0 <= c -> 0 <= width < 2 ^ 31 ->
  List.length filler = 408%nat -> zlen lines < 2 ^ 31 -> 416 <= zlen (hd [] chunks) ->
  chunks_ok false chunk chunks -> List.concat chunks = enc_map width filler lines ++ tail ->
  Forall (fun ps => zlen ps < 2 ^ 31 /\ Forall (fun p => pix_ok chunk width p /\ cy_ok p) ps) lines ->
  let h := cdiv (zlen lines) ds in let w := cdiv width ds in
  exists arr, cy_parse h w c bits ds chunk chunks = Ok arr /\ zlen arr = h * w * c /\
    forall y x e, 0 <= y < h -> 0 <= x < w -> 0 <= e < c ->
      nth (Z.to_nat ((y * w + x) * c + e)) arr 0 = map_sum ds 0 lines y x e mod 2 ^ bits.
Proof.
  intros bits ds chunk chunks width c filler lines tail Hc Hds Hch Hwd Hf Hl Hb Hk E Hok h w. unfold cy_parse.
  destruct (open_ok false chunk chunks width filler lines tail Hc Hk Hf Hb E) as [b [s [-> [B0 [B1 G]]]]]. cbn [bind]. rewrite B0.
  pose proof (zlen_nonneg _ lines) as Ln. rewrite le_val_small by (change (256 ^ Z.of_nat 4) with (2 * 2 ^ 31); lia).
  set (d := mkDims 0 c ds bits).
  assert (Hh : 0 <= h) by (unfold h; pose proof (cdiv_spec (zlen lines) ds Hds); nia).
  assert (Hw : 0 <= w) by (unfold w; pose proof (cdiv_spec width ds Hds); nia).
  replace (Z.to_nat (zlen lines)) with (List.length lines) by (unfold zlen; lia).
  destruct (walk_map false chunk h w d (cy_pixel h w d chunk) (cy_line h w d chunk) (fun p => pix_ok chunk width p /\ cy_ok p) (fun _ _ _ => True)) with
    (lines := lines) (L := 0) (f := fun _ _ _ : Z => 0) (arr := repeat 0 (Z.to_nat (h * w * c))) (s := s) (l := tail) as [s' [arr [Er [La HA]]]].
  - intros L p f arr s0 l HL [O1 O2] _ G0 A0. apply (cy_pixel_ok h w d chunk width L p f arr s0 l); try assumption; reflexivity.
  - intros L ps arr s0 l Hps G0. unfold cy_line. destruct (cy_read_ok chunk s0 _ _ 4 G0) as [s1 [-> G1]]; [apply zlen_le|lia|]. cbn [bind].
    pose proof (zlen_nonneg _ ps). rewrite le_val_small by (change (256 ^ Z.of_nat 4) with (2 * 2 ^ 31); lia).
    exists s1. split; [exact G1|]. replace (Z.to_nat (zlen ps)) with (List.length ps) by (unfold zlen; lia). reflexivity.
  - intros k Hk0. apply lines_range; assumption.
  - exact Hok.
  - clear. generalize (fun _ _ _ : Z => 0) as f. generalize 0 as L. induction lines as [|ps lines IH]; intros L f; cbn [all_sides]; [exact I|]. split; [|apply IH].
    clear. revert f. induction ps as [|p ps IH]; intro f; cbn [sides]; [exact I|]. split; [exact I|apply IH].
  - exact G.
  - apply (cells_start h w d). cbn [d_chan d]. nia.
  - rewrite Er. cbn [bind]. exists arr. split; [reflexivity|]. split; [exact La|]. intros y x e Hy Hx He.
    pose proof (HA y x e Hy Hx He) as R. cbn [d_chan d_ds d] in R. rewrite R. unfold wrap. cbn [d_bits d]. rewrite Z.add_0_l. reflexivity.
Qed.
Print Assumptions C53_compiled.

(** ** The Python parser *)
Lemma maxZ_ge : forall l x, In x l -> x <= maxZ l.
Proof. induction l as [|y l IH]; intros x H; [contradiction|]. cbn [maxZ fold_right]. fold (maxZ l). destruct H as [->|H]; [lia|]. apply IH in H. lia. Qed.
Lemma nth_map_zseq : forall (g : Z -> Z) n a i, (i < n)%nat -> nth i (map g (zseq a n)) 0 = g (a + Z.of_nat i).
Proof.
  intros g n. induction n as [|n IH]; intros a i Hi; [lia|]. cbn [zseq map]. destruct i as [|i]; cbn [nth]; [f_equal; lia|].
  rewrite IH by lia. f_equal. lia.
Qed.
Lemma zseq_length : forall n a, List.length (zseq a n) = n.
Proof. induction n as [|n IH]; intro a; cbn; [reflexivity|]. rewrite IH. reflexivity. Qed.
Lemma bincount_ok : forall m l c, 0 <= c < m -> nth (Z.to_nat c) (bincount m l) 0 = countZ (Z.eqb c) l.
Proof.
  intros m l c Hc. unfold bincount. rewrite nth_map_zseq by (destruct l; lia). f_equal. f_equal. lia.
Qed.
Lemma bincount_len : forall m l, 0 <= m -> m <= zlen (bincount m l).
Proof. intros m l H. unfold bincount, zlen. rewrite map_length, zseq_length. destruct l; lia. Qed.

Lemma halves_le : forall ps r, below 65536 ps -> halves false (flat_map (le 2) ps ++ r) = ps ++ halves false r.
Proof.
  induction ps as [|p ps IH]; intros r H; [reflexivity|]. inversion H as [|? ? A B]; subst.
  change (flat_map (le 2) (p :: ps)) with ([p mod 256; (p / 256) mod 256] ++ flat_map (le 2) ps). rewrite <- app_assoc. cbn [app halves]. rewrite IH by exact B. f_equal. lia.
Qed.

Lemma bump_len : forall i v l, 0 <= i < zlen l -> zlen (bump i v l) = zlen l.
Proof. intros. unfold bump, zlen in *. rewrite set_nth_length by lia. reflexivity. Qed.
Lemma add_pulses_ok : forall ps l, Forall (fun a => 0 <= a < zlen l) ps -> exists r, add_pulses ps l = Ok r /\ zlen r = zlen l /\
  forall c, 0 <= c -> nth (Z.to_nat c) r 0 = nth (Z.to_nat c) l 0 + (if c <? zlen l then countZ (Z.eqb c) ps else 0).
Proof.
  induction ps as [|p ps IH]; intros l H.
  - exists l. split; [reflexivity|]. split; [reflexivity|]. intros c _. cbn [countZ]. destruct (c <? zlen l); lia.
  - inversion H as [|? ? A B]; subst. cbn [add_pulses]. replace (p <? zlen l) with true by lia.
    destruct (IH (bump p 1 l)) as [r [E [L C]]]; [rewrite bump_len by exact A; exact B|]. rewrite bump_len in L by exact A.
    exists r. split; [exact E|]. split; [exact L|]. intros c Hc. rewrite C by exact Hc. rewrite bump_len by exact A. cbn [countZ]. unfold bump.
    destruct (Z.eq_dec c p) as [->|Ne].
    + rewrite nth_set_same by (unfold zlen in A; lia). replace (p <? zlen l) with true by lia. rewrite Z.eqb_refl. lia.
    + rewrite nth_set_other by (try (unfold zlen in A; lia)). replace (c =? p) with false by lia. destruct (c <? zlen l); lia.
Qed.

Lemma zip_add_len : forall a b, List.length (zip_add a b) = Nat.min (List.length a) (List.length b).
Proof. induction a as [|x a IH]; intros [|y b]; cbn; [reflexivity..|]. rewrite IH. reflexivity. Qed.
Lemma zip_add_nth : forall a b i, (i < List.length a)%nat -> (i < List.length b)%nat -> nth i (zip_add a b) 0 = nth i a 0 + nth i b 0.
Proof. induction a as [|x a IH]; intros [|y b] i Ha Hb; cbn in Ha, Hb; try lia. destruct i as [|i]; cbn; [reflexivity|]. apply IH; lia. Qed.
Lemma nth_slice : forall (l : list Z) a n i, (i < n)%nat -> (a + n <= List.length l)%nat -> nth i (slice a n l) 0 = nth (a + i) l 0.
Proof.
  intros l a n i Hi H. unfold slice. rewrite <- (firstn_skipn a l) at 2. rewrite app_nth2; rewrite firstn_length; [|lia].
  replace (a + i - Nat.min a (List.length l))%nat with i by lia. rewrite <- (firstn_skipn n (skipn a l)) at 2. rewrite app_nth1; [reflexivity|].
  rewrite firstn_length, skipn_length. lia.
Qed.

(** Replacing a range of cells. *)
Lemma nth_range : forall base (new l : list Z) i, (base + List.length new <= List.length l)%nat ->
  nth i (firstn base l ++ new ++ skipn (base + List.length new) l) 0 =
  if (base <=? i)%nat && (i <? base + List.length new)%nat then nth (i - base) new 0 else nth i l 0.
Proof.
  intros base new l i H. destruct (base <=? i)%nat eqn:E1.
  - rewrite app_nth2; rewrite firstn_length; [|lia]. replace (i - Nat.min base (List.length l))%nat with (i - base)%nat by lia.
    destruct (i <? base + List.length new)%nat eqn:E2; cbn [andb].
    + rewrite app_nth1 by lia. reflexivity.
    + rewrite app_nth2 by lia. rewrite <- (firstn_skipn (base + List.length new) l) at 2. rewrite app_nth2; rewrite firstn_length; [|lia]. f_equal. lia.
  - cbn [andb]. rewrite app_nth1 by (rewrite firstn_length; lia). rewrite <- (firstn_skipn base l) at 2. rewrite app_nth1 by (rewrite firstn_length; lia). reflexivity.
Qed.

Lemma write_range_ok : forall h w d f arr y0 x0 v, 0 <= y0 < h -> 0 <= x0 < w -> 0 <= d_chan d -> zlen v = d_chan d ->
  (d_ds d = 1 -> forall c, 0 <= c < d_chan d -> f y0 x0 c = 0) -> cells_are h w d f arr ->
  exists arr', write_range d (d_chan d * (x0 + w * y0)) (d_chan d) v arr = Ok arr' /\
    cells_are h w d (fun y x c => f y x c + (if (y0 =? y) && (x0 =? x) then nth (Z.to_nat c) v 0 else 0)) arr'.
Proof.
  intros h w d f arr y0 x0 v Hy Hx Hc Hv Hside [L H]. unfold write_range. set (k := d_chan d) in *.
  assert (B0 : 0 <= y0 * w + x0 < h * w) by nia. assert (B1 : (y0 * w + x0) * k + k <= h * w * k) by nia. assert (B2 : 0 <= (y0 * w + x0) * k) by nia.
  replace (k * (x0 + w * y0)) with ((y0 * w + x0) * k) by lia.
  replace (zlen arr <? (y0 * w + x0) * k + k) with false by lia. replace (zlen v =? k) with true by lia. cbn [orb negb].
  set (base := (y0 * w + x0) * k) in *. rewrite !firstz_firstn, !skipz_skipn. change (firstn (Z.to_nat k) (skipn (Z.to_nat base) arr)) with (slice (Z.to_nat base) (Z.to_nat k) arr).
  set (new := if d_ds d =? 1 then map (wrap d) v else map (wrap d) (zip_add (slice (Z.to_nat base) (Z.to_nat k) arr) v)).
  assert (Lv : List.length v = Z.to_nat k) by (unfold zlen in Hv; lia).
  assert (Ls : List.length (slice (Z.to_nat base) (Z.to_nat k) arr) = Z.to_nat k) by (apply slice_length; unfold zlen in L; lia).
  assert (Ln : List.length new = Z.to_nat k). { unfold new. destruct (d_ds d =? 1); rewrite map_length; [exact Lv|]. rewrite zip_add_len. lia. }
  eexists. split; [reflexivity|]. replace (Z.to_nat (base + k)) with (Z.to_nat base + List.length new)%nat by lia. split.
  - unfold zlen in *. rewrite !app_length, firstn_length, skipn_length. lia.
  - intros y x c Gy Gx Gc. fold k in Gc. fold k. rewrite nth_range by (unfold zlen in L; lia).
    pose proof (cell_range h w k y x c Gy Gx Gc) as R.
    destruct ((y0 =? y) && (x0 =? x)) eqn:E.
    + assert (y0 = y /\ x0 = x) as [-> ->] by lia. fold base.
      replace ((Z.to_nat base <=? Z.to_nat (base + c))%nat && (Z.to_nat (base + c) <? Z.to_nat base + List.length new)%nat) with true by lia.
      replace (Z.to_nat (base + c) - Z.to_nat base)%nat with (Z.to_nat c) by lia. unfold new. destruct (d_ds d =? 1) eqn:Ed.
      * rewrite (nth_indep _ 0 (wrap d 0)) by (rewrite map_length; lia). rewrite map_nth. rewrite Hside by lia. rewrite Z.add_0_l. reflexivity.
      * rewrite (nth_indep _ 0 (wrap d 0)) by (rewrite map_length, zip_add_len; lia). rewrite map_nth. rewrite zip_add_nth by lia.
        rewrite nth_slice by (unfold zlen in L; lia). replace (Z.to_nat base + Z.to_nat c)%nat with (Z.to_nat (base + c)) by lia.
        unfold base. rewrite (H y x c Gy Gx Gc). apply wrap_add.
    + replace ((Z.to_nat base <=? Z.to_nat ((y * w + x) * k + c))%nat && (Z.to_nat ((y * w + x) * k + c) <? Z.to_nat base + List.length new)%nat) with false.
      * rewrite Z.add_0_r. apply H; assumption.
      * symmetry. apply andb_false_iff. destruct (Z.lt_ge_cases ((y * w + x) * k + c) base) as [Lt|Ge]; [left; lia|]. right.
        destruct (Z.lt_ge_cases ((y * w + x) * k + c) (base + k)) as [Lt2|Ge2]; [|lia]. exfalso.
        assert ((y * w + x) * k + c = (y0 * w + x0) * k + ((y * w + x) * k + c - base)) by (unfold base; lia).
        apply cell_inj in H0; try assumption; lia.
Qed.

(** A pixel list with at least the wanted channels. *)
Lemma py_write : forall h w d f arr L p v, 0 <= L / d_ds d < h -> 0 <= p_x p / d_ds d < w -> 0 <= d_chan d -> d_chan d <= p_chan1 p -> w = cdiv (d_width d) (d_ds d) ->
  d_chan d <= zlen v -> (forall c, 0 <= c < d_chan d -> nth (Z.to_nat c) v 0 = spectrum (p_pay p) c) ->
  (d_ds d = 1 -> forall c, 0 <= c < d_chan d -> f (L / d_ds d) (p_x p / d_ds d) c = 0) -> cells_are h w d f arr ->
  let m := if d_chan d <? p_chan1 p then d_chan d else p_chan1 p in
  exists arr', write_range d (d_chan d * (p_x p / d_ds d + cdiv (d_width d) (d_ds d) * (L / d_ds d))) m (firstz m v) arr = Ok arr' /\
    cells_are h w d (fun y x c => f y x c + at_cell (d_ds d) L p y x c) arr'.
Proof.
  intros h w d f arr L p v HL HX Hc Hch Hw Hv Hsp Hside HA m. assert (m = d_chan d) as -> by (unfold m; destruct (d_chan d <? p_chan1 p) eqn:E; lia).
  rewrite <- Hw.
  destruct (write_range_ok h w d f arr (L / d_ds d) (p_x p / d_ds d) (firstz (d_chan d) v) HL HX Hc) as [arr' [E A]]; [|exact Hside|exact HA|].
  - rewrite firstz_firstn. unfold zlen in *. rewrite firstn_length. lia.
  - exists arr'. split; [exact E|]. eapply cells_ext; [|exact A]. intros y x c _ _ Gc. cbn beta. unfold at_cell. rewrite <- (Hsp c Gc), firstz_firstn.
    rewrite <- (firstn_skipn (Z.to_nat (d_chan d)) v) at 2. rewrite app_nth1; [reflexivity|]. rewrite firstn_length. unfold zlen in Hv. lia.
Qed.

Lemma py_header : forall p rest, zlen (le 4 (p_x p) ++ le 2 (p_chan1 p) ++ le 2 (p_chan2 p) ++ le 4 (p_filler p) ++ le 2 (pay_flag (p_pay p)) ++
    le 2 (p_size1 p) ++ le 2 (pay_n (p_pay p)) ++ le 4 (pay_size (p_pay p))) = 22 /\
  enc_pix p ++ rest = (le 4 (p_x p) ++ le 2 (p_chan1 p) ++ le 2 (p_chan2 p) ++ le 4 (p_filler p) ++ le 2 (pay_flag (p_pay p)) ++
    le 2 (p_size1 p) ++ le 2 (pay_n (p_pay p)) ++ le 4 (pay_size (p_pay p))) ++ pay_data (p_pay p) ++ pay_extra (p_pay p) ++ rest.
Proof.
  intros p rest. split; [rewrite !zlen_app, !zlen_le; reflexivity|]. unfold enc_pix. rewrite <- !app_assoc. reflexivity.
Qed.

Lemma py_pixel_ok : forall h w d chunk L p f arr s l, 416 <= chunk -> 0 < d_ds d -> 0 <= d_chan d -> w = cdiv (d_width d) (d_ds d) -> 0 <= L / d_ds d < h ->
  pix_ok chunk (d_width d) p -> py_ok chunk (d_chan d) p ->
  (d_ds d = 1 -> forall c, 0 <= c < d_chan d -> f (L / d_ds d) (p_x p / d_ds d) c = 0) ->
  good true chunk s (enc_pix p ++ l) -> cells_are h w d f arr ->
  exists s' arr', py_pixel d chunk L s arr = Ok (s', arr') /\ good true chunk s' l /\
    cells_are h w d (fun y x c => f y x c + at_cell (d_ds d) L p y x c) arr'.
Proof.
  intros h w d chunk L p f arr s l Hc Hds Hch Hw HL Hp Hpy Hside G HA. destruct Hp as [Px [Px2 [Pc1 [Pc2 [Pay [Psz Psz2]]]]]].
  destruct (py_header p l) as [H22 E22]. rewrite E22 in G. clear E22. set (hd := le 4 (p_x p) ++ _) in *.
  unfold py_pixel. pose proof (zlen_nonneg _ (pay_data (p_pay p) ++ pay_extra (p_pay p) ++ l)) as Z0.
  destruct (ensure_ok true chunk 22 s _ G) as [s1 [-> [G1 B1]]]; [lia|rewrite zlen_app; lia|lia|]. cbn [bind]. rewrite <- H22 in B1.
  destruct (take_ok _ _ _ _ _ G1 B1) as [s2 [T2 [G2 _]]]. rewrite H22 in T2. rewrite T2. unfold exact at 1. cbn [fst]. rewrite H22. change (22 =? 22) with true. cbv iota. cbn [bind].
  assert (Sz0 : 0 <= pay_size (p_pay p)). { unfold pay_size. pose proof (zlen_nonneg _ (pay_data (p_pay p))). destruct (p_pay p); lia. }
  assert (F0 : 0 <= pay_flag (p_pay p) < 65536) by (clear - Pay; destruct (p_pay p); cbn in *; lia).
  assert (N0 : 0 <= pay_n (p_pay p) < 65536).
  { destruct (p_pay p) as [ps|ps|fl gs adds]; cbn [pay_n] in *; match goal with |- context [zlen ?q] => pose proof (zlen_nonneg _ q) end; lia. }
  assert (R0 : le_val (slice 0 4 hd) = p_x p). { unfold hd. rewrite slice_here by apply le_length. apply le_val_small. change (256 ^ Z.of_nat 4) with (2 ^ 32). lia. }
  assert (R1 : le_val (slice 4 2 hd) = p_chan1 p). { unfold hd. rewrite slice_app by apply le_length. apply le_val_small. change (256 ^ Z.of_nat 2) with 65536. lia. }
  assert (R2 : le_val (slice 6 2 hd) = p_chan2 p).
  { unfold hd. rewrite (app_assoc (le 4 (p_x p))). rewrite slice_app; [apply le_val_small; change (256 ^ Z.of_nat 2) with 65536; lia|rewrite app_length, !le_length; reflexivity|apply le_length]. }
  assert (R3 : le_val (slice 12 2 hd) = pay_flag (p_pay p)).
  { unfold hd. rewrite (app_assoc (le 4 (p_x p))), (app_assoc _ (le 2 (p_chan2 p))), (app_assoc _ (le 4 (p_filler p))).
    rewrite slice_app; [apply le_val_small; change (256 ^ Z.of_nat 2) with 65536; lia|rewrite !app_length, !le_length; reflexivity|apply le_length]. }
  assert (R4 : le_val (slice 16 2 hd) = pay_n (p_pay p)).
  { unfold hd. rewrite (app_assoc (le 4 (p_x p))), (app_assoc _ (le 2 (p_chan2 p))), (app_assoc _ (le 4 (p_filler p))), (app_assoc _ (le 2 (pay_flag (p_pay p)))), (app_assoc _ (le 2 (p_size1 p))).
    rewrite slice_app; [apply le_val_small; change (256 ^ Z.of_nat 2) with 65536; lia|rewrite !app_length, !le_length; reflexivity|apply le_length]. }
  assert (R5 : le_val (slice 18 4 hd) = pay_size (p_pay p)).
  { unfold hd. rewrite (app_assoc (le 4 (p_x p))), (app_assoc _ (le 2 (p_chan2 p))), (app_assoc _ (le 4 (p_filler p))), (app_assoc _ (le 2 (pay_flag (p_pay p)))), (app_assoc _ (le 2 (p_size1 p))), (app_assoc _ (le 2 (pay_n (p_pay p)))).
    rewrite <- (app_nil_r (le 4 (pay_size (p_pay p)))).
    rewrite slice_app; [apply le_val_small; change (256 ^ Z.of_nat 4) with (2 ^ 32); lia|rewrite !app_length, !le_length; reflexivity|apply le_length]. }
  rewrite R0, R1, R2, R3, R4, R5. clear R0 R1 R2 R3 R4 R5 T2 B1 G1 s1 G s. clearbody hd.
  pose proof (div_lt_cdiv (p_x p) (d_width d) (d_ds d) Hds Px) as HX. rewrite <- Hw in HX.
  assert (Szl : pay_size (p_pay p) <= zlen (pay_data (p_pay p) ++ pay_extra (p_pay p) ++ l)).
  { rewrite !zlen_app. pose proof (zlen_nonneg _ l). unfold pay_size. destruct (p_pay p) as [ps|ps|fl gs adds]; cbn [pay_extra]; [change (zlen (@nil Z)) with 0; lia..|].
    rewrite zlen_app, zlen_le. pose proof (zlen_nonneg _ (flat_map (le 2) adds)). lia. }
  destruct (ensure_ok true chunk _ s2 _ G2 Sz0 Szl Psz) as [s3 [-> [G3 B3]]]. cbn [bind]. clear G2 s2.
  assert (Fin : forall v s4, p_chan1 p >= d_chan d -> d_chan d <= zlen v -> (forall c, 0 <= c < d_chan d -> nth (Z.to_nat c) v 0 = spectrum (p_pay p) c) ->
    good true chunk s4 l ->
    exists s' arr', (let m := if d_chan d <? p_chan1 p then d_chan d else p_chan1 p in
       let! arr := write_range d (d_chan d * (p_x p / d_ds d + cdiv (d_width d) (d_ds d) * (L / d_ds d))) m (firstz m v) arr in Ok (s4, arr)) = Ok (s', arr') /\
      good true chunk s' l /\ cells_are h w d (fun y x c => f y x c + at_cell (d_ds d) L p y x c) arr').
  { intros v s4 K1 K2 K3 K4. destruct (py_write h w d f arr L p v HL HX Hch ltac:(lia) Hw K2 K3 Hside HA) as [arr' [E A]].
    exists s4, arr'. cbv zeta in E |- *. rewrite E. split; [reflexivity|]. split; [exact K4|exact A]. }
  unfold py_ok in Hpy. destruct (p_pay p) as [ps|ps|fl gs adds] eqn:Ep; cbn [pay_flag pay_n pay_size pay_data pay_extra spectrum] in *.
  - cbn [Z.eqb]. cbn [app] in G3. destruct (take_ok _ _ _ _ _ G3 B3) as [s4 [-> [G4 _]]].
    rewrite flat_le_len. replace (Z.of_nat 2 * zlen ps mod 2 =? 0) with true by (clear; lia). cbn [negb]. replace (p_chan1 p <? 1) with false by lia. cbn [bind].
    pose proof (halves_le ps [] ltac:(apply Pay)) as Hh. rewrite !app_nil_r in Hh. rewrite Hh.
    apply Fin; [lia| |intros c Gc; apply bincount_ok; lia|exact G4]. pose proof (bincount_len (p_chan1 p - 1) ps). lia.
  - cbn [Z.eqb Pos.eqb]. cbn [app] in G3. destruct (take_ok _ _ _ _ _ G3 B3) as [s4 [-> [G4 _]]].
    destruct (C30_pulses ps) as [E _]; [apply Pay|]. rewrite E. cbn [bind]. replace (p_chan1 p <? 1) with false by lia. cbn [bind].
    apply Fin; [lia| |intros c Gc; apply bincount_ok; lia|exact G4]. pose proof (bincount_len (p_chan1 p - 1) ps). lia.
  - destruct Pay as [Hf [Hg [Ha Hn]]]. destruct Hpy as [Q1 [Q2 [Q3 Q4]]]. replace (fl =? 0) with false by lia. replace (fl =? 1) with false by lia.
    replace (zlen (flat_map enc_group gs) + 4 - 4) with (zlen (flat_map enc_group gs)) by lia. rewrite <- app_assoc in G3.
    destruct (take_ok _ _ _ _ _ G3 ltac:(lia)) as [s4 [_ [G4 [E4 O4]]]].
    rewrite E4. rewrite py_groups_ok; [|exact Hg|].
    2:{ pose proof (enc_groups_fuel gs). rewrite app_length. lia. }
    cbn [bind]. rewrite <- E4.
    replace (mkS (s_buf s4) (s_off s3 + (zlen (s_buf s3) - zlen (s_buf s4))) (s_size s3) (s_rest s3)) with s4.
    2:{ rewrite E4, zlen_app. rewrite O4 at 1. f_equal. lia. }
    set (px := flat_map group_counts gs ++ _).
    assert (Lpx : zlen px = zlen (flat_map group_counts gs) + (if p_chan2 p <? p_chan1 p then p_chan1 p - p_chan2 p else 0)).
    { unfold px. rewrite zlen_app. f_equal. destruct (p_chan2 p <? p_chan1 p) eqn:E; [|reflexivity]. unfold zlen. rewrite repeat_length. lia. }
    assert (Npx : forall c, 0 <= c -> nth (Z.to_nat c) px 0 = nth (Z.to_nat c) (flat_map group_counts gs) 0).
    { intros c _. unfold px. destruct (Nat.lt_ge_cases (Z.to_nat c) (List.length (flat_map group_counts gs))) as [K|K]; [apply app_nth1; exact K|].
      rewrite app_nth2 by exact K. rewrite (nth_overflow (flat_map _ _)) by exact K. destruct (p_chan2 p <? p_chan1 p); [apply nth_repeat|]. destruct (_ - _)%nat; reflexivity. }
    clearbody px. rewrite <- Lpx in Q2, Q3.
    assert (B4 : zlen (le 4 (2 * zlen adds)) <= zlen (s_buf s4)). { rewrite zlen_le. rewrite E4, zlen_app in B3. lia. }
    destruct (take_ok _ _ _ _ _ G4 B4) as [s5 [T5 [G5 _]]]. rewrite zlen_le in T5. change (Z.of_nat 4) with 4 in T5.
    pose proof (zlen_nonneg _ adds) as A0. destruct (0 <? zlen adds) eqn:Ea.
    + rewrite T5. unfold exact. cbn [fst]. rewrite zlen_le. change (Z.of_nat 4 =? 4) with true. cbv iota. cbn [bind].
      rewrite le_val_small by (change (256 ^ Z.of_nat 4) with (2 ^ 32); lia).
      assert (La : zlen (flat_map (le 2) adds) = 2 * zlen adds) by (rewrite flat_le_len; lia). pose proof (zlen_nonneg _ l) as L0.
      destruct (ensure_ok true chunk (2 * zlen adds) s5 _ G5) as [s6 [-> [G6 B6]]]; [lia|rewrite zlen_app; lia|exact Q4|]. cbn [bind]. rewrite <- La in B6 |- *.
      destruct (take_ok _ _ _ _ _ G6 B6) as [s7 [-> [G7 _]]]. rewrite La, Z.eqb_refl. cbn [negb].
      pose proof (halves_le adds [] Ha) as Hh. rewrite !app_nil_r in Hh. rewrite Hh.
      destruct (add_pulses_ok adds px) as [r [-> [Lr Nr]]].
      { apply Forall_forall. intros a Ia. rewrite Forall_forall in Q3. unfold below in Ha. rewrite Forall_forall in Ha. specialize (Q3 a Ia). specialize (Ha a Ia). cbn beta in *. lia. }
      cbn [bind]. apply Fin; [lia|lia| |exact G7]. intros c Gc. rewrite Nr, Npx by lia. replace (c <? zlen px) with true by lia. reflexivity.
    + cbn [bind]. rewrite T5. cbn [snd]. assert (adds = []) as -> by (destruct adds; [reflexivity|rewrite zlen_cons in Ea; pose proof (zlen_nonneg _ adds); lia]).
      cbn [flat_map app] in G5. apply Fin; [lia|lia| |exact G5]. intros c Gc. rewrite Npx by lia. cbn [countZ]. lia.
Qed.

(** With no downsampling the Python parser overwrites the cells of a pixel. *)
Lemma line_sum_notin : forall ps L L' p y x c, L' <> L -> y = L' -> line_sum 1 L ps y x c + at_cell 1 L p y x c = 0.
Proof.
  assert (A : forall L p y x c, y <> L -> at_cell 1 L p y x c = 0).
  { intros L p y x c H. unfold at_cell. rewrite Z.div_1_r. replace (L =? y) with false by lia. reflexivity. }
  induction ps as [|q ps IH]; intros L L' p y x c H ->; cbn [line_sum]; rewrite A by exact H; [reflexivity|].
  rewrite A by exact H. specialize (IH L L' p L' x c H eq_refl). rewrite A in IH by exact H. lia.
Qed.
Definition side1 (d : dims) (f : Z -> Z -> Z -> Z) (L : Z) (p : pix) : Prop :=
  d_ds d = 1 -> forall c, 0 <= c < d_chan d -> f (L / d_ds d) (p_x p / d_ds d) c = 0.
Lemma sides_nodup : forall d L ps f, (d_ds d = 1 -> NoDup (map p_x ps)) -> (d_ds d = 1 -> forall x c, In x (map p_x ps) -> f L x c = 0) -> sides d (side1 d) f L ps.
Proof.
  intros d L ps. induction ps as [|p ps IH]; intros f Hn Hf; cbn [sides]; [exact I|]. split.
  - intros E c _. rewrite E, !Z.div_1_r. apply Hf; [exact E|left; reflexivity].
  - apply IH.
    + intro E. specialize (Hn E). inversion Hn; assumption.
    + intros E x c Hin. specialize (Hn E). inversion Hn as [|? ? N1 N2]; subst. rewrite Hf by (try exact E; right; exact Hin). unfold at_cell.
      rewrite E, !Z.div_1_r. replace (p_x p =? x) with false. { rewrite andb_false_r. reflexivity. }
      symmetry. apply Z.eqb_neq. intros <-. contradiction.
Qed.
Lemma all_sides_nodup : forall d lines L f, (d_ds d = 1 -> Forall (fun ps => NoDup (map p_x ps)) lines) -> (d_ds d = 1 -> forall y x c, L <= y -> f y x c = 0) ->
  all_sides d (side1 d) f L lines.
Proof.
  intros d lines. induction lines as [|ps lines IH]; intros L f Hn Hf; cbn [all_sides]; [exact I|]. split.
  - apply sides_nodup; [intro E; specialize (Hn E); inversion Hn; assumption|]. intros E x c _. apply Hf; [exact E|lia].
  - apply IH; [intro E; specialize (Hn E); inversion Hn; assumption|]. intros E y x c Hy. rewrite Hf by (try exact E; lia). rewrite E.
    pose proof (line_sum_notin ps L y (mkPix 0 0 0 0 0 (P16 [])) y x c ltac:(lia) eq_refl) as R. unfold at_cell in R. rewrite !Z.div_1_r in R.
    replace (L =? y) with false in R by lia. cbn [andb] in R. lia.
Qed.

Lemma signed4 : forall n, 0 <= n < 2 ^ 31 -> signed 4 (le_val (le 4 n)) = n.
Proof.
  intros n H. rewrite le_val_small by (change (256 ^ Z.of_nat 4) with (2 * 2 ^ 31); lia). unfold signed.
  change (2 ^ (8 * Z.of_nat 4 - 1)) with (2 ^ 31). destruct (_ <? _) eqn:E; lia.
Qed.

Theorem C53_python : forall bits ds chunk chunks width c filler lines tail, 416 <= chunk -> 0 < ds -> 0 <= c -> 0 <= width < 2 ^ 31 ->
  List.length filler = 408%nat -> zlen lines < 2 ^ 31 -> 416 <= zlen (hd [] chunks) ->
  chunks_ok true chunk chunks -> List.concat chunks = enc_map width filler lines ++ tail ->
  Forall (fun ps => zlen ps < 2 ^ 31 /\ Forall (fun p => pix_ok chunk width p /\ py_ok chunk c p) ps) lines ->
  (ds = 1 -> Forall (fun ps => NoDup (map p_x ps)) lines) ->
  let h := cdiv (zlen lines) ds in let w := cdiv width ds in
  exists arr, py_parse h w c bits ds chunk chunks = Ok arr /\ zlen arr = h * w * c /\
    forall y x e, 0 <= y < h -> 0 <= x < w -> 0 <= e < c ->
      nth (Z.to_nat ((y * w + x) * c + e)) arr 0 = map_sum ds 0 lines y x e mod 2 ^ bits.
Proof.
  intros bits ds chunk chunks width c filler lines tail Hc Hds Hch Hwd Hf Hl Hb Hk E Hok Hnd h w. unfold py_parse.
  destruct (open_ok true chunk chunks width filler lines tail Hc Hk Hf Hb E) as [b [s [-> [B0 [B1 G]]]]]. cbn [bind]. rewrite B0, B1.
  pose proof (zlen_nonneg _ lines) as Ln. rewrite !signed4 by lia. cbv zeta.
  set (d := mkDims width c ds bits).
  assert (Hh : 0 <= h) by (unfold h; pose proof (cdiv_spec (zlen lines) ds Hds); nia).
  assert (Hw : 0 <= w) by (unfold w; pose proof (cdiv_spec width ds Hds); nia).
  replace (Z.to_nat (zlen lines)) with (List.length lines) by (unfold zlen; lia).
  destruct (walk_map true chunk h w d (py_pixel d chunk) (py_line d chunk) (fun p => pix_ok chunk width p /\ py_ok chunk c p) (side1 d)) with
    (lines := lines) (L := 0) (f := fun _ _ _ : Z => 0) (arr := repeat 0 (Z.to_nat (h * w * c))) (s := s) (l := tail) as [s' [arr [Er [La HA]]]].
  - intros L p f arr s0 l HL [O1 O2] Hs G0 A0. apply (py_pixel_ok h w d chunk L p f arr s0 l); try assumption; reflexivity.
  - intros L ps arr s0 l Hps G0. unfold py_line. pose proof (zlen_nonneg _ ps). pose proof (zlen_nonneg _ l).
    destruct (ensure_ok true chunk 4 s0 _ G0) as [s1 [-> [G1 N1]]]; [lia|rewrite zlen_app, zlen_le; lia|lia|]. cbn [bind].
    destruct (take_ok _ _ _ _ _ G1) as [s2 [T2 [G2 _]]]; [rewrite zlen_le; exact N1|]. rewrite zlen_le in T2. change (Z.of_nat 4) with 4 in T2. rewrite T2.
    unfold exact. cbn [fst]. rewrite zlen_le. change (Z.of_nat 4 =? 4) with true. cbv iota. cbn [bind]. rewrite signed4 by lia.
    exists s2. split; [exact G2|]. replace (Z.to_nat (zlen ps)) with (List.length ps) by (unfold zlen; lia). reflexivity.
  - intros k Hk0. apply lines_range; assumption.
  - exact Hok.
  - apply all_sides_nodup; [exact Hnd|]. reflexivity.
  - exact G.
  - apply (cells_start h w d). cbn [d_chan d]. nia.
  - rewrite Er. cbn [bind]. fold h w. rewrite Z.eqb_refl. exists arr. split; [reflexivity|]. split; [exact La|]. intros y x e Hy Hx He.
    pose proof (HA y x e Hy Hx He) as R. cbn [d_chan d_ds d] in R. rewrite R. unfold wrap. cbn [d_bits d]. rewrite Z.add_0_l. reflexivity.
Qed.
Print Assumptions C53_python.

(** Both parsers give the same array. *)
Theorem C53_same : forall bits ds chunk chunks width c filler lines tail, 416 <= chunk -> 0 < ds -> 0 <= c -> 0 <= width < 2 ^ 31 ->
  List.length filler = 408%nat -> zlen lines < 2 ^ 31 -> 416 <= zlen (hd [] chunks) ->
  chunks_ok true chunk chunks -> List.concat chunks = enc_map width filler lines ++ tail ->
  Forall (fun ps => zlen ps < 2 ^ 31 /\ Forall (fun p => pix_ok chunk width p /\ cy_ok p /\ py_ok chunk c p) ps) lines ->
  (ds = 1 -> Forall (fun ps => NoDup (map p_x ps)) lines) ->
  let h := cdiv (zlen lines) ds in let w := cdiv width ds in
  py_parse h w c bits ds chunk chunks = cy_parse h w c bits ds chunk chunks.
Proof.
  intros bits ds chunk chunks width c filler lines tail Hc Hds Hch Hwd Hf Hl Hb Hk E Hok Hnd h w.
  assert (Hk' : chunks_ok false chunk chunks).
  { clear - Hk. induction chunks as [|b r IH]; [exact I|]. destruct r as [|b2 r]; cbn [chunks_ok] in *; [lia|]. split; [apply Hk|apply IH; apply Hk]. }
  destruct (C53_python bits ds chunk chunks width c filler lines tail Hc Hds Hch Hwd Hf Hl Hb Hk E) as [a1 [E1 [L1 N1]]]; [|exact Hnd|].
  { eapply Forall_impl; [|exact Hok]. intros ps [A B]. split; [exact A|]. eapply Forall_impl; [|exact B]. intros p [X [Y Z]]. split; assumption. }
  destruct (C53_compiled bits ds chunk chunks width c filler lines tail Hc Hds Hch Hwd Hf Hl Hb Hk' E) as [a2 [E2 [L2 N2]]].
  { eapply Forall_impl; [|exact Hok]. intros ps [A B]. split; [exact A|]. eapply Forall_impl; [|exact B]. intros p [X [Y Z]]. split; assumption. }
  fold h w in E1, E2, L1, L2, N1, N2. rewrite E1, E2. f_equal. apply nth_ext with (d := 0) (d' := 0); [unfold zlen in *; lia|]. intros n Hn.
  assert (Hn' : 0 <= Z.of_nat n < h * w * c) by (unfold zlen in L1; lia).
  assert (0 < c) by (clear - Hn' Hch; destruct (Z.eq_dec c 0) as [->|]; lia). set (m := Z.of_nat n) in *.
  assert (0 <= w) by (unfold w; pose proof (cdiv_spec width ds Hds); nia). assert (0 < w) by (clear - Hn' H0; destruct (Z.eq_dec w 0) as [E|]; [rewrite E in Hn'; lia|lia]).
  assert (M0 : m = (m / c / w * w + (m / c) mod w) * c + m mod c).
  { rewrite (Z.mul_comm (m / c / w)). rewrite <- Z.div_mod by lia. rewrite (Z.mul_comm (m / c)). apply Z.div_mod. lia. }
  assert (Y : 0 <= m / c / w < h).
  { split; [apply Z.div_pos; [apply Z.div_pos; lia|lia]|]. apply Z.div_lt_upper_bound; [lia|]. apply Z.div_lt_upper_bound; [lia|]. lia. }
  replace n with (Z.to_nat m) by (unfold m; apply Nat2Z.id). rewrite M0.
  rewrite N1, N2 by (try exact Y; try (apply Z.mod_pos_bound; lia)). reflexivity.
Qed.
Print Assumptions C53_same.

(** ** Examples *)
Definition ex_filler : list Z := repeat 7 408.
Definition ex_lines : list (list pix) :=
  [[mkPix 0 5 0 1 0 (P16 [1; 1; 3; 300]); mkPix 2 5 0 0 9 (P12 [0; 2; 2; 1; 4095])];
   [mkPix 1 5 4 0 0 (PGroups 3 [GNib 1 [2; 3; 15]; GZero 1] [0; 4])];
   [];
   [mkPix 2 6 5 0 0 (PGroups 2 [G8 300 [7; 0]; G16 70000 [1; 2; 65535]] []); mkPix 0 5 0 0 0 (P12 [])]].
Definition ex_bytes : list Z := enc_map 3 ex_filler ex_lines ++ [1; 2; 3].
Definition ex_chunks : list (list Z) := [firstn 420 ex_bytes; skipn 420 ex_bytes].
Example C53_example : forall ds, ds = 1 \/ ds = 2 ->
  chunks_ok true 420 ex_chunks /\ 416 <= zlen (hd [] ex_chunks) /\ List.concat ex_chunks = enc_map 3 ex_filler ex_lines ++ [1; 2; 3] /\
  Forall (fun ps => zlen ps < 2 ^ 31 /\ Forall (fun p => pix_ok 420 3 p /\ cy_ok p /\ py_ok 420 4 p) ps) ex_lines /\
  Forall (fun ps => NoDup (map p_x ps)) ex_lines.
Proof.
  intros ds _. split; [vm_compute; split; reflexivity|]. split; [vm_compute; discriminate|]. split; [reflexivity|]. split.
  - unfold ex_lines. repeat (match goal with
      | |- _ /\ _ => split
      | |- Forall _ _ => constructor
      | |- _ <= _ => vm_compute; discriminate
      | |- _ < _ => vm_compute; reflexivity
      | |- True => exact I
      | _ => progress unfold pix_ok, pay_ok, cy_ok, py_ok, group_ok, no_g32, below; cbn [p_x p_chan1 p_chan2 p_pay]
      end; cbn beta iota zeta).
  - repeat first [apply Forall_nil | apply Forall_cons]; repeat first [apply NoDup_nil | apply NoDup_cons]; cbn; intuition discriminate.
Qed.
Example C53_example_parsed :
  py_parse 4 3 4 16 1 420 ex_chunks = Ok (
    [0; 2; 0; 1;  0; 0; 0; 0;  1; 1; 2; 0] ++ [0; 0; 0; 0;  4; 4; 16; 0;  0; 0; 0; 0] ++ repeat 0 12 ++ [0; 0; 0; 0;  0; 0; 0; 0;  307; 300; 70001 - 65536; 70002 - 65536]) /\
  cy_parse 2 2 4 32 2 420 ex_chunks = Ok ([4; 6; 16; 1;  1; 1; 2; 0] ++ [0; 0; 0; 0;  307; 300; 70001; 70002]).
Proof. split; vm_compute; reflexivity. Qed.

(** ** Where the parsers differ *)
Definition one_pixel (width : Z) (l : list pix) (chunk : nat) : list (list Z) :=
  let b := enc_map width ex_filler [l] in [firstn chunk b; skipn chunk b].
(** A pixel with the map's number of channels, and no pulse in the last one: ValueError in Python. *)
Theorem C53_last_channel_refuted : exists chunks, chunks = one_pixel 1 [mkPix 0 4 0 0 0 (P16 [1; 1])] 420 /\ chunks_ok true 420 chunks /\
  py_parse 1 1 4 16 1 420 chunks = Err ValueError /\ cy_parse 1 1 4 16 1 420 chunks = Ok [0; 2; 0; 0].
Proof. eexists. split; [reflexivity|]. vm_compute. repeat split; try reflexivity; discriminate. Qed.
Print Assumptions C53_last_channel_refuted.
(** A last chunk that is full: StopIteration in Python. *)
Theorem C53_full_chunk_refuted : exists chunks, chunks = [enc_map 1 ex_filler [[mkPix 0 5 0 0 0 (P16 [1; 1])]]] /\ chunks_ok false 446 chunks /\
  py_parse 1 1 4 16 1 446 chunks = Err StopIteration /\ cy_parse 1 1 4 16 1 446 chunks = Ok [0; 2; 0; 0].
Proof. eexists. split; [reflexivity|]. vm_compute. repeat split; try reflexivity; discriminate. Qed.
Print Assumptions C53_full_chunk_refuted.
(** A position stored twice: Python keeps the last, the compiled parser adds. *)
Theorem C53_twice_refuted : exists chunks, chunks = one_pixel 1 [mkPix 0 5 0 0 0 (P16 [1; 1]); mkPix 0 5 0 0 0 (P16 [2])] 420 /\ chunks_ok true 420 chunks /\
  py_parse 1 1 4 16 1 420 chunks = Ok [0; 0; 1; 0] /\ cy_parse 1 1 4 16 1 420 chunks = Ok [0; 2; 1; 0].
Proof. eexists. split; [reflexivity|]. vm_compute. repeat split; try reflexivity; discriminate. Qed.
Print Assumptions C53_twice_refuted.
(** A piece longer than a chunk: only one chunk more is loaded. *)
Theorem C53_long_refuted : exists chunks, chunks = (let b := enc_map 1 ex_filler [[mkPix 0 5 0 0 0 (P16 (repeat 2 500))]] in
    [firstn 420 b; slice 420 420 b; slice 840 420 b; skipn 1260 b]) /\ chunks_ok true 420 chunks /\
  py_parse 1 1 4 16 1 420 chunks = Ok [0; 0; 409; 0] /\ cy_parse 1 1 4 16 1 420 chunks = Err IndexError.
Proof. eexists. split; [reflexivity|]. vm_compute. repeat split; try reflexivity; discriminate. Qed.
Print Assumptions C53_long_refuted.

(** * C54: the number of bits of a cell *)
Definition fits (t : Z * bool) (v : Z) : Prop := 0 <= v < 2 ^ (fst t - if snd t then 1 else 0).
(** Twice the mean count of the fullest channel, over the area of a cell. *)
Definition twice_mean (maxsum width height ds : Z) : Z := maxsum / width / height * 2 * ds * ds.

Theorem C54_unsigned : forall maxsum width height ds np v, np = false \/ ds <= 1 -> twice_mean maxsum width height ds < 2 ^ 32 ->
  0 <= v <= twice_mean maxsum width height ds -> fits (map_depth maxsum width height ds np) v.
Proof.
  intros maxsum width height ds np v Hnp Hr Hv. unfold map_depth, fits. fold (twice_mean maxsum width height ds). set (roof := twice_mean maxsum width height ds) in *.
  assert (np && (1 <? ds) = false) as -> by (destruct Hnp as [->|Hd]; [reflexivity|apply andb_false_iff; right; lia]). destruct (255 <? roof) eqn:E1; [destruct (65535 <? roof) eqn:E2|]; cbn [fst snd].
  - change (2 ^ (32 - 0)) with (2 ^ 32). lia. - change (2 ^ (16 - 0)) with 65536. lia. - change (2 ^ (8 - 0)) with 256. lia.
Qed.
Print Assumptions C54_unsigned.
Example C54_unsigned_example : twice_mean 1000000 20 10 2 = 40000 /\ map_depth 1000000 20 10 2 false = (16, false).
Proof. vm_compute. split; reflexivity. Qed.

(** The signed types chosen for Python's parser hold the mean, but not twice the mean. *)
Theorem C54_signed_mean : forall maxsum width height ds v, 1 < ds -> twice_mean maxsum width height ds < 2 ^ 64 ->
  0 <= 2 * v <= twice_mean maxsum width height ds -> fits (map_depth maxsum width height ds true) v.
Proof.
  intros maxsum width height ds v Hds Hr Hv. unfold map_depth, fits. fold (twice_mean maxsum width height ds). set (roof := twice_mean maxsum width height ds) in *.
  assert (true && (1 <? ds) = true) as -> by (cbn [andb]; lia).
  destruct (255 <? roof) eqn:E1; [destruct (65535 <? roof) eqn:E2; [destruct (4026531839 <? roof) eqn:E3|destruct (61439 <? roof) eqn:E3]|destruct (239 <? roof) eqn:E3]; cbn [fst snd].
  - change (2 ^ (64 - 1)) with 9223372036854775808. change (2 ^ 64) with 18446744073709551616 in Hr. lia.
  - change (2 ^ (32 - 1)) with 2147483648. lia.
  - change (2 ^ (32 - 1)) with 2147483648. lia.
  - change (2 ^ (16 - 1)) with 32768. lia.
  - change (2 ^ (16 - 1)) with 32768. lia.
  - change (2 ^ (8 - 1)) with 128. lia.
Qed.
Print Assumptions C54_signed_mean.
Example C54_signed_example : twice_mean 2500 10 10 2 = 200 /\ map_depth 2500 10 10 2 true = (8, true).
Proof. vm_compute. split; reflexivity. Qed.
Theorem C54_signed_refuted : exists maxsum width height ds v, 1 < ds /\ 0 <= v <= twice_mean maxsum width height ds /\ ~ fits (map_depth maxsum width height ds true) v.
Proof. exists 2500, 10, 10, 2, 200. split; [lia|]. split; [vm_compute; split; discriminate|]. vm_compute. intros [_ H]. discriminate. Qed.
Print Assumptions C54_signed_refuted.

(** A map of cells of the estimated size holds the counts when none exceeds twice the mean. *)
Theorem C54_lossless : forall maxsum ds chunk chunks width c filler lines tail, 416 <= chunk -> 0 < ds -> 0 <= c -> 0 <= width < 2 ^ 31 ->
  List.length filler = 408%nat -> zlen lines < 2 ^ 31 -> 416 <= zlen (hd [] chunks) ->
  chunks_ok false chunk chunks -> List.concat chunks = enc_map width filler lines ++ tail ->
  Forall (fun ps => zlen ps < 2 ^ 31 /\ Forall (fun p => pix_ok chunk width p /\ cy_ok p) ps) lines ->
  let h := cdiv (zlen lines) ds in let w := cdiv width ds in
  let roof := twice_mean maxsum width (zlen lines) ds in
  roof < 2 ^ 32 ->
  (forall y x e, 0 <= y < h -> 0 <= x < w -> 0 <= e < c -> 0 <= map_sum ds 0 lines y x e <= roof) ->
  exists arr, cy_parse h w c (fst (map_depth maxsum width (zlen lines) ds false)) ds chunk chunks = Ok arr /\
    forall y x e, 0 <= y < h -> 0 <= x < w -> 0 <= e < c ->
      nth (Z.to_nat ((y * w + x) * c + e)) arr 0 = map_sum ds 0 lines y x e.
Proof.
  intros maxsum ds chunk chunks width c filler lines tail Hc Hds Hch Hwd Hf Hl Hb Hk E Hok h w roof Hr Hcell.
  destruct (C53_compiled (fst (map_depth maxsum width (zlen lines) ds false)) ds chunk chunks width c filler lines tail Hc Hds Hch Hwd Hf Hl Hb Hk E Hok) as [arr [Ea [La Na]]].
  exists arr. split; [exact Ea|]. intros y x e Hy Hx He. unfold w. rewrite Na by assumption. apply Z.mod_small.
  pose proof (C54_unsigned maxsum width (zlen lines) ds false _ (or_introl eq_refl) Hr (Hcell y x e Hy Hx He)) as F. unfold fits in F.
  assert (snd (map_depth maxsum width (zlen lines) ds false) = false) as Es.
  { unfold map_depth. cbn [andb]. destruct (255 <? _); [destruct (65535 <? _)|]; reflexivity. }
  rewrite Es, Z.sub_0_r in F. exact F.
Qed.
Print Assumptions C54_lossless.
Example C54_lossless_example : forall y x e, 0 <= y < 2 -> 0 <= x < 2 -> 0 <= e < 4 -> 0 <= map_sum 2 0 ex_lines y x e <= twice_mean 150000 3 4 2 /\ twice_mean 150000 3 4 2 = 100000.
Proof.
  intros y x e Hy Hx He. assert (y = 0 \/ y = 1) as Y by lia. assert (x = 0 \/ x = 1) as X by lia. assert (e = 0 \/ e = 1 \/ e = 2 \/ e = 3) as Z by lia.
  split; [|reflexivity]. destruct Y as [->| ->], X as [->| ->], Z as [->|[->|[->| ->]]]; vm_compute; split; discriminate.
Qed.

(** "so that no data would be truncated" (line 771): 300 counts in one of four pixels, kept in 8 bits. *)
Theorem C54_refuted : exists chunks maxsum, chunks = (let b := enc_map 4 ex_filler [[mkPix 0 5 0 0 0 (P16 (repeat 2 300))]] in [firstn 700 b; skipn 700 b]) /\
  maxsum = map_sum 4 0 [[mkPix 0 5 0 0 0 (P16 (repeat 2 300))]] 0 0 2 /\ maxsum = 300 /\
  cy_parse 1 4 4 (fst (map_depth maxsum 4 1 1 false)) 1 700 chunks = Ok ([0; 0; 44; 0] ++ repeat 0 12).
Proof. eexists _, _. split; [reflexivity|]. split; [reflexivity|]. split; vm_compute; reflexivity. Qed.
Print Assumptions C54_refuted.
