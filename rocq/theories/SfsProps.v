(** Claims C32, C33, C34, C51: the bytes of a file in an SFS container. *)
From Verif Require Import Base Text Bytes Utf8 HierModel SfsModel.

(** * Specification *)

(** [l] lies at position [pos] of the container. *)
Definition bytes_at (f : list Z) (pos : Z) (l : list Z) : Prop :=
  0 <= pos /\ slice (Z.to_nat pos) (List.length l) f = l.

(** The content [c], cut into pieces of [u] bytes, lies at the positions [ps]. *)
Definition stored (f : list Z) (u : Z) (ps : list Z) (c : list Z) : Prop :=
  (zlen ps - 1) * u < zlen c <= zlen ps * u /\
  forall k p, nth_error ps k = Some p -> bytes_at f p (slice (k * Z.to_nat u) (Z.to_nat u) c).

(** [data] lies in chunks of which each holds [per] bytes and the number of the next one. *)
Inductive chained (f : list Z) (cs per : Z) : Z -> list Z -> Prop :=
| ch_last : forall addr l, 0 <= addr -> zlen l <= per -> bytes_at f (cs * addr + 312) l ->
    chained f cs per addr l
| ch_next : forall addr next l r, 0 <= addr -> zlen l = per -> r <> [] ->
    bytes_at f (cs * addr + 280) (le 4 next) -> 0 <= next < 2 ^ 32 ->
    bytes_at f (cs * addr + 312) l -> chained f cs per next r ->
    chained f cs per addr (l ++ r).

(** * Lists *)

Lemma firstz_firstn : forall A (l : list A) z, firstz z l = firstn (Z.to_nat z) l.
Proof.
  induction l as [|x l IH]; intro z; cbn [firstz].
  - rewrite firstn_nil. reflexivity.
  - destruct (z <=? 0) eqn:E.
    + replace (Z.to_nat z) with O by lia. reflexivity.
    + replace (Z.to_nat z) with (S (Z.to_nat (z - 1))) by lia. cbn [firstn]. rewrite IH. reflexivity.
Qed.
Lemma fread_slice : forall f p n, fread f p n = slice (Z.to_nat p) (Z.to_nat n) f.
Proof. intros. unfold fread, slice. rewrite firstz_firstn, skipz_skipn. reflexivity. Qed.
Lemma slice_plus : forall A a n m (l : list A), slice a (n + m) l = slice a n l ++ slice (a + n) m l.
Proof.
  intros A a n m l. unfold slice. rewrite <- (skipn_skipn A n a l).
  revert n m. generalize (skipn a l) as k. intro k. induction k as [|x k IH]; intros n m.
  - rewrite !firstn_nil, skipn_nil, firstn_nil. reflexivity.
  - destruct n as [|n]; [reflexivity|]. cbn. rewrite IH. reflexivity.
Qed.
Lemma slice_slice : forall A a n b m (l : list A), (b + m <= n)%nat -> slice b m (slice a n l) = slice (a + b) m l.
Proof.
  intros A a n b m l H. unfold slice. rewrite skipn_firstn_comm, firstn_firstn, skipn_skipn.
  f_equal. lia.
Qed.
Lemma slice_0_all : forall A n (l : list A), (List.length l <= n)%nat -> slice 0 n l = l.
Proof. intros. unfold slice. cbn. apply firstn_all2. assumption. Qed.
Lemma slice_len_le : forall A i n (l : list A), (List.length (slice i n l) <= n)%nat.
Proof. intros. unfold slice. apply firstn_le_length. Qed.
Lemma slice_length_min : forall A i n (l : list A), List.length (slice i n l) = Nat.min n (List.length l - i).
Proof. intros. unfold slice. rewrite firstn_length, skipn_length. reflexivity. Qed.

(** Part of something that lies at a position. *)
Lemma at_sub : forall f p l o n, bytes_at f p l -> (o + n <= List.length l)%nat ->
  slice (Z.to_nat p + o) n f = slice o n l.
Proof.
  intros f p l o n [Hp H] Hn. rewrite <- H at 1. rewrite slice_slice; [reflexivity|exact Hn].
Qed.

Lemma u32_at : forall f p x, bytes_at f p (le 4 x) -> 0 <= x < 2 ^ 32 -> u32 f p = Ok x.
Proof.
  intros f p x [Hp H] Hx. unfold u32. replace (p <? 0) with false by lia. rewrite fread_slice.
  rewrite le_length in H. change (Z.to_nat 4) with 4%nat. rewrite H. unfold zlen. rewrite le_length. cbn [Z.of_nat].
  change (Z.of_nat 4 =? 4) with true. cbn [Pos.of_succ_nat].
  rewrite le_val_small; [reflexivity|exact Hx].
Qed.

(** * C32 *)
Section Piece.
Variables (f : list Z) (u : Z) (ps c : list Z).
Hypothesis (Hu : 0 < u).
Hypothesis (Hs : stored f u ps c).

Lemma piece_len : forall k, (k < List.length ps)%nat ->
  (List.length (slice (k * Z.to_nat u) (Z.to_nat u) c) = Nat.min (Z.to_nat u) (List.length c - k * Z.to_nat u))%nat.
Proof. intros. apply slice_length_min. Qed.

Lemma ptr_ok : forall i, 0 <= i < zlen ps -> exists p, ptr_at ps i = Ok p /\ nth_error ps (Z.to_nat i) = Some p.
Proof.
  intros i Hi. unfold ptr_at. replace (i <? 0) with false by lia.
  destruct (nth_error ps (Z.to_nat i)) as [p|] eqn:E; [exists p; split; reflexivity|].
  apply nth_error_None in E. unfold zlen in Hi. lia.
Qed.

(** A read inside one chunk. *)
Lemma read_chunk : forall i p o n, 0 <= i -> nth_error ps (Z.to_nat i) = Some p -> 0 <= o -> 0 <= n -> o + n <= u ->
  i * u + o + n <= zlen c ->
  fread f (p + o) n = slice (Z.to_nat (i * u + o)) (Z.to_nat n) c.
Proof.
  intros i p o n Hi Hp Ho Hn Hon Hc. destruct Hs as [Hsz Hat]. pose proof (Hat _ _ Hp) as B. pose proof B as [B0 _].
  rewrite fread_slice. replace (Z.to_nat (p + o)) with (Z.to_nat p + Z.to_nat o)%nat by lia.
  assert (Eiu : (Z.to_nat i * Z.to_nat u)%nat = Z.to_nat (i * u)) by (rewrite Z2Nat.inj_mul by lia; reflexivity).
  assert (Hle : 0 <= i * u) by (apply Z.mul_nonneg_nonneg; lia).
  rewrite (at_sub _ _ _ _ _ B).
  - rewrite slice_slice by lia. rewrite Eiu. f_equal. clear - Hle Ho. lia.
  - rewrite slice_length_min, Eiu. unfold zlen in Hc. clear - Hc Hon Ho Hn Hle. lia.
Qed.

Lemma read_mid : forall n a, 0 <= a -> (a + Z.of_nat n) * u <= zlen c ->
  flat_map (fun q => fread f q u) (slice (Z.to_nat a) n ps) = slice (Z.to_nat (a * u)) (n * Z.to_nat u) c.
Proof.
  induction n as [|n IH]; intros a Ha Hc; [reflexivity|].
  destruct Hs as [Hsz Hat]. assert (Hlt : a < zlen ps).
  { assert (a * u < zlen ps * u) by (clear - Hc Hsz Hu; nia). clear - H Hu. nia. }
  destruct (ptr_ok a) as [p [_ Hp]]; [lia|].
  replace (S n) with (1 + n)%nat by lia. rewrite slice_plus, flat_map_app.
  replace (slice (Z.to_nat a) 1 ps) with [p].
  2:{ unfold slice. clear - Hp. revert ps Hp. induction (Z.to_nat a) as [|k IH]; intros [|x l] H; cbn in *; try discriminate.
      - injection H as ->. reflexivity. - apply IH. exact H. }
  cbn [flat_map]. rewrite app_nil_r. replace (Z.to_nat a + 1)%nat with (Z.to_nat (a + 1)) by lia.
  rewrite IH by (clear - Ha Hc; nia).
  replace ((1 + n) * Z.to_nat u)%nat with (Z.to_nat u + n * Z.to_nat u)%nat by lia. rewrite slice_plus.
  replace (p) with (p + 0) by lia. rewrite (read_chunk a p 0 u) by (try assumption; try lia; clear - Hc Hu; nia).
  f_equal; f_equal; try lia; clear - Ha Hu; rewrite <- Z2Nat.inj_add by nia; f_equal; lia.
Qed.

Lemma piece : forall off len, 0 <= off < zlen c -> 0 <= len -> off + len <= zlen c ->
  read_piece f u ps off len = Ok (slice (Z.to_nat off) (Z.to_nat len) c).
Proof.
  intros off len Ho Hl Hc. unfold read_piece. pose proof Hs as [Hsz Hat].
  pose proof (Z.div_mod off u ltac:(lia)) as E1. pose proof (Z.mod_pos_bound off u Hu) as B1.
  pose proof (Z.div_mod (off + len) u ltac:(lia)) as E2. pose proof (Z.mod_pos_bound (off + len) u Hu) as B2.
  set (fb := off / u) in *. set (fbo := off mod u) in *.
  set (lb := (off + len) / u) in *. set (lbco := (off + len) mod u) in *. clearbody fb fbo lb lbco.
  assert (F0 : 0 <= fb) by (clear - E1 B1 Ho; nia).
  assert (F1 : fb < zlen ps).
  { assert (fb * u < zlen ps * u) by (clear - E1 B1 Ho Hsz; nia). clear - H Hu. nia. }
  assert (F2 : fb <= lb) by (clear - E1 E2 B1 B2 Hl Hu; nia).
  destruct (ptr_ok fb) as [p [-> Hp]]; [lia|]. cbn [bind].
  destruct (negb (fb =? lb)) eqn:En.
  - assert (F3 : fb + 1 <= lb) by lia.
    assert (G1 : lb * u <= zlen c) by (clear - E2 B2 Hc; nia).
    assert (G2 : (fb + 1) * u <= zlen c) by (clear - F3 G1 Hu; nia).
    rewrite (read_chunk fb p fbo (u - fbo)) by (try assumption; try lia; clear - G2; nia).
    rewrite read_mid; [|lia|].
    2:{ replace (fb + 1 + Z.of_nat (Z.to_nat (lb - (fb + 1)))) with lb by lia. exact G1. }
    assert (S : slice (Z.to_nat off) (Z.to_nat len) c =
      slice (Z.to_nat (fb * u + fbo)) (Z.to_nat (u - fbo)) c ++
      slice (Z.to_nat ((fb + 1) * u)) (Z.to_nat (lb - (fb + 1)) * Z.to_nat u) c ++
      slice (Z.to_nat (lb * u)) (Z.to_nat lbco) c).
    { assert (M : (Z.to_nat (lb - (fb + 1)) * Z.to_nat u)%nat = Z.to_nat ((lb - (fb + 1)) * u))
        by (rewrite <- Z2Nat.inj_mul by lia; reflexivity).
      assert (M0 : 0 <= (lb - (fb + 1)) * u) by (apply Z.mul_nonneg_nonneg; lia).
      assert (M1 : 0 <= fb * u) by (apply Z.mul_nonneg_nonneg; lia).
      rewrite M.
      replace (Z.to_nat len) with (Z.to_nat (u - fbo) + (Z.to_nat ((lb - (fb + 1)) * u) + Z.to_nat lbco))%nat
        by (clear - E1 E2 B1 B2 M0 Hl; lia).
      rewrite !slice_plus.
      replace (Z.to_nat off) with (Z.to_nat (fb * u + fbo)) by (clear - E1; lia).
      replace (Z.to_nat (fb * u + fbo) + Z.to_nat (u - fbo))%nat with (Z.to_nat ((fb + 1) * u)) by (clear - M1 B1; lia).
      replace (Z.to_nat ((fb + 1) * u) + Z.to_nat ((lb - (fb + 1)) * u))%nat with (Z.to_nat (lb * u))
        by (clear - M1 M0 Hu; lia).
      reflexivity. }
    rewrite S. destruct (0 <? lbco) eqn:El.
    + assert (F4 : lb < zlen ps).
      { assert (lb * u < zlen ps * u) by (clear - E2 B2 El Hc Hsz; nia). clear - H Hu. nia. }
      destruct (ptr_ok lb) as [q [-> Hq]]; [lia|]. cbn [bind].
      replace q with (q + 0) by lia. rewrite (read_chunk lb q 0 lbco) by (try assumption; try lia; clear - E2 Hc; nia).
      rewrite Z.add_0_r. reflexivity.
    + replace lbco with 0 by lia. change (slice (Z.to_nat (lb * u)) (Z.to_nat 0) c) with (@nil Z). rewrite app_nil_r. reflexivity.
  - assert (fb = lb) by lia. subst lb.
    rewrite (read_chunk fb p fbo len) by (try assumption; try lia; clear - E1 E2 B2 Hc; nia).
    f_equal. f_equal. clear - E1; lia.
Qed.

(** * C33 *)
Lemma read_at_ok : forall n a, 0 <= a -> (a + Z.of_nat n) * u <= zlen c ->
  exists l, read_at f u ps (zseq a n) = Ok l /\ List.concat l = slice (Z.to_nat (a * u)) (n * Z.to_nat u) c /\
    Forall (fun b => zlen b = u) l.
Proof.
  induction n as [|n IH]; intros a Ha Hc; [exists []; repeat split; constructor|].
  pose proof Hs as [Hsz Hat]. assert (Hlt : a < zlen ps).
  { assert (a * u < zlen ps * u) by (clear - Hc Hsz Hu; nia). clear - H Hu. nia. }
  destruct (ptr_ok a) as [p [E Hp]]; [lia|].
  destruct (IH (a + 1)) as [l [El [Cl Fl]]]; [lia|clear - Hc; nia|].
  assert (R : fread f p u = slice (Z.to_nat (a * u)) (Z.to_nat u) c).
  { replace p with (p + 0) by lia. rewrite (read_chunk a p 0 u) by (try assumption; try lia; clear - Hc Hu; nia).
    rewrite Z.add_0_r. reflexivity. }
  assert (Z0 : 0 <= a * u) by (apply Z.mul_nonneg_nonneg; lia).
  exists (fread f p u :: l). split; [|split].
  - cbn [zseq read_at]. rewrite E. cbn [bind]. rewrite El. reflexivity.
  - cbn [List.concat]. rewrite Cl, R. replace (S n * Z.to_nat u)%nat with (Z.to_nat u + n * Z.to_nat u)%nat by lia.
    rewrite slice_plus. f_equal. f_equal. clear - Ha Hu Z0. lia.
  - constructor; [|exact Fl]. rewrite R. unfold zlen. rewrite slice_length; [lia|]. unfold zlen in Hc. clear - Hc Hu Z0. nia.
Qed.
End Piece.

Lemma cdiv_spec : forall a b, 0 < b -> (cdiv a b - 1) * b < a <= cdiv a b * b.
Proof. intros a b H. unfold cdiv. nia. Qed.
Lemma cdiv_unique : forall a b n, 0 < b -> (n - 1) * b < a <= n * b -> cdiv a b = n.
Proof. intros a b n H H1. pose proof (cdiv_spec a b H). nia. Qed.

Theorem C32_read_piece : forall f u ps c off len, 0 < u -> stored f u ps c ->
  0 <= off < zlen c -> 0 <= len -> off + len <= zlen c ->
  read_piece f u ps off len = Ok (slice (Z.to_nat off) (Z.to_nat len) c).
Proof. intros. apply piece; assumption. Qed.
Print Assumptions C32_read_piece.

(** Nothing can be read at the end of a file that fills its chunks, not even nothing. *)
Theorem C32_end_refuted : exists f u ps c, 0 < u /\ stored f u ps c /\
  read_piece f u ps (zlen c) 0 = Err IndexError.
Proof.
  exists [9; 1; 2; 3; 4], 4, [1], [1; 2; 3; 4]. split; [lia|]. split; [|reflexivity].
  split; [unfold zlen; cbn; lia|]. intros k p. destruct k as [|k]; [|destruct k; discriminate].
  intro E. injection E as <-. split; [lia|reflexivity].
Qed.
Print Assumptions C32_end_refuted.

Example C32_example : let f := [5; 6; 7; 8; 0; 1; 2; 3; 4; 0; 9] in let c := [1; 2; 3; 4; 5; 6; 7; 8; 9] in
  stored f 4 [5; 0; 10] c /\ read_piece f 4 [5; 0; 10] 2 7 = Ok [3; 4; 5; 6; 7; 8; 9] /\
  read_piece f 4 [5; 0; 10] 5 2 = Ok [6; 7] /\ read_piece f 4 [5; 0; 10] 3 5 = Ok [4; 5; 6; 7; 8].
Proof.
  split; [|repeat split]. split; [unfold zlen; cbn; lia|]. intros k p E.
  destruct k as [|[|[|k]]]; cbn in E; try (injection E as <-; split; [lia|reflexivity]). destruct k; discriminate.
Qed.

Theorem C33_iter_chunks : forall f u ps c, 0 < u -> stored f u ps c -> c <> [] ->
  exists l, iter_chunks f u (zlen c) ps = Ok l /\ List.concat l = c /\ zlen l = zlen ps /\
    Forall (fun b => 0 < zlen b <= u) l.
Proof.
  intros f u ps c Hu Hs Hc. pose proof Hs as [Hsz _]. unfold iter_chunks.
  assert (E : cdiv (zlen c) u = zlen ps) by (apply cdiv_unique; assumption). rewrite E.
  assert (L : 0 < zlen c) by (destruct c; [contradiction|unfold zlen; cbn; lia]).
  assert (P : 0 < zlen ps) by nia. set (n := Z.to_nat (zlen ps - 1)).
  destruct (read_at_ok f u ps c Hu Hs n 0) as [l [El [Cl Fl]]]; [lia|unfold n; lia|]. rewrite El. cbn [bind].
  destruct (ptr_ok ps (zlen ps - 1)) as [p [-> Hp]]; [lia|]. cbn [bind].
  set (rest := zlen c - (zlen ps - 1) * u).
  assert (R : (if negb (zlen c mod u =? 0) then zlen c mod u else u) = rest).
  { unfold rest. destruct (negb (zlen c mod u =? 0)) eqn:Em.
    - symmetry. apply (Z.mod_unique_pos _ _ (zlen ps - 1)).  + assert (zlen c <> zlen ps * u). { intro H. rewrite H, Z.mod_mul in Em by lia. discriminate. } lia. + lia.
    - assert (H : zlen c mod u = 0) by lia. apply Z.mod_divide in H; [|lia]. destruct H as [q Hq].
      assert (q = zlen ps) by nia. subst q. lia. }
  assert (R0 : 0 < rest <= u) by (unfold rest; lia).
  rewrite R. eexists. split; [reflexivity|]. split; [|split].
  - rewrite concat_app, Cl. cbn [List.concat]. rewrite app_nil_r. replace p with (p + 0) by lia.
    rewrite (read_chunk f u ps c Hu Hs (zlen ps - 1) p 0 rest) by (try assumption; try lia; unfold rest; lia).
    rewrite Z.add_0_r. change (Z.to_nat (0 * u)) with 0%nat.
    replace (Z.to_nat ((zlen ps - 1) * u)) with (0 + n * Z.to_nat u)%nat by (unfold n; rewrite <- Z2Nat.inj_mul by lia; reflexivity).
    rewrite <- slice_plus. apply slice_0_all. unfold n. rewrite <- Z2Nat.inj_mul by lia. unfold rest, zlen in *. nia.
  - unfold zlen. rewrite app_length. cbn [List.length].
    assert (H : List.length l = n).
    { clear - El. revert l El. generalize 0 as a. induction n as [|n IH]; intros a l E; cbn in E; [injection E as <-; reflexivity|].
      destruct (ptr_at ps a); [|discriminate]. cbn in E. destruct (read_at f u ps (zseq (a + 1) n)) eqn:E2; [|discriminate].
      cbn in E. injection E as <-. cbn. f_equal. eapply IH. exact E2. }
    rewrite H. unfold n. unfold zlen in P |- *. lia.
  - apply Forall_app. split.
    + eapply Forall_impl; [|exact Fl]. intros b Hb. cbn beta in Hb. cbn beta. lia.
    + constructor; [|constructor]. replace p with (p + 0) by lia.
      rewrite (read_chunk f u ps c Hu Hs (zlen ps - 1) p 0 rest) by (try assumption; try lia; unfold rest; lia).
      unfold zlen. rewrite slice_length; [lia|]. unfold rest, zlen in *. nia.
Qed.
Print Assumptions C33_iter_chunks.

(** An empty file has no chunk to read. *)
Theorem C33_empty_refuted : forall f u, 0 < u -> stored f u [] [] /\ iter_chunks f u 0 [] = Err IndexError.
Proof.
  intros f u Hu. split; [split; [change (zlen (@nil Z)) with 0; lia|intros [|k] p; discriminate]|].
  unfold iter_chunks, cdiv. rewrite Z.div_0_l by lia. reflexivity.
Qed.
Print Assumptions C33_empty_refuted.

Example C33_example : iter_chunks [5; 6; 7; 8; 0; 1; 2; 3; 4; 0; 9] 4 9 [5; 0; 10] = Ok [[1; 2; 3; 4]; [5; 6; 7; 8]; [9]] /\
  iter_chunks [5; 6; 7; 8; 0; 1; 2; 3; 4; 0; 9] 4 8 [5; 0] = Ok [[1; 2; 3; 4]; [5; 6; 7; 8]].
Proof. split; reflexivity. Qed.

(** Compressed files: a header of 128 bytes, then each block with a header of 16 bytes of
    which the first four hold the size of the block. *)
Definition zblock (b : list Z * list Z) : list Z := le 4 (zlen (snd b)) ++ fst b ++ snd b.
Definition good_zblock (b : list Z * list Z) : Prop := List.length (fst b) = 12%nat /\ 0 < zlen (snd b) < 2 ^ 32.

Lemma compr_loop : forall unzip f u ps blocks outs pre post, 0 < u -> stored f u ps (pre ++ flat_map zblock blocks ++ post) ->
  Forall good_zblock blocks -> Forall2 (fun b o => unzip (snd b) = Ok o) blocks outs ->
  compr_chunks unzip (List.length blocks) f u ps (zlen pre) = Ok outs.
Proof.
  intros unzip f u ps blocks. induction blocks as [|[h d] bs IH]; intros outs pre post Hu Hs Hg Ho.
  - inversion Ho; subst. reflexivity.
  - inversion Ho as [|? o ? os E1 E2]; subst. inversion Hg as [|? ? [G1 G2] G3]; subst. cbn [fst snd] in *.
    assert (Lb : zlen (zblock (h, d)) = 16 + zlen d).
    { unfold zblock, zlen. cbn [fst snd]. rewrite !app_length, le_length, G1. lia. }
    set (c := pre ++ flat_map zblock ((h, d) :: bs) ++ post) in *.
    assert (Lc : zlen pre + 16 + zlen d <= zlen c).
    { unfold c, zlen in *. cbn [flat_map]. rewrite !app_length. lia. }
    assert (P0 : 0 <= zlen pre) by (unfold zlen; lia).
    cbn [List.length compr_chunks]. rewrite (piece f u ps c Hu Hs) by lia. cbn [bind].
    assert (S1 : slice (Z.to_nat (zlen pre)) (Z.to_nat 16) c = le 4 (zlen d) ++ h).
    { unfold c. cbn [flat_map]. unfold zblock. cbn [fst snd]. rewrite <- !app_assoc. rewrite app_assoc with (l := le 4 (zlen d)).
      apply slice_app; [unfold zlen; lia|]. rewrite app_length, le_length, G1. reflexivity. }
    rewrite S1. replace (zlen (le 4 (zlen d) ++ h)) with 16 by (unfold zlen; rewrite app_length, le_length, G1; reflexivity).
    change (negb (16 =? 16)) with false. cbv iota.
    rewrite slice_here by apply le_length. rewrite le_val_small by (cbn; lia).
    rewrite (piece f u ps c Hu Hs) by lia. cbn [bind].
    assert (S2 : slice (Z.to_nat (zlen pre + 16)) (Z.to_nat (zlen d)) c = d).
    { unfold c. cbn [flat_map]. unfold zblock. cbn [fst snd].
      replace (pre ++ ((le 4 (zlen d) ++ h ++ d) ++ flat_map (fun b : list Z * list Z => le 4 (zlen (snd b)) ++ fst b ++ snd b) bs) ++ post)
        with ((pre ++ le 4 (zlen d) ++ h) ++ d ++ flat_map (fun b : list Z * list Z => le 4 (zlen (snd b)) ++ fst b ++ snd b) bs ++ post)
        by (rewrite <- !app_assoc; reflexivity).
      apply slice_app; [|unfold zlen; lia]. rewrite !app_length, le_length, G1. unfold zlen. lia. }
    rewrite S2, E1. cbn [bind].
    replace (zlen pre + 16 + zlen d) with (zlen (pre ++ zblock (h, d))) by (unfold zlen in *; rewrite app_length; lia).
    rewrite (IH os (pre ++ zblock (h, d)) post); [reflexivity|exact Hu| |exact G3|exact E2].
    replace ((pre ++ zblock (h, d)) ++ flat_map zblock bs ++ post) with c; [exact Hs|].
    unfold c. cbn [flat_map]. rewrite <- !app_assoc. reflexivity.
Qed.

Theorem C33_compressed : forall unzip f cs it pre usize x blocks outs post,
  32 < cs -> stored f (cs - 32) (i_ptrs it) (str "AACS" ++ le 4 usize ++ x ++ le 4 (zlen blocks) ++ pre ++ flat_map zblock blocks ++ post) ->
  List.length x = 4%nat -> List.length pre = 112%nat -> 16 <= cs - 32 -> 0 <= usize < 2 ^ 32 -> zlen blocks < 2 ^ 32 ->
  Forall good_zblock blocks -> Forall2 (fun b o => unzip (snd b) = Ok o) blocks outs ->
  file_chunks unzip f cs true it = Ok (outs, usize).
Proof.
  intros unzip f cs it pre us x blocks outs post Hcs Hs Hx Hpre Hcs2 Hus Hn Hg Ho. unfold file_chunks, compression.
  set (c := str "AACS" ++ _) in *.
  assert (Lc : 128 <= zlen c).
  { unfold c, zlen. rewrite !app_length, !le_length, Hx, Hpre. change (List.length (str "AACS")) with 4%nat. lia. }
  pose proof Hs as [Hsz _]. destruct (ptr_ok (i_ptrs it) 0) as [p [-> Hp]]; [nia|]. cbn [bind].
  assert (E : fread f p 16 = str "AACS" ++ le 4 us ++ x ++ le 4 (zlen blocks)).
  { replace p with (p + 0) by lia. rewrite (read_chunk f (cs - 32) (i_ptrs it) c ltac:(lia) Hs 0 p 0 16) by (try assumption; lia).
    unfold c. rewrite !app_assoc. rewrite <- (app_assoc _ pre), <- (app_assoc _ (pre ++ _) post). apply slice_here.
    rewrite !app_length, !le_length, Hx. reflexivity. }
  rewrite E. replace (zlen _) with 16 by (unfold zlen; rewrite !app_length, !le_length, Hx; reflexivity).
  change (negb (16 =? 16)) with false. cbv iota.
  change (slice 0 4 (str "AACS" ++ le 4 us ++ x ++ le 4 (zlen blocks))) with (str "AACS").
  change (le_val (str "AACS") =? 1396916545) with true. cbv iota. cbn [bind].
  assert (S4 : slice 4 4 (str "AACS" ++ le 4 us ++ x ++ le 4 (zlen blocks)) = le 4 us)
    by (apply slice_app; [reflexivity|apply le_length]).
  rewrite S4. clear S4.
  replace (slice 12 4 (str "AACS" ++ le 4 us ++ x ++ le 4 (zlen blocks))) with (le 4 (zlen blocks)).
  2:{ symmetry. replace (str "AACS" ++ le 4 us ++ x ++ le 4 (zlen blocks)) with ((str "AACS" ++ le 4 us ++ x) ++ le 4 (zlen blocks) ++ [])
        by (rewrite app_nil_r, <- !app_assoc; reflexivity).
      apply slice_app; [rewrite !app_length, le_length, Hx; reflexivity|apply le_length]. }
  rewrite !le_val_small by (unfold zlen in *; cbn; lia).
  replace (Z.to_nat (zlen blocks)) with (List.length blocks) by (unfold zlen; lia).
  pose proof (compr_loop unzip f (cs - 32) (i_ptrs it) blocks outs (str "AACS" ++ le 4 us ++ x ++ le 4 (zlen blocks) ++ pre) post) as L.
  replace (zlen (str "AACS" ++ le 4 us ++ x ++ le 4 (zlen blocks) ++ pre)) with 128 in L
    by (unfold zlen; rewrite !app_length, !le_length, Hx, Hpre; reflexivity).
  rewrite L; [reflexivity|lia| |exact Hg|exact Ho]. unfold c in Hs. rewrite <- !app_assoc. exact Hs.
Qed.
Print Assumptions C33_compressed.

Definition sfs_demo_zip : list Z := (* header, two blocks of 3 and 2 bytes *)
  str "AACS" ++ le 4 7 ++ le 4 0 ++ le 4 2 ++ repeat 0 112 ++ le 4 3 ++ repeat 0 12 ++ [1; 2; 3] ++ le 4 2 ++ repeat 0 12 ++ [4; 5].
Example C33_compressed_example : let ps := [300; 100; 200] in
  let f := repeat 0 100 ++ slice 64 64 sfs_demo_zip ++ repeat 0 36 ++ slice 128 64 sfs_demo_zip ++ repeat 0 63 ++ slice 0 64 sfs_demo_zip in
  stored f 64 ps sfs_demo_zip /\
  file_chunks (fun l => Ok (map (Z.add 1) l)) f 96 true (mkItem 0 0 false [] ps) = Ok ([[2; 3; 4]; [5; 6]], 7).
Proof.
  split; [|reflexivity]. split; [change (zlen sfs_demo_zip) with 165; change (zlen [300; 100; 200]) with 3; lia|]. intros k p E.
  destruct k as [|[|[|k]]]; cbn in E; try (injection E as <-; split; [lia|reflexivity]). destruct k; discriminate.
Qed.

(** * Chains of chunks *)
Lemma at_next : forall f cs addr l, 0 < cs -> 0 <= addr -> l <> [] -> bytes_at f (cs * addr + 312) l ->
  exists next, u32 f (cs * addr + 280) = Ok next.
Proof.
  intros f cs addr l Hcs Ha Hl [_ H]. unfold u32.
  assert (N : 0 <= cs * addr) by (apply Z.mul_nonneg_nonneg; lia).
  replace (cs * addr + 280 <? 0) with false by lia. rewrite fread_slice.
  assert (L : (Z.to_nat (cs * addr + 312) + 1 <= List.length f)%nat).
  { assert (E : List.length (slice (Z.to_nat (cs * addr + 312)) (List.length l) f) = List.length l) by (rewrite H; reflexivity).
    rewrite slice_length_min in E. destruct l; [contradiction|]. cbn [List.length] in E. clear - E. lia. }
  assert (E : zlen (slice (Z.to_nat (cs * addr + 280)) (Z.to_nat 4) f) = 4) by (unfold zlen; rewrite slice_length; lia).
  rewrite E. eexists. reflexivity.
Qed.

Lemma fread_at : forall f p l n, bytes_at f p l -> zlen l <= n -> exists rest, fread f p n = l ++ rest.
Proof.
  intros f p l n [Hp H] Hn. rewrite fread_slice. exists (slice (Z.to_nat p + List.length l) (Z.to_nat n - List.length l) f).
  replace (Z.to_nat n) with (List.length l + (Z.to_nat n - List.length l))%nat at 1 by (unfold zlen in Hn; lia).
  rewrite slice_plus, H. reflexivity.
Qed.

Lemma chain_ok : forall f cs per addr data, 0 < cs -> 0 < per -> chained f cs per addr data -> data <> [] ->
  forall n, (Z.of_nat n - 1) * per < zlen data <= Z.of_nat n * per ->
  exists rest, chain n f cs per addr = Ok (data ++ rest).
Proof.
  intros f cs per addr data Hcs Hper Hch. induction Hch as [addr l Ha Hl Hat|addr next l r Ha Hl Hr Hn Hn32 Hat Hch IH]; intros Hne n Hlen.
  - assert (n = 1%nat).
    { assert (0 < zlen l) by (destruct l; [contradiction|unfold zlen; cbn; lia]). nia. }
    subst n. cbn [chain]. destruct (at_next f cs addr l Hcs Ha Hne Hat) as [next ->]. cbn [bind].
    destruct (fread_at _ _ _ per Hat Hl) as [rest ->]. exists rest. rewrite app_nil_r. reflexivity.
  - assert (R : 0 < zlen r) by (destruct r; [contradiction|unfold zlen; cbn; lia]).
    assert (E : zlen (l ++ r) = per + zlen r) by (unfold zlen in *; rewrite app_length; lia). rewrite E in Hlen.
    destruct n as [|n]; [lia|]. cbn [chain]. rewrite (u32_at _ _ _ Hn Hn32). cbn [bind].
    destruct (IH Hr n) as [rest ->]; [nia|]. cbn [bind]. exists rest.
    destruct Hat as [Hp Hat]. rewrite fread_slice. replace (Z.to_nat per) with (List.length l) by (unfold zlen in Hl; lia).
    rewrite Hat, app_assoc. reflexivity.
Qed.

Lemma words_le : forall ns, Forall (fun x => 0 <= x < 2 ^ 32) ns -> words (flat_map (le 4) ns) = ns.
Proof.
  induction 1 as [|x ns Hx _ IH]; [reflexivity|]. cbn [flat_map].
  transitivity (le_val (le 4 x) :: words (flat_map (le 4) ns)); [reflexivity|]. rewrite IH, le_val_small by exact Hx. reflexivity.
Qed.
Lemma le4_len : forall ns, zlen (flat_map (le 4) ns) = 4 * zlen ns.
Proof.
  intro ns. induction ns as [|x ns IH]; [reflexivity|]. unfold zlen in *. cbn [flat_map]. rewrite app_length, le_length. cbn [List.length]. lia.
Qed.

(** * C51 *)
Theorem C51_pointer_table : forall f cs ptr size ns, 36 <= cs -> cs mod 4 = 0 -> 0 <= size ->
  zlen ns = (size + (cs - 33)) / (cs - 32) -> Forall (fun x => 0 <= x < 2 ^ 32) ns ->
  chained f cs (cs - 32) ptr (flat_map (le 4) ns) ->
  pointer_table f cs ptr size = Ok (map (fun k => k * cs + 312) ns).
Proof.
  intros f cs ptr size ns Hcs Hmod Hsize Hlen Hns Hch. unfold pointer_table. cbv zeta.
  replace (cs - 32 <=? 3) with false by lia.
  assert (U4 : (cs - 32) = 4 * ((cs - 32) / 4)) by (clear - Hmod; lia).
  set (w := (cs - 32) / 4) in *. assert (W : 0 < w) by lia. clearbody w.
  assert (N : cdiv size (cs - 32) = zlen ns).
  { rewrite Hlen. apply cdiv_unique; [lia|]. clear - Hcs Hsize.
    assert (0 < cs - 32) by lia. set (u := cs - 32) in *. replace (cs - 33) with (u - 1) by (unfold u; lia). clearbody u. nia. }
  rewrite N. pose proof (cdiv_spec (zlen ns) w W) as M. set (m := cdiv (zlen ns) w) in *. clearbody m.
  assert (T : exists rest, (if 1 <? m then chain (Z.to_nat m) f cs (cs - 32) ptr
     else if cs * ptr + 312 <? 0 then Err IOError else Ok (fread f (cs * ptr + 312) (cs - 32))) = Ok (flat_map (le 4) ns ++ rest)).
  { destruct (1 <? m) eqn:Em.
    - apply (chain_ok f cs (cs - 32) ptr); [lia|lia|exact Hch| |].
      + intro E. pose proof (le4_len ns) as L. rewrite E in L. change (zlen (@nil Z)) with 0 in L.
        assert (zlen ns = 0) by lia. nia.
      + rewrite le4_len. replace (Z.of_nat (Z.to_nat m)) with m by lia. clear - M U4. rewrite U4. nia.
    - assert (P : 0 <= ptr /\ bytes_at f (cs * ptr + 312) (flat_map (le 4) ns) /\ zlen (flat_map (le 4) ns) <= cs - 32).
      { pose proof (le4_len ns) as L4. revert Hch L4. generalize (flat_map (le 4) ns) as data. intros data Hch L4.
        inversion Hch as [a l A B C E1 E2|a nx l r A B C D E F G E1 E2]; subst.
        - split; [exact A|]. split; [exact C|exact B].
        - exfalso. assert (L : zlen (l ++ r) > cs - 32).
          { unfold zlen in *. rewrite app_length. destruct r; [contradiction|]. cbn [List.length]. lia. }
          rewrite L4 in L. clear - L M Em U4 W. nia. }
      destruct P as [P1 [P2 P3]]. assert (0 <= cs * ptr) by (apply Z.mul_nonneg_nonneg; lia).
      replace (cs * ptr + 312 <? 0) with false by lia. destruct (fread_at _ _ _ (cs - 32) P2 P3) as [rest ->]. exists rest. reflexivity. }
  destruct T as [rest ->]. cbn [bind].
  rewrite firstz_firstn. replace (Z.to_nat (zlen ns * 4)) with (List.length (flat_map (le 4) ns)).
  2:{ pose proof (le4_len ns) as L. unfold zlen in *. lia. }
  rewrite firstn_app_exact by reflexivity. rewrite le4_len. replace (4 * zlen ns mod 4 =? 0) with true by (clear; lia).
  cbn [negb]. cbv iota. rewrite words_le by exact Hns. reflexivity.
Qed.
Print Assumptions C51_pointer_table.

(** chunks of 44 bytes: three pointers per chunk, a table of five pointers in chunks 2 and 0 *)
Example C51_example : let f := repeat 0 280 ++ le 4 77 ++ repeat 0 28 ++ le 4 9 ++ le 4 4 ++ repeat 0 4 ++ repeat 7 44 ++ le 4 0 ++ repeat 0 28 ++ le 4 5 ++ le 4 6 ++ le 4 8 in
  chained f 44 12 2 (flat_map (le 4) [5; 6; 8; 9; 4]) /\
  pointer_table f 44 2 50 = Ok [44 * 5 + 312; 44 * 6 + 312; 44 * 8 + 312; 44 * 9 + 312; 44 * 4 + 312].
Proof.
  split; [|reflexivity]. change (flat_map (le 4) [5; 6; 8; 9; 4]) with (flat_map (le 4) [5; 6; 8] ++ flat_map (le 4) [9; 4]).
  apply (ch_next _ _ _ _ 0); [lia|reflexivity|discriminate|split; [lia|reflexivity]|lia|split; [lia|reflexivity]|].
  apply ch_last; [lia|cbn; lia|split; [lia|reflexivity]].
Qed.

(** * C34 *)
Lemma parse_all : forall f cs raws its, Forall2 (fun r i => parse_item f cs r = Ok i) raws its -> parse_items f cs raws = Ok its.
Proof. induction 1 as [|r i raws its H _ IH]; [reflexivity|]. cbn. rewrite H. cbn. rewrite IH. reflexivity. Qed.

Theorem C34_table : forall f cs addr entries its, 544 <= cs -> entries <> [] ->
  Forall (fun e => zlen e = 512) entries -> Forall2 (fun e i => parse_item f cs e = Ok i) entries its ->
  chained f cs ((cs - 32) / 512 * 512) addr (List.concat entries) ->
  (* as many chunks are needed as the code computes *)
  (zlen entries * 512 + (cs - 33)) / (cs - 32) = (zlen entries + ((cs - 32) / 512 - 1)) / ((cs - 32) / 512) ->
  table_items f cs addr (zlen entries) = Ok its.
Proof.
  intros f cs addr es its Hcs Hne Hes Hits Hch Hm. unfold table_items, raw_tree. replace (cs - 32 =? 0) with false by lia. cbv zeta.
  set (q := (cs - 32) / 512) in *. assert (Q : 0 < q /\ q * 512 <= cs - 32) by (unfold q; clear - Hcs; lia). clearbody q.
  assert (Ln : 0 < zlen es) by (destruct es; [contradiction|unfold zlen; cbn [List.length]; lia]).
  assert (Lc : zlen (List.concat es) = zlen es * 512).
  { unfold zlen. rewrite (concat_length_const _ 512). - lia. - eapply Forall_impl; [|exact Hes]. intros e He. cbn beta in *. unfold zlen in He. lia. }
  set (m := cdiv (zlen es * 512) (cs - 32)).
  assert (M1 : m = (zlen es + (q - 1)) / q).
  { rewrite <- Hm. apply cdiv_unique; [lia|]. clear - Hcs Ln. set (u := cs - 32) in *. assert (0 < u) by lia.
    replace (cs - 33) with (u - 1) by lia. clearbody u. nia. }
  assert (M2 : (m - 1) * q < zlen es <= m * q) by (rewrite M1; clear - Q; nia). clearbody m.
  assert (T : exists rest, (if m =? 1 then Ok (fread f (cs * addr + 312) (512 * zlen es))
     else let! t := chain (Z.to_nat m) f cs (q * 512) addr in Ok (firstz (zlen es * 512) t)) = Ok (List.concat es ++ rest)).
  { destruct (m =? 1) eqn:E1.
    - revert Hch Lc. generalize (List.concat es) as data. intros data Hch Lc.
      inversion Hch as [a l A B C D1 D2|a nx l r A B C D E F G D1 D2]; subst data.
      + destruct (fread_at _ _ _ (512 * zlen es) C) as [rest ->]; [lia|]. exists rest. reflexivity.
      + exfalso. assert (zlen (l ++ r) > q * 512).
        { unfold zlen in *. rewrite app_length. destruct r; [contradiction|]. cbn [List.length]. lia. }
        clear - H Lc M2 E1. nia.
    - destruct (chain_ok f cs (q * 512) addr (List.concat es)) with (n := Z.to_nat m) as [rest ->]; [lia|lia|exact Hch| | |].
      + intro E. rewrite E in Lc. change (zlen (@nil Z)) with 0 in Lc. lia.
      + rewrite Lc. replace (Z.of_nat (Z.to_nat m)) with m by (clear - M2 Q Ln; nia). clear - M2 Q; nia.
      + cbn [bind]. rewrite firstz_firstn. exists []. rewrite app_nil_r. f_equal. apply firstn_app_exact. unfold zlen in *. lia. }
  destruct T as [rest ->]. cbn [bind]. replace (Z.to_nat (zlen es)) with (List.length es) by (unfold zlen; lia).
  rewrite records_concat.
  - apply parse_all. exact Hits.
  - eapply Forall_impl; [|exact Hes]. intros e He. cbn beta in *. unfold zlen in He. lia.
Qed.
Print Assumptions C34_table.

Lemma chain_len : forall n f cs per addr l, 0 <= per -> chain n f cs per addr = Ok l -> zlen l <= Z.of_nat n * per.
Proof.
  induction n as [|n IH]; intros f cs per addr l Hp H; cbn [chain] in H; [injection H as <-; unfold zlen; cbn; lia|].
  destruct (u32 f (cs * addr + 280)) as [next|]; [|discriminate]. cbn [bind] in H.
  destruct (chain n f cs per next) as [r|] eqn:E; [|discriminate]. cbn [bind] in H.
  assert (l = fread f (cs * addr + 312) per ++ r) as -> by congruence. apply IH in E; [|exact Hp]. unfold zlen in *.
  rewrite app_length, fread_slice. pose proof (slice_len_le _ (Z.to_nat (cs * addr + 312)) (Z.to_nat per) f). nia.
Qed.

(** Whatever the container holds: with too few chunks the table is never read. *)
Theorem C34_short_refuted : forall f cs addr n its, 544 <= cs -> 0 <= n ->
  (n * 512 + (cs - 33)) / (cs - 32) <> 1 ->
  (n * 512 + (cs - 33)) / (cs - 32) * ((cs - 32) / 512) < n ->
  table_items f cs addr n <> Ok its.
Proof.
  intros f cs addr n its Hcs Hn Hm1 Hm H. unfold table_items, raw_tree in H. replace (cs - 32 =? 0) with false in H by lia. cbv zeta in H.
  assert (E : cdiv (n * 512) (cs - 32) = (n * 512 + (cs - 33)) / (cs - 32)).
  { apply cdiv_unique; [lia|]. clear - Hcs Hn. set (u := cs - 32) in *. assert (0 < u) by lia. replace (cs - 33) with (u - 1) by lia. clearbody u. nia. }
  rewrite E in H. set (m := (n * 512 + (cs - 33)) / (cs - 32)) in *.
  assert (M0 : 0 <= m) by (unfold m; apply Z.div_pos; lia). clearbody m.
  replace (m =? 1) with false in H by lia. set (q := (cs - 32) / 512) in *. assert (0 < q) by (unfold q; clear - Hcs; lia). clearbody q.
  destruct (chain (Z.to_nat m) f cs (q * 512) addr) as [t|] eqn:Et; [|discriminate]. cbn [bind] in H.
  apply chain_len in Et; [|lia]. replace (Z.of_nat (Z.to_nat m)) with m in Et by lia. rewrite firstz_firstn in H.
  assert (L : (List.length (firstn (Z.to_nat (n * 512)) t) < Z.to_nat n * 512)%nat).
  { rewrite firstn_length. unfold zlen in Et. clear - Et Hm Hn M0 H0. nia. }
  set (raw := firstn _ t) in *. clearbody raw.
  assert (B : forall k its, (List.length raw < k * 512)%nat -> parse_items f cs (records k 512 raw) <> Ok its).
  { clear. intros k its L. intro H. assert (F : Forall (fun r => List.length r = 512%nat) (records k 512 raw)).
    { revert its H. generalize (records k 512 raw). induction l as [|r rs IH]; intros its H; [constructor|]. cbn [parse_items] in H.
      destruct (parse_item f cs r) as [i|] eqn:E; [|discriminate]. cbn [bind] in H.
      destruct (parse_items f cs rs) as [is|] eqn:E2; [|discriminate]. constructor; [|eapply IH; reflexivity].
      unfold parse_item in E. destruct (negb (zlen r =? 512)) eqn:E3; [discriminate|]. unfold zlen in E3. lia. }
    assert (K : (0 < k)%nat) by lia. pose proof (nth_records _ k 512 raw (k - 1) ltac:(lia)) as N.
    apply nth_error_In in N. rewrite Forall_forall in F. apply F in N. rewrite slice_length_min in N. lia. }
  exact (B _ _ L H).
Qed.
Print Assumptions C34_short_refuted.

(** The usual chunks of 4096 bytes hold seven entries: a table of 15 entries needs three, the code reads two. *)
Definition sfs_entry (parent : Z) (dir : bool) (size ptr : Z) (name : pystr) : list Z :=
  le 4 ptr ++ le 8 size ++ repeat 0 28 ++ le 4 parent ++ repeat 0 176 ++ [if dir then 1 else 0; 0; 0; 0] ++ name ++ repeat 0 (256 - List.length name) ++ repeat 0 32.
Definition sfs_15 : list (list Z) := map (fun i => sfs_entry (-1) true 0 0 (str "dir" ++ [97 + i])) (zseq 0 15).
Definition sfs_chunked (es : list (list Z)) : list Z :=
  repeat 0 280 ++ le 4 1 ++ repeat 0 28 ++ List.concat (slice 0 7 es) ++ repeat 0 (4064 - 3584) ++
  le 4 2 ++ repeat 0 28 ++ List.concat (slice 7 7 es) ++ repeat 0 (4064 - 3584) ++
  le 4 0 ++ repeat 0 28 ++ List.concat (slice 14 7 es).
Theorem C34_refuted : exists f entries its, Forall2 (fun e i => parse_item f 4096 e = Ok i) entries its /\
  chained f 4096 ((4096 - 32) / 512 * 512) 0 (List.concat entries) /\ zlen entries = 15 /\
  table_items f 4096 0 15 = Err StructError.
Proof.
  exists (sfs_chunked sfs_15), sfs_15, (map (fun i => mkItem 0 (-1) true (str "dir" ++ [97 + i]) []) (zseq 0 15)).
  split; [|split; [|split]].
  - repeat constructor.
  - change (List.concat sfs_15) with (List.concat (slice 0 7 sfs_15) ++ List.concat (slice 7 7 sfs_15) ++ List.concat (slice 14 7 sfs_15)).
    apply (ch_next _ _ _ _ 1); [lia|reflexivity|discriminate|split; [lia|reflexivity]|lia|split; [lia|vm_compute; reflexivity]|].
    apply (ch_next _ _ _ _ 2); [lia|reflexivity|discriminate|split; [lia|vm_compute; reflexivity]|lia|split; [lia|vm_compute; reflexivity]|].
    apply ch_last; [lia|vm_compute; discriminate|split; [lia|vm_compute; reflexivity]].
  - reflexivity.
  - vm_compute. reflexivity.
Qed.
Print Assumptions C34_refuted.

(** 16 entries need three chunks and get three. *)
Definition sfs_16 : list (list Z) := map (fun i => sfs_entry (-1) true 0 0 (str "dir" ++ [97 + i])) (zseq 0 16).
Example C34_example : table_items (sfs_chunked sfs_16) 4096 0 16 =
    Ok (map (fun i => mkItem 0 (-1) true (str "dir" ++ [97 + i]) []) (zseq 0 16)) /\
  (16 * 512 + (4096 - 33)) / (4096 - 32) = (16 + ((4096 - 32) / 512 - 1)) / ((4096 - 32) / 512).
Proof. split; vm_compute; reflexivity. Qed.
