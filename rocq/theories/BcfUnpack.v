(** Claims C30 and C31: packed pulses and packed spectra of Bruker maps. *)
From Verif Require Import Base Bytes SfsModel SfsProps BcfModel.

(** * Specification *)

(** Four pulses of 12 bits in six bytes. *)
Definition enc12_4 (p0 p1 p2 p3 : Z) : list Z :=
  [(p0 mod 16) * 16 + p1 / 256; p0 / 16; p2 / 16; p1 mod 256; p3 mod 256; (p2 mod 16) * 16 + p3 / 256].
Fixpoint enc12 (ps : list Z) : list Z :=
  match ps with
  | [] => []
  | [p0] => enc12_4 p0 0 0 0
  | [p0; p1] => enc12_4 p0 p1 0 0
  | [p0; p1; p2] => enc12_4 p0 p1 p2 0
  | p0 :: p1 :: p2 :: p3 :: ps' => enc12_4 p0 p1 p2 p3 ++ enc12 ps'
  end.

(** Groups of channels: empty ones, or a common gain and a value for each channel, of
    4, 8, 16 or 32 bits. *)
Inductive group := GZero (n : Z) | GNib (gain : Z) (vs : list Z) | G8 (gain : Z) (vs : list Z) | G16 (gain : Z) (vs : list Z) | G32 (gain : Z) (vs : list Z).
Fixpoint enc_nibbles (vs : list Z) : list Z :=
  match vs with [] => [] | [a] => [a] | a :: b :: vs' => (a + 16 * b) :: enc_nibbles vs' end.
Definition enc_group (g : group) : list Z :=
  match g with
  | GZero n => [0; n]
  | GNib gain vs => [1; zlen vs; gain] ++ enc_nibbles vs
  | G8 gain vs => [2; zlen vs] ++ le 2 gain ++ vs
  | G16 gain vs => [4; zlen vs] ++ le 4 gain ++ flat_map (le 2) vs
  | G32 gain vs => [8; zlen vs] ++ le 8 gain ++ flat_map (le 4) vs
  end.
Definition below (m : Z) (vs : list Z) : Prop := Forall (fun v => 0 <= v < m) vs.
Definition group_ok (g : group) : Prop :=
  match g with
  | GZero n => 0 <= n < 256
  | GNib gain vs => 0 <= gain < 256 /\ below 16 vs /\ zlen vs < 256
  | G8 gain vs => 0 <= gain < 65536 /\ below 256 vs /\ zlen vs < 256
  | G16 gain vs => 0 <= gain < 2 ^ 32 /\ below 65536 vs /\ zlen vs < 256
  | G32 gain vs => 0 <= gain < 2 ^ 64 /\ below (2 ^ 32) vs /\ zlen vs < 256
  end.
Definition no_g32 (g : group) : Prop := match g with G32 _ _ => False | _ => True end.
Definition group_counts (g : group) : list Z :=
  match g with
  | GZero n => repeat 0 (Z.to_nat n)
  | GNib gain vs | G8 gain vs | G16 gain vs | G32 gain vs => map (fun v => v + gain) vs
  end.

(** * C30 *)
Fixpoint spec12 (l : list Z) : list Z :=
  match l with
  | b0 :: b1 :: b2 :: b3 :: b4 :: b5 :: l' =>
      [16 * b1 + b0 / 16; (256 * b0 + b3) mod 4096; 16 * b2 + b5 / 16; (256 * b5 + b4) mod 4096] ++ spec12 l'
  | [b0; b1; b2; b3] => [16 * b1 + b0 / 16; (256 * b0 + b3) mod 4096]
  | [b0; b1] => [16 * b1 + b0 / 16]
  | _ => []
  end.

Lemma six_ind : forall (P : list Z -> Prop), P [] -> (forall a, P [a]) -> (forall a b, P [a; b]) -> (forall a b c, P [a; b; c]) ->
  (forall a b c d, P [a; b; c; d]) -> (forall a b c d e, P [a; b; c; d; e]) ->
  (forall a b c d e f l, P l -> P (a :: b :: c :: d :: e :: f :: l)) -> forall l, P l.
Proof.
  intros P H0 H1 H2 H3 H4 H5 H6. fix IH 1. intros [|a [|b [|c [|d [|e [|f l]]]]]].
  - exact H0. - apply H1. - apply H2. - apply H3. - apply H4. - apply H5. - apply H6, IH.
Qed.

Lemma masked_shift : forall l i, masked (i + 6) l = masked i l.
Proof.
  induction l as [|x l IH]; intro i; [reflexivity|]. cbn [masked]. replace ((i + 6) mod 6) with (i mod 6) by (clear; lia).
  replace (i + 6 + 1) with (i + 1 + 6) by lia. rewrite IH. reflexivity.
Qed.

Lemma even12 : forall a b, 0 <= a < 256 -> 0 <= b < 256 -> Z.land (Z.shiftr (256 * a + b) 4) 4095 = 16 * a + b / 16.
Proof.
  intros a b Ha Hb. change 4095 with (Z.ones 12). rewrite Z.land_ones, Z.shiftr_div_pow2 by lia. change (2 ^ 4) with 16. change (2 ^ 12) with 4096. lia.
Qed.
Lemma odd12 : forall x, Z.land x 4095 = x mod 4096.
Proof. intro x. change 4095 with (Z.ones 12). rewrite Z.land_ones by lia. reflexivity. Qed.

Lemma py12_spec : forall l, bytes l -> zlen l mod 2 = 0 ->
  shift_even true (halves true (masked 0 (repeat2 (swap2 l)))) = spec12 l /\
  2 * zlen (spec12 l) <= zlen (masked 0 (repeat2 (swap2 l))) < 2 * zlen (spec12 l) + 2.
Proof.
  induction l as [| | | | | |a b c d e f l IH] using six_ind; intros Hb Hl; try (exfalso; vm_compute in Hl; discriminate).
  - split; [reflexivity|cbn; lia].
  - inversion Hb as [|? ? A Hb1]; subst; inversion Hb1 as [|? ? B Hb2]; subst. unfold is_byte in *. cbn [swap2 repeat2 flat_map app].
    change (masked 0 [b; b; a; a]) with [b; a; a]. cbn [halves shift_even spec12]. rewrite even12 by assumption. split; [reflexivity|cbn; lia].
  - inversion Hb as [|? ? A Hb1]; subst; inversion Hb1 as [|? ? B Hb2]; subst. inversion Hb2 as [|? ? C Hb3]; subst; inversion Hb3 as [|? ? D Hb4]; subst.
    unfold is_byte in *. cbn [swap2 repeat2 flat_map app].
    change (masked 0 [b; b; a; a; d; d; c; c]) with [b; a; a; d; c]. cbn [halves shift_even spec12 negb]. rewrite even12, odd12 by assumption. split; [reflexivity|cbn; lia].
  - inversion Hb as [|? ? A Hb1]; subst; inversion Hb1 as [|? ? B Hb2]; subst. inversion Hb2 as [|? ? C Hb3]; subst; inversion Hb3 as [|? ? D Hb4]; subst.
    inversion Hb4 as [|? ? E Hb5]; subst; inversion Hb5 as [|? ? F Hb6]; subst. unfold is_byte in *.
    destruct IH as [IH1 IH2]; [exact Hb6|unfold zlen in *; cbn [List.length] in Hl; lia|].
    assert (M : masked 0 (repeat2 (swap2 (a :: b :: c :: d :: e :: f :: l))) = [b; a; a; d; c; f; f; e] ++ masked 0 (repeat2 (swap2 l))).
    { cbn [swap2]. unfold repeat2. cbn [flat_map app].
      transitivity (b :: a :: a :: d :: c :: f :: f :: e :: masked 12 (flat_map (fun x => [x; x]) (swap2 l))); [reflexivity|].
      change 12 with (6 + 6). rewrite masked_shift. change 6 with (0 + 6). rewrite masked_shift. reflexivity. }
    rewrite M. cbn [app halves shift_even spec12 negb]. rewrite !even12, !odd12, IH1 by assumption. split; [reflexivity|].
    unfold zlen in *. cbn [List.length]. lia.
Qed.

Lemma spec12_length : forall l, zlen l mod 2 = 0 -> zlen (spec12 l) = 4 * (zlen l / 6) + zlen l mod 6 / 2.
Proof.
  induction l as [| | | | | |a b c d e f l IH] using six_ind; intro Hl; try (exfalso; vm_compute in Hl; discriminate); try reflexivity.
  cbn [spec12]. unfold zlen in *. rewrite app_length. cbn [List.length] in *. rewrite Nat2Z.inj_add, IH by lia. lia.
Qed.

Lemma byte_shift : forall a b c d e f l i, 0 <= i -> byte (a :: b :: c :: d :: e :: f :: l) (i + 6) = byte l i.
Proof.
  intros. unfold byte. replace (i + 6 <? 0) with false by lia. replace (i <? 0) with false by lia.
  replace (Z.to_nat (i + 6)) with (S (S (S (S (S (S (Z.to_nat i))))))) by lia. reflexivity.
Qed.

Lemma cy12_spec : forall l i, bytes l -> (i < List.length (spec12 l))%nat -> cy12_at l (Z.of_nat i) = Ok (nth i (spec12 l) 0).
Proof.
  induction l as [| | | | | |a b c d e f l IH] using six_ind; intros i Hb Hi; try (cbn in Hi; lia).
  - inversion Hb as [|? ? A Hb1]; subst; inversion Hb1 as [|? ? B Hb2]; subst. unfold is_byte in *. cbn in Hi. replace i with 0%nat by lia.
    change (cy12_at [a; b] (Z.of_nat 0)) with (@Ok Z (Z.shiftr a 4 + Z.shiftl b 4)). cbn [spec12 nth]. rewrite Z.shiftr_div_pow2, Z.shiftl_mul_pow2 by lia. f_equal. lia.
  - inversion Hb as [|? ? A Hb1]; subst; inversion Hb1 as [|? ? B Hb2]; subst. unfold is_byte in *. cbn in Hi.
    destruct i as [|[|i]]; [| |lia].
    + change (cy12_at [a; b; c; d] (Z.of_nat 0)) with (@Ok Z (Z.shiftr a 4 + Z.shiftl b 4)). cbn [spec12 nth]. rewrite Z.shiftr_div_pow2, Z.shiftl_mul_pow2 by lia. f_equal. lia.
    + change (cy12_at [a; b; c; d] (Z.of_nat 1)) with (@Ok Z (Z.land (Z.shiftl a 8 + d) 4095)). rewrite odd12, Z.shiftl_mul_pow2 by lia. cbn [spec12 nth]. f_equal. f_equal. lia.
  - inversion Hb as [|? ? A Hb1]; subst; inversion Hb1 as [|? ? B Hb2]; subst. inversion Hb2 as [|? ? C Hb3]; subst; inversion Hb3 as [|? ? D Hb4]; subst.
    inversion Hb4 as [|? ? E Hb5]; subst; inversion Hb5 as [|? ? F Hb6]; subst. unfold is_byte in *.
    set (s := a :: b :: c :: d :: e :: f :: l) in *.
    destruct i as [|[|[|[|i]]]].
    + change (cy12_at s (Z.of_nat 0)) with (@Ok Z (Z.shiftr a 4 + Z.shiftl b 4)). cbn [s spec12 nth app]. rewrite Z.shiftr_div_pow2, Z.shiftl_mul_pow2 by lia. f_equal. lia.
    + change (cy12_at s (Z.of_nat 1)) with (@Ok Z (Z.land (Z.shiftl a 8 + d) 4095)). rewrite odd12, Z.shiftl_mul_pow2 by lia. cbn [s spec12 nth app]. f_equal. f_equal. lia.
    + change (cy12_at s (Z.of_nat 2)) with (@Ok Z (Z.shiftl c 4 + Z.shiftr f 4)). cbn [s spec12 nth app]. rewrite Z.shiftr_div_pow2, Z.shiftl_mul_pow2 by lia. f_equal. lia.
    + change (cy12_at s (Z.of_nat 3)) with (@Ok Z (Z.land (Z.shiftl f 8 + e) 4095)). rewrite odd12, Z.shiftl_mul_pow2 by lia. cbn [s spec12 nth app]. f_equal. f_equal. lia.
    + unfold s. change (nth (S (S (S (S i)))) (spec12 (a :: b :: c :: d :: e :: f :: l)) 0) with (nth i (spec12 l) 0). rewrite <- IH; [|exact Hb6|cbn in Hi; lia].
      unfold cy12_at. replace (Z.of_nat (S (S (S (S i)))) mod 4) with (Z.of_nat i mod 4) by lia.
      replace (6 * (Z.of_nat (S (S (S (S i)))) / 4)) with (6 * (Z.of_nat i / 4) + 6) by lia.
      assert (G : 0 <= 6 * (Z.of_nat i / 4)) by lia. set (g := 6 * (Z.of_nat i / 4)) in *. clearbody g.
      replace (g + 6 + 1) with (g + 1 + 6) by lia. replace (g + 6 + 2) with (g + 2 + 6) by lia. replace (g + 6 + 3) with (g + 3 + 6) by lia.
      replace (g + 6 + 4) with (g + 4 + 6) by lia. replace (g + 6 + 5) with (g + 5 + 6) by lia.
      rewrite !byte_shift by lia. reflexivity.
Qed.

Lemma mapM_nth : forall (g : Z -> res Z) v n k, (forall i, (i < n)%nat -> g (Z.of_nat (k + i)) = Ok (nth (k + i) v 0)) -> (k + n <= List.length v)%nat ->
  mapM g (zseq (Z.of_nat k) n) = Ok (slice k n v).
Proof.
  induction n as [|n IH]; intros k H L; [reflexivity|]. cbn [zseq mapM].
  pose proof (H 0%nat ltac:(lia)) as H0. rewrite Nat.add_0_r in H0. rewrite H0. cbn [bind].
  replace (Z.of_nat k + 1) with (Z.of_nat (S k)) by lia. rewrite IH; [|intros i Hi; replace (S k + i)%nat with (k + S i)%nat by lia; apply H; lia|lia].
  cbn [bind]. f_equal. change (S n) with (1 + n)%nat. rewrite slice_plus. replace (k + 1)%nat with (S k) by lia.
  replace (slice k 1 v) with [nth k v 0]; [reflexivity|]. unfold slice.
  clear - L. revert v L. induction k as [|k IH]; intros [|x v] L; cbn in *; try lia; [reflexivity|]. apply IH. lia.
Qed.

Lemma shift_even_firstz : forall l n e, shift_even e (firstz n l) = firstz n (shift_even e l).
Proof. induction l as [|x l IH]; intros n e; [reflexivity|]. cbn [firstz shift_even]. destruct (n <=? 0); [reflexivity|]. cbn [shift_even]. rewrite IH. reflexivity. Qed.

Theorem C30_same : forall data n, bytes data -> zlen data mod 2 = 0 -> 0 <= n <= 4 * (zlen data / 6) + zlen data mod 6 / 2 ->
  exists l, py12 data n = Ok l /\ cy12 data n = Ok l /\ zlen l = n.
Proof.
  intros data n Hb Hl Hn. pose proof (py12_spec data Hb Hl) as [E B]. pose proof (spec12_length data Hl) as L.
  exists (firstz n (spec12 data)). split; [|split].
  - unfold py12. rewrite Hl. cbn [Z.eqb negb]. cbv zeta. replace (zlen (masked 0 (repeat2 (swap2 data))) <? 2 * n) with false by lia.
    rewrite shift_even_firstz, E. reflexivity.
  - unfold cy12. change 0 with (Z.of_nat 0) at 1. rewrite (mapM_nth _ (spec12 data)).
    + unfold slice. cbn [skipn]. rewrite firstz_firstn. reflexivity.
    + intros i Hi. cbn [Nat.add]. apply cy12_spec; [exact Hb|]. unfold zlen in *. lia.
    + unfold zlen in *. lia.
  - unfold zlen in *. rewrite firstz_firstn, firstn_length. lia.
Qed.
Print Assumptions C30_same.

Lemma enc12_ind : forall (P : list Z -> Prop), P [] -> (forall a, P [a]) -> (forall a b, P [a; b]) -> (forall a b c, P [a; b; c]) ->
  (forall a b c d l, P l -> P (a :: b :: c :: d :: l)) -> forall l, P l.
Proof.
  intros P H0 H1 H2 H3 H4. fix IH 1. intros [|a [|b [|c [|d l]]]]. - exact H0. - apply H1. - apply H2. - apply H3. - apply H4, IH.
Qed.
Lemma enc12_spec : forall ps, below 4096 ps -> bytes (enc12 ps) /\ zlen (enc12 ps) = 6 * ((zlen ps + 3) / 4) /\
  exists r, spec12 (enc12 ps) = ps ++ r.
Proof.
  assert (B : forall p0 p1 p2 p3, 0 <= p0 < 4096 -> 0 <= p1 < 4096 -> 0 <= p2 < 4096 -> 0 <= p3 < 4096 -> bytes (enc12_4 p0 p1 p2 p3)).
  { intros. unfold enc12_4. repeat constructor; lia. }
  assert (D : forall p0 p1 p2 p3 l, 0 <= p0 < 4096 -> 0 <= p1 < 4096 -> 0 <= p2 < 4096 -> 0 <= p3 < 4096 ->
    spec12 (enc12_4 p0 p1 p2 p3 ++ l) = [p0; p1; p2; p3] ++ spec12 l).
  { intros. unfold enc12_4. cbn [app spec12]. f_equal; [lia|]. f_equal; [lia|]. f_equal; [lia|]. f_equal. lia. }
  assert (D0 : forall p0 p1 p2 p3, 0 <= p0 < 4096 -> 0 <= p1 < 4096 -> 0 <= p2 < 4096 -> 0 <= p3 < 4096 ->
    spec12 (enc12_4 p0 p1 p2 p3) = [p0; p1; p2; p3]).
  { intros. rewrite <- (app_nil_r (enc12_4 p0 p1 p2 p3)). apply D; assumption. }
  induction ps as [| | | |p0 p1 p2 p3 ps IH] using enc12_ind; intro H.
  - repeat split; [constructor|]. exists []. reflexivity.
  - inversion H; subst. split; [|split; [reflexivity|]]; [apply B; lia|]. cbn [enc12]. rewrite D0 by lia. eexists. reflexivity.
  - inversion H as [|? ? H0 H']; subst; inversion H'; subst. split; [|split; [reflexivity|]]; [apply B; lia|]. cbn [enc12]. rewrite D0 by lia. eexists. reflexivity.
  - inversion H as [|? ? H0 H']; subst; inversion H' as [|? ? H1 H'']; subst; inversion H''; subst. split; [|split; [reflexivity|]]; [apply B; lia|]. cbn [enc12]. rewrite D0 by lia. eexists. reflexivity.
  - inversion H as [|? ? H0 H']; subst; inversion H' as [|? ? H1 H2]; subst; inversion H2 as [|? ? H3 H4]; subst; inversion H4 as [|? ? H5 H6]; subst.
    destruct (IH H6) as [I1 [I2 [r I3]]]. cbn [enc12]. split; [|split].
    + apply Forall_app. split; [apply B; assumption|exact I1].
    + unfold zlen in *. rewrite app_length. cbn [List.length enc12_4]. rewrite Nat2Z.inj_add, I2. clear. lia.
    + rewrite D, I3 by assumption. exists r. reflexivity.
Qed.

Theorem C30_pulses : forall ps, below 4096 ps -> py12 (enc12 ps) (zlen ps) = Ok ps /\ cy12 (enc12 ps) (zlen ps) = Ok ps.
Proof.
  intros ps H. destruct (enc12_spec ps H) as [B [L [r R]]].
  assert (Hl : zlen (enc12 ps) mod 2 = 0) by (rewrite L; clear; lia).
  assert (Hn : 0 <= zlen ps <= 4 * (zlen (enc12 ps) / 6) + zlen (enc12 ps) mod 6 / 2).
  { rewrite L. assert (0 <= zlen ps) by (unfold zlen; lia). clear - H0. lia. }
  pose proof (py12_spec _ B Hl) as [E1 E2]. pose proof (spec12_length _ Hl) as L2.
  assert (F : firstz (zlen ps) (ps ++ r) = ps). { rewrite firstz_firstn. apply firstn_app_exact. unfold zlen. lia. }
  assert (P : py12 (enc12 ps) (zlen ps) = Ok ps).
  { unfold py12. rewrite Hl. cbn [Z.eqb negb]. cbv zeta. replace (zlen (masked 0 (repeat2 (swap2 (enc12 ps)))) <? 2 * zlen ps) with false by lia.
    rewrite shift_even_firstz, E1, R, F. reflexivity. }
  split; [exact P|]. destruct (C30_same (enc12 ps) (zlen ps) B Hl Hn) as [l [C1 [C2 _]]]. rewrite C2. congruence.
Qed.
Print Assumptions C30_pulses.

Example C30_example : enc12 [1; 4095; 2048; 77; 300] = [31; 0; 128; 255; 77; 0; 192; 18; 0; 0; 0; 0] /\
  py12 (enc12 [1; 4095; 2048; 77; 300]) 5 = Ok [1; 4095; 2048; 77; 300] /\ cy12 [1; 2; 3; 4; 5; 6; 7; 8] 5 = Ok [32; 260; 48; 1541; 128].
Proof. repeat split. Qed.

(** * C31 *)
Lemma skipz_app : forall A (a b : list A) n, zlen a = n -> skipz n (a ++ b) = b.
Proof. intros A a b n H. rewrite skipz_skipn. apply skipn_app_exact. unfold zlen in H. lia. Qed.
Lemma firstz_app : forall A (a b : list A) n, zlen a = n -> firstz n (a ++ b) = a.
Proof. intros A a b n H. rewrite firstz_firstn. apply firstn_app_exact. unfold zlen in H. lia. Qed.
Lemma zlen_app : forall A (a b : list A), zlen (a ++ b) = zlen a + zlen b.
Proof. intros. unfold zlen. rewrite app_length. lia. Qed.
Lemma zlen_nonneg : forall A (a : list A), 0 <= zlen a.
Proof. intros. unfold zlen. lia. Qed.
Lemma zlen_cons : forall A (x : A) a, zlen (x :: a) = 1 + zlen a.
Proof. intros. unfold zlen. cbn [List.length]. lia. Qed.
Lemma zlen_le : forall n x, zlen (le n x) = Z.of_nat n.
Proof. intros. unfold zlen. rewrite le_length. reflexivity. Qed.

Lemma two_ind : forall (P : list Z -> Prop), P [] -> (forall a, P [a]) -> (forall a b l, P l -> P (a :: b :: l)) -> forall l, P l.
Proof. intros P H0 H1 H2. fix IH 1. intros [|a [|b l]]. - exact H0. - apply H1. - apply H2, IH. Qed.

Lemma enc_nibbles_len : forall vs, zlen (enc_nibbles vs) = (zlen vs + 1) / 2.
Proof.
  induction vs as [| |a b vs IH] using two_ind; [reflexivity|reflexivity|]. cbn [enc_nibbles]. rewrite !zlen_cons, IH. clear. lia.
Qed.
Lemma low_nibble : forall a b, 0 <= a < 16 -> Z.land (a + 16 * b) 15 = a.
Proof. intros. change 15 with (Z.ones 4). rewrite Z.land_ones by lia. change (2 ^ 4) with 16. lia. Qed.
Lemma high_nibble : forall a b, 0 <= a < 16 -> Z.shiftr (a + 16 * b) 4 = b.
Proof. intros. rewrite Z.shiftr_div_pow2 by lia. change (2 ^ 4) with 16. lia. Qed.
Lemma nibbles_enc : forall gain vs, below 16 vs -> exists r, nibbles gain (enc_nibbles vs) = map (fun v => v + gain) vs ++ r.
Proof.
  induction vs as [|a|a b vs IH] using two_ind; intro H.
  - exists []. reflexivity.
  - inversion H; subst. cbn [enc_nibbles nibbles flat_map app map]. pose proof (low_nibble a 0) as L. rewrite Z.mul_0_r, Z.add_0_r in L. rewrite L by assumption.
    eexists. reflexivity.
  - inversion H as [|? ? A H1]; subst; inversion H1 as [|? ? B H2]; subst. destruct (IH H2) as [r E]. exists r.
    cbn [enc_nibbles nibbles flat_map map]. fold (nibbles gain (enc_nibbles vs)). rewrite E, low_nibble, high_nibble by assumption. reflexivity.
Qed.

Lemma unpack_enc : forall k vs r, (0 < k)%nat -> below (256 ^ Z.of_nat k) vs -> unpack (List.length vs) (Z.of_nat k) (flat_map (le k) vs ++ r) = vs.
Proof.
  intros k vs r Hk. induction vs as [|v vs IH]; intro H; [reflexivity|]. inversion H as [|? ? A H1]; subst. cbn [List.length unpack].
  change (flat_map (le k) (v :: vs)) with (le k v ++ flat_map (le k) vs). rewrite <- app_assoc, firstz_app, skipz_app by apply zlen_le.
  rewrite le_val_small, IH by assumption. reflexivity.
Qed.
Lemma flat_le1 : forall vs, below 256 vs -> flat_map (le 1) vs = vs.
Proof. induction 1 as [|v vs H _ IH]; [reflexivity|]. change (flat_map (le 1) (v :: vs)) with ((v mod 256) :: flat_map (le 1) vs). rewrite IH. f_equal. lia. Qed.
Lemma flat_le_len : forall k vs, zlen (flat_map (le k) vs) = Z.of_nat k * zlen vs.
Proof.
  intros k vs. induction vs as [|v vs IH]; [unfold zlen; cbn [flat_map List.length]; lia|].
  change (flat_map (le k) (v :: vs)) with (le k v ++ flat_map (le k) vs). rewrite zlen_app, zlen_cons, zlen_le, IH. lia.
Qed.

(** size, gain and values of a group that is not empty *)
Definition g_size (g : group) : Z := match g with GZero _ => 0 | GNib _ _ => 1 | G8 _ _ => 2 | G16 _ _ => 4 | G32 _ _ => 8 end.
Definition g_gain (g : group) : Z := match g with GZero _ => 0 | GNib a _ | G8 a _ | G16 a _ | G32 a _ => a end.
Definition g_vals (g : group) : list Z := match g with GZero _ => [] | GNib _ v | G8 _ v | G16 _ v | G32 _ v => v end.
Definition g_body (g : group) : list Z :=
  match g with GZero _ => [] | GNib _ v => enc_nibbles v | G8 _ v => flat_map (le 1) v | G16 _ v => flat_map (le 2) v | G32 _ v => flat_map (le 4) v end.
Definition full (g : group) : Prop := match g with GZero _ => False | _ => True end.

Lemma enc_full : forall g, full g -> group_ok g -> enc_group g = g_size g :: zlen (g_vals g) :: le (Z.to_nat (g_size g)) (g_gain g) ++ g_body g.
Proof.
  intros [n|a v|a v|a v|a v] F H; try contradiction; cbn [group_ok] in H; cbn [enc_group g_size g_vals g_gain g_body app]; try reflexivity.
  - destruct H as [H _]. do 2 f_equal. change (Z.to_nat 1) with 1%nat. cbn [le app]. f_equal. lia.
  - rewrite flat_le1 by apply H. reflexivity.
Qed.
Lemma body_len : forall g, full g -> zlen (g_body g) = if g_size g =? 1 then cdiv (zlen (g_vals g)) 2 else zlen (g_vals g) * g_size g / 2.
Proof.
  intros [n|a v|a v|a v|a v] F; try contradiction; cbn [g_body g_size g_vals].
  - rewrite enc_nibbles_len. cbn [Z.eqb Pos.eqb]. unfold cdiv. clear. lia.
  - rewrite flat_le_len. cbn [Z.eqb Pos.eqb]. clear. lia.
  - rewrite flat_le_len. cbn [Z.eqb Pos.eqb]. clear. lia.
  - rewrite flat_le_len. cbn [Z.eqb Pos.eqb]. clear. lia.
Qed.
Lemma gain_val : forall g, full g -> group_ok g -> le_val (le (Z.to_nat (g_size g)) (g_gain g)) = g_gain g.
Proof. intros [n|a v|a v|a v|a v] F H; try contradiction; cbn [group_ok g_size g_gain] in *; apply le_val_small; cbn; lia. Qed.
Lemma py_values : forall g r, full g -> group_ok g ->
  (if g_size g =? 1 then firstz (zlen (g_vals g)) (nibbles (g_gain g) (g_body g))
   else map (fun x => x + g_gain g) (unpack (Z.to_nat (zlen (g_vals g))) (g_size g / 2) (g_body g ++ r))) = group_counts g.
Proof.
  intros [n|a v|a v|a v|a v] r F H; try contradiction; cbn [group_ok g_size g_gain g_vals g_body group_counts] in *.
  - cbn [Z.eqb Pos.eqb]. destruct (nibbles_enc a v) as [q E]; [apply H|]. rewrite E. apply firstz_app. unfold zlen. rewrite map_length. reflexivity.
  - replace (Z.to_nat (zlen v)) with (List.length v) by (unfold zlen; lia). cbn [Z.eqb Pos.eqb]. change (2 / 2) with (Z.of_nat 1). rewrite unpack_enc; [reflexivity|lia|apply H].
  - replace (Z.to_nat (zlen v)) with (List.length v) by (unfold zlen; lia). cbn [Z.eqb Pos.eqb]. change (4 / 2) with (Z.of_nat 2). rewrite unpack_enc; [reflexivity|lia|apply H].
  - replace (Z.to_nat (zlen v)) with (List.length v) by (unfold zlen; lia). cbn [Z.eqb Pos.eqb]. change (8 / 2) with (Z.of_nat 4). rewrite unpack_enc; [reflexivity|lia|apply H].
Qed.

Lemma py_group_full : forall k g tail rest r, full g -> group_ok g ->
  py_groups k (tail ++ rest) (zlen tail) = Ok r ->
  py_groups (S k) ((enc_group g ++ tail) ++ rest) (zlen (enc_group g) + zlen tail) = Ok (group_counts g ++ fst r, snd r).
Proof.
  intros k g tail rest r F G IH. rewrite (enc_full g F G). cbn [app py_groups].
  pose proof (zlen_nonneg _ tail) as Ht. rewrite !zlen_cons, zlen_app, zlen_le.
  pose proof (zlen_nonneg _ (g_body g)) as Hb. pose proof (zlen_nonneg _ rest) as Hr.
  assert (S : g_size g = 1 \/ g_size g = 2 \/ g_size g = 4 \/ g_size g = 8) by (destruct g; try contradiction; cbn; lia).
  replace (1 + (1 + (Z.of_nat (Z.to_nat (g_size g)) + zlen (g_body g))) + zlen tail <=? 0) with false by lia.
  replace (g_size g =? 0) with false by lia.
  replace (negb ((g_size g =? 1) || (g_size g =? 2) || (g_size g =? 4) || (g_size g =? 8))) with false by lia.
  rewrite <- !app_assoc. rewrite zlen_app, zlen_le. rewrite firstz_app, skipz_app by (rewrite zlen_le; lia).
  rewrite !zlen_app.
  replace (Z.of_nat (Z.to_nat (g_size g)) + (zlen (g_body g) + (zlen tail + zlen rest)) <? g_size g) with false by lia.
  rewrite (gain_val g F G). pose proof (body_len g F) as L. rewrite <- L.
  replace (zlen (g_body g) + (zlen tail + zlen rest) <? zlen (g_body g)) with false by lia.
  rewrite skipz_app by reflexivity. rewrite firstz_app by reflexivity.
  rewrite (py_values g (tail ++ rest) F G).
  replace (1 + (1 + (Z.of_nat (Z.to_nat (g_size g)) + zlen (g_body g))) + zlen tail - 2 - g_size g - zlen (g_body g)) with (zlen tail) by lia.
  rewrite IH. destruct r as [r1 r2]. reflexivity.
Qed.

Lemma py_groups_ok : forall gs fuel rest, Forall group_ok gs -> (List.length gs < fuel)%nat ->
  py_groups fuel (flat_map enc_group gs ++ rest) (zlen (flat_map enc_group gs)) = Ok (flat_map group_counts gs, rest).
Proof.
  induction gs as [|g gs IH]; intros fuel rest Hg Hf; (destruct fuel as [|k]; [cbn in Hf; lia|]).
  - reflexivity.
  - inversion Hg as [|? ? G Gs]; subst. cbn [flat_map]. rewrite zlen_app. set (tail := flat_map enc_group gs) in *.
    pose proof (zlen_nonneg _ tail) as Ht. assert (E : py_groups k (tail ++ rest) (zlen tail) = Ok (flat_map group_counts gs, rest)).
    { apply IH; [exact Gs|cbn in Hf; lia]. }
    destruct g as [n| | | |].
    + cbn [enc_group app py_groups]. change (zlen [0; n]) with 2. replace (2 + zlen tail <=? 0) with false by lia. cbn [Z.eqb].
      replace (2 + zlen tail - 2) with (zlen tail) by lia. rewrite E. reflexivity.
    + apply (py_group_full k (GNib gain vs) tail rest _ I G E).
    + apply (py_group_full k (G8 gain vs) tail rest _ I G E).
    + apply (py_group_full k (G16 gain vs) tail rest _ I G E).
    + apply (py_group_full k (G32 gain vs) tail rest _ I G E).
Qed.

(** ** The compiled parser *)
Lemma skipn_nth : forall A m (l : list A) b, nth_error l m = Some b -> skipn m l = b :: skipn (S m) l.
Proof. induction m as [|m IH]; intros [|x l] b E; try discriminate; cbn in E; [injection E as ->; reflexivity|]. cbn [skipn]. rewrite (IH l b E). destruct l; [destruct m; discriminate|]. reflexivity. Qed.
Lemma byte_at : forall pre body post j, (j < List.length body)%nat -> byte (pre ++ body ++ post) (zlen pre + Z.of_nat j) = Ok (nth j body 0).
Proof.
  intros pre body post j Hj. unfold byte. replace (zlen pre + Z.of_nat j <? 0) with false by (unfold zlen; lia).
  replace (Z.to_nat (zlen pre + Z.of_nat j)) with (List.length pre + j)%nat by (unfold zlen; lia).
  rewrite nth_error_app2 by lia. replace (List.length pre + j - List.length pre)%nat with j by lia.
  rewrite nth_error_app1 by exact Hj. rewrite (nth_error_nth' body 0 Hj). reflexivity.
Qed.
Lemma bytes_le_at : forall pre b post n, zlen b = n -> bytes_le (pre ++ b ++ post) (zlen pre) n = Ok (le_val b).
Proof.
  intros pre b post n H. unfold bytes_le. rewrite fread_slice. rewrite slice_app; [|unfold zlen; lia|unfold zlen in H; lia].
  rewrite H. replace (zlen pre <? 0) with false by (unfold zlen; lia). replace (n =? n) with true by lia. reflexivity.
Qed.
Lemma flat_le_at : forall k vs pre post i, (i < List.length vs)%nat -> below (256 ^ Z.of_nat k) vs ->
  bytes_le (pre ++ flat_map (le k) vs ++ post) (zlen pre + Z.of_nat i * Z.of_nat k) (Z.of_nat k) = Ok (nth i vs 0).
Proof.
  intros k vs. induction vs as [|v vs IH]; intros pre post i Hi H; [cbn in Hi; lia|]. inversion H as [|? ? A B]; subst.
  change (flat_map (le k) (v :: vs)) with (le k v ++ flat_map (le k) vs). rewrite <- app_assoc. destruct i as [|i].
  - rewrite Z.mul_0_l, Z.add_0_r, bytes_le_at by apply zlen_le. rewrite le_val_small by exact A. reflexivity.
  - rewrite app_assoc. replace (zlen pre + Z.of_nat (S i) * Z.of_nat k) with (zlen (pre ++ le k v) + Z.of_nat i * Z.of_nat k) by (rewrite zlen_app, zlen_le; lia).
    rewrite IH by (try assumption; cbn in Hi; lia). reflexivity.
Qed.
Lemma nibble_at : forall vs i, (i < List.length vs)%nat -> below 16 vs -> (i / 2 < List.length (enc_nibbles vs))%nat /\
  (if Z.of_nat i mod 2 =? 0 then Z.land (nth (i / 2) (enc_nibbles vs) 0) 15 else Z.shiftr (nth (i / 2) (enc_nibbles vs) 0) 4) = nth i vs 0.
Proof.
  induction vs as [|a|a b vs IH] using two_ind; intros i Hi H.
  - cbn in Hi. lia.
  - cbn in Hi. replace i with 0%nat by lia. inversion H; subst. split; [cbn; lia|]. cbn [enc_nibbles nth Nat.div].
    change (Z.of_nat 0 mod 2 =? 0) with true. change (fst (Nat.divmod 0 1 0 1)) with 0%nat. cbn [nth].
    pose proof (low_nibble a 0) as L. rewrite Z.mul_0_r, Z.add_0_r in L. apply L. assumption.
  - inversion H as [|? ? A H1]; subst; inversion H1 as [|? ? B H2]; subst. cbn [enc_nibbles]. destruct i as [|[|i]].
    + split; [cbn; lia|]. change (Z.of_nat 0 mod 2 =? 0) with true. change (0 / 2)%nat with 0%nat. cbn [nth]. apply low_nibble. exact A.
    + split; [cbn; lia|]. change (Z.of_nat 1 mod 2 =? 0) with false. change (1 / 2)%nat with 0%nat. cbn [nth]. apply high_nibble. exact A.
    + destruct (IH i) as [I1 I2]; [cbn in Hi; lia|exact H2|]. assert (D : (S (S i) / 2 = S (i / 2))%nat).
      { change (S (S i)) with (2 + i)%nat. replace (2 + i)%nat with (i + 1 * 2)%nat by lia. rewrite Nat.div_add by lia. lia. }
      rewrite D. split; [cbn [List.length]; lia|]. cbn [nth]. rewrite <- I2. replace (Z.of_nat (S (S i)) mod 2) with (Z.of_nat i mod 2) by lia. reflexivity.
Qed.

Lemma cy_value_ok : forall g pre post i, full g -> no_g32 g -> group_ok g -> (i < List.length (g_vals g))%nat ->
  cy_value (pre ++ g_body g ++ post) (g_size g) (zlen pre) (Z.of_nat i) = Ok (nth i (g_vals g) 0).
Proof.
  intros [n|a v|a v|a v|a v] pre post i F N G Hi; try contradiction; cbn [g_vals g_size g_body group_ok] in *; unfold cy_value; cbn [Z.eqb Pos.eqb].
  - destruct (nibble_at v i Hi) as [L E]; [apply G|]. replace (Z.of_nat i / 2) with (Z.of_nat (i / 2)) by (rewrite Nat2Z.inj_div; reflexivity).
    rewrite byte_at by exact L. cbn [bind]. f_equal. exact E.
  - rewrite byte_at; rewrite flat_le1 by apply G; [reflexivity|exact Hi].
  - change 2 with (Z.of_nat 2). apply flat_le_at; [exact Hi|apply G].
Qed.

Definition evs_of (cutoff ch : Z) (counts : list Z) : list (Z * Z) :=
  filter (fun e => fst e <? cutoff) (combine (zseq ch (List.length counts)) counts).
Lemma mapM_evs : forall (val : Z -> res Z) cutoff gain ch vs k, (forall i, (i < List.length vs)%nat -> val (Z.of_nat (k + i)) = Ok (nth i vs 0)) ->
  mapM (fun i => let! v := val i in Ok (ch + i, v + gain)) (filter (fun i => ch + i <? cutoff) (zseq (Z.of_nat k) (List.length vs)))
  = Ok (evs_of cutoff (ch + Z.of_nat k) (map (fun v => v + gain) vs)).
Proof.
  induction vs as [|v vs IH]; intros k H; [reflexivity|]. cbn [List.length zseq filter map]. unfold evs_of in *. cbn [List.length zseq combine filter fst].
  assert (T : mapM (fun i => let! v := val i in Ok (ch + i, v + gain)) (filter (fun i => ch + i <? cutoff) (zseq (Z.of_nat k + 1) (List.length vs)))
    = Ok (filter (fun e => fst e <? cutoff) (combine (zseq (ch + Z.of_nat k + 1) (List.length (map (fun v => v + gain) vs))) (map (fun v => v + gain) vs)))).
  { replace (Z.of_nat k + 1) with (Z.of_nat (S k)) by lia. rewrite IH.
    - replace (ch + Z.of_nat (S k)) with (ch + Z.of_nat k + 1) by lia. reflexivity.
    - intros i Hi. replace (S k + i)%nat with (k + S i)%nat by lia. apply (H (S i)). cbn. lia. }
  destruct (ch + Z.of_nat k <? cutoff) eqn:E; [|exact T]. cbn [mapM]. pose proof (H 0%nat ltac:(cbn; lia)) as H0. rewrite Nat.add_0_r in H0. rewrite H0.
  cbn [bind nth]. rewrite T. reflexivity.
Qed.

Fixpoint g_events (cutoff ch : Z) (gs : list group) : list (Z * Z) :=
  match gs with
  | [] => []
  | GZero n :: gs' => g_events cutoff (ch + n) gs'
  | g :: gs' => evs_of cutoff ch (group_counts g) ++ g_events cutoff (ch + zlen (g_vals g)) gs'
  end.

Lemma cy_group_full : forall k g pre tail cutoff ch evs size, full g -> no_g32 g -> group_ok g -> zlen pre < size ->
  cy_groups k ((pre ++ enc_group g) ++ tail) size cutoff (zlen (pre ++ enc_group g)) (ch + zlen (g_vals g)) = Ok evs ->
  cy_groups (S k) ((pre ++ enc_group g) ++ tail) size cutoff (zlen pre) ch = Ok (evs_of cutoff ch (group_counts g) ++ evs).
Proof.
  intros k g pre tail cutoff ch evs size F N G Hs IH. cbn [cy_groups]. replace (size <=? zlen pre) with false by lia.
  revert IH. rewrite (enc_full g F G). intro IH.
  set (gb := le (Z.to_nat (g_size g)) (g_gain g)) in *.
  assert (Lg : zlen gb = g_size g). { unfold gb. rewrite zlen_le. destruct g; cbn; lia. }
  set (src := (pre ++ g_size g :: zlen (g_vals g) :: gb ++ g_body g) ++ tail) in *.
  assert (B0 : byte src (zlen pre) = Ok (g_size g)).
  { pose proof (byte_at pre [g_size g; zlen (g_vals g)] (gb ++ g_body g ++ tail) 0 ltac:(cbn; lia)) as B. rewrite Z.add_0_r in B. cbn [nth] in B.
    rewrite <- B. f_equal. unfold src. rewrite <- !app_assoc. cbn [app]. rewrite <- !app_assoc. reflexivity. }
  assert (B1 : byte src (zlen pre + 1) = Ok (zlen (g_vals g))).
  { pose proof (byte_at pre [g_size g; zlen (g_vals g)] (gb ++ g_body g ++ tail) 1 ltac:(cbn; lia)) as B. cbn [nth] in B. change (Z.of_nat 1) with 1 in B.
    rewrite <- B. f_equal. unfold src. rewrite <- !app_assoc. cbn [app]. rewrite <- !app_assoc. reflexivity. }
  rewrite B0, B1. cbn [bind]. assert (S : g_size g = 1 \/ g_size g = 2 \/ g_size g = 4) by (destruct g; try contradiction; cbn; lia).
  replace (g_size g =? 0) with false by lia.
  assert (B2 : bytes_le src (zlen pre + 2) (g_size g) = Ok (g_gain g)).
  { pose proof (bytes_le_at (pre ++ [g_size g; zlen (g_vals g)]) gb (g_body g ++ tail) _ Lg) as B. rewrite zlen_app in B. change (zlen [g_size g; zlen (g_vals g)]) with 2 in B.
    unfold gb at 2 in B. rewrite (gain_val g F G) in B. rewrite <- B. f_equal. unfold src. rewrite <- !app_assoc. cbn [app]. rewrite <- !app_assoc. reflexivity. }
  assert (B3 : (if g_size g =? 1 then byte src (zlen pre + 2) else if g_size g =? 2 then bytes_le src (zlen pre + 2) 2
                        else if g_size g =? 4 then bytes_le src (zlen pre + 2) 4 else bytes_le src (zlen pre + 2) 5) = Ok (g_gain g)).
  { destruct S as [S|[S|S]]; rewrite S in *; cbn [Z.eqb Pos.eqb]; try exact B2. clear - B2. unfold bytes_le, byte in *. rewrite fread_slice in B2.
    destruct (zlen pre + 2 <? 0); [discriminate|]. cbn [orb] in B2. unfold slice in B2.
    destruct (nth_error src (Z.to_nat (zlen pre + 2))) as [b|] eqn:E.
    - assert (H : skipn (Z.to_nat (zlen pre + 2)) src = b :: skipn (S (Z.to_nat (zlen pre + 2))) src).
      { apply skipn_nth. exact E. }
      rewrite H in B2. change (Z.to_nat 1) with 1%nat in B2. cbn [firstn] in B2. rewrite zlen_cons in B2. change (zlen (@nil Z)) with 0 in B2. cbn [Z.add Z.eqb Pos.eqb negb le_val] in B2.
      rewrite <- B2. f_equal. lia.
    - apply nth_error_None in E. rewrite skipn_all2 in B2 by lia. discriminate. }
  rewrite B3. cbn [bind].
  assert (V : mapM (fun i => let! v := cy_value src (g_size g) (zlen pre + 2 + g_size g) i in Ok (ch + i, v + g_gain g))
      (filter (fun i => ch + i <? cutoff) (zseq 0 (Z.to_nat (zlen (g_vals g))))) = Ok (evs_of cutoff ch (group_counts g))).
  { replace (Z.to_nat (zlen (g_vals g))) with (List.length (g_vals g)) by (unfold zlen; lia). change 0 with (Z.of_nat 0).
    rewrite (mapM_evs (cy_value src (g_size g) (zlen pre + 2 + g_size g)) cutoff (g_gain g) ch (g_vals g) 0).
    - rewrite Z.add_0_r. destruct g; try contradiction; reflexivity.
    - intros i Hi. cbn [Nat.add]. pose proof (cy_value_ok g (pre ++ [g_size g; zlen (g_vals g)] ++ gb) tail i F N G Hi) as C.
      rewrite !zlen_app, Lg in C. change (zlen [g_size g; zlen (g_vals g)]) with 2 in C. rewrite <- C. f_equal; [|lia].
      unfold src. rewrite <- !app_assoc. cbn [app]. rewrite <- !app_assoc. reflexivity. }
  rewrite V. cbn [bind].
  assert (Ln : (if g_size g =? 1 then if zlen (g_vals g) mod 2 =? 0 then zlen (g_vals g) / 2 else zlen (g_vals g) / 2 + 1 else zlen (g_vals g) * g_size g / 2) = zlen (g_body g)).
  { rewrite (body_len g F). destruct (g_size g =? 1); [|reflexivity]. unfold cdiv. clear. destruct (zlen (g_vals g) mod 2 =? 0) eqn:E; lia. }
  rewrite Ln. replace (zlen pre + 2 + g_size g + zlen (g_body g)) with (zlen (pre ++ g_size g :: zlen (g_vals g) :: gb ++ g_body g)).
  - rewrite IH. reflexivity.
  - rewrite zlen_app, !zlen_cons, zlen_app, Lg. lia.
Qed.

Lemma enc_group_pos : forall g, 2 <= zlen (enc_group g).
Proof. intros [n|a v|a v|a v|a v]; cbn [enc_group]; [change (zlen [0; n]) with 2; lia|..]; rewrite !zlen_app; rewrite ?zlen_cons; unfold zlen; cbn [List.length]; lia. Qed.

Lemma cy_groups_ok : forall gs fuel pre post cutoff ch, Forall group_ok gs -> Forall no_g32 gs -> (List.length gs < fuel)%nat ->
  cy_groups fuel (pre ++ flat_map enc_group gs ++ post) (zlen pre + zlen (flat_map enc_group gs)) cutoff (zlen pre) ch = Ok (g_events cutoff ch gs).
Proof.
  induction gs as [|g gs IH]; intros fuel pre post cutoff ch Hg Hn Hf; (destruct fuel as [|k]; [cbn in Hf; lia|]).
  - cbn [flat_map cy_groups]. change (zlen (@nil Z)) with 0. replace (zlen pre + 0 <=? zlen pre) with true by lia. reflexivity.
  - inversion Hg as [|? ? G Gs]; subst. inversion Hn as [|? ? N Ns]; subst. cbn [flat_map]. pose proof (enc_group_pos g) as P.
    assert (I : forall ch', cy_groups k ((pre ++ enc_group g) ++ flat_map enc_group gs ++ post) (zlen pre + (zlen (enc_group g) + zlen (flat_map enc_group gs))) cutoff
       (zlen (pre ++ enc_group g)) ch' = Ok (g_events cutoff ch' gs)).
    { intro ch'. rewrite <- (IH k (pre ++ enc_group g) post cutoff ch') by (try assumption; cbn in Hf; lia). f_equal. rewrite zlen_app. lia. }
    rewrite <- app_assoc, app_assoc. rewrite zlen_app. pose proof (zlen_nonneg _ (flat_map enc_group gs)) as Ht. pose proof (zlen_nonneg _ pre) as Hp.
    destruct g as [n| | | |].
    + cbn [cy_groups]. replace (zlen pre + (zlen (enc_group (GZero n)) + zlen (flat_map enc_group gs)) <=? zlen pre) with false by lia.
      cbn [enc_group] in *.
      assert (B0 : byte ((pre ++ [0; n]) ++ flat_map enc_group gs ++ post) (zlen pre) = Ok 0).
      { rewrite <- app_assoc. pose proof (byte_at pre [0; n] (flat_map enc_group gs ++ post) 0 ltac:(cbn; lia)) as B. rewrite Z.add_0_r in B. exact B. }
      assert (B1 : byte ((pre ++ [0; n]) ++ flat_map enc_group gs ++ post) (zlen pre + 1) = Ok n).
      { rewrite <- app_assoc. exact (byte_at pre [0; n] (flat_map enc_group gs ++ post) 1 ltac:(cbn; lia)). }
      rewrite B0, B1. cbn [bind Z.eqb]. pose proof (I (ch + n)) as I'. rewrite zlen_app in I'. change (zlen [0; n]) with 2 in *. exact I'.
    + apply (cy_group_full k (GNib gain vs)); [exact Logic.I|exact N|exact G|lia|apply I].
    + apply (cy_group_full k (G8 gain vs)); [exact Logic.I|exact N|exact G|lia|apply I].
    + apply (cy_group_full k (G16 gain vs)); [exact Logic.I|exact N|exact G|lia|apply I].
    + contradiction.
Qed.

(** The sum of the increments of a channel. *)
Definition total (c : Z) (evs : list (Z * Z)) : Z := sumZ (map snd (filter (fun e => fst e =? c) evs)).
Lemma total_app : forall c a b, total c (a ++ b) = total c a + total c b.
Proof. intros c a b. unfold total. rewrite filter_app, map_app. induction (map snd (filter (fun e => fst e =? c) a)) as [|x l IH]; cbn [app sumZ]; lia. Qed.
Lemma total_evs : forall cutoff counts ch c, ch <= c -> total c (evs_of cutoff ch counts) = if c <? cutoff then nth (Z.to_nat (c - ch)) counts 0 else 0.
Proof.
  intros cutoff counts. induction counts as [|x l IH]; intros ch c Hc.
  - unfold evs_of, total. cbn. destruct (c <? cutoff); [destruct (Z.to_nat (c - ch)); reflexivity|reflexivity].
  - assert (Z0 : forall l ch c, c < ch -> total c (evs_of cutoff ch l) = 0).
    { clear. induction l as [|x l IH]; intros ch c Hc; [reflexivity|]. unfold evs_of. cbn [List.length zseq combine filter fst].
      destruct (ch <? cutoff); [|apply IH; lia]. change ((ch, x) :: filter (fun e : Z * Z => fst e <? cutoff) (combine (zseq (ch + 1) (List.length l)) l)) with ([(ch, x)] ++ evs_of cutoff (ch + 1) l).
      rewrite total_app, IH by lia. unfold total. cbn [filter fst]. replace (ch =? c) with false by lia. reflexivity. }
    unfold evs_of. cbn [List.length zseq combine filter fst]. destruct (Z.eq_dec ch c) as [->|Ne].
    + replace (Z.to_nat (c - c)) with 0%nat by lia. cbn [nth]. destruct (c <? cutoff); [|apply Z0; lia].
      change ((c, x) :: filter (fun e : Z * Z => fst e <? cutoff) (combine (zseq (c + 1) (List.length l)) l)) with ([(c, x)] ++ evs_of cutoff (c + 1) l).
      rewrite total_app, Z0 by lia. unfold total. cbn [filter fst]. rewrite Z.eqb_refl. cbn. lia.
    + replace (Z.to_nat (c - ch)) with (S (Z.to_nat (c - (ch + 1)))) by lia. cbn [nth]. rewrite <- (IH (ch + 1) c) by lia.
      destruct (ch <? cutoff); [|reflexivity].
      change ((ch, x) :: filter (fun e : Z * Z => fst e <? cutoff) (combine (zseq (ch + 1) (List.length l)) l)) with ([(ch, x)] ++ evs_of cutoff (ch + 1) l).
      rewrite total_app. unfold total at 1. cbn [filter fst]. replace (ch =? c) with false by lia. reflexivity.
Qed.
Lemma total_before : forall cutoff gs ch c, Forall group_ok gs -> c < ch -> total c (g_events cutoff ch gs) = 0.
Proof.
  assert (Z0 : forall cutoff l ch c, c < ch -> total c (evs_of cutoff ch l) = 0).
  { clear. induction l as [|x l IH]; intros ch c Hc; [reflexivity|]. unfold evs_of. cbn [List.length zseq combine filter fst].
      destruct (ch <? cutoff); [|apply IH; lia]. change ((ch, x) :: filter (fun e : Z * Z => fst e <? cutoff) (combine (zseq (ch + 1) (List.length l)) l)) with ([(ch, x)] ++ evs_of cutoff (ch + 1) l).
      rewrite total_app, IH by lia. unfold total. cbn [filter fst]. replace (ch =? c) with false by lia. reflexivity. }
  intros cutoff. induction gs as [|g gs IH]; intros ch c H Hc; [reflexivity|]. inversion H as [|? ? G Gs]; subst.
  destruct g as [n|a v|a v|a v|a v]; cbn [g_events g_vals group_ok] in *; [apply IH; [exact Gs|lia]|..];
    (rewrite total_app, Z0 by lia; rewrite (IH _ _ Gs); [reflexivity|unfold zlen; lia]).
Qed.
Lemma total_groups : forall cutoff gs ch c, Forall group_ok gs -> ch <= c ->
  total c (g_events cutoff ch gs) = if c <? cutoff then nth (Z.to_nat (c - ch)) (flat_map group_counts gs) 0 else 0.
Proof.
  intros cutoff. induction gs as [|g gs IH]; intros ch c H Hc.
  - cbn. destruct (c <? cutoff); [destruct (Z.to_nat (c - ch)); reflexivity|reflexivity].
  - inversion H as [|? ? G Gs]; subst. cbn [flat_map].
    assert (Full : forall g, full g -> zlen (group_counts g) = zlen (g_vals g)) by (intros [n|a v|a v|a v|a v] F; try contradiction; unfold zlen; cbn; rewrite map_length; reflexivity).
    assert (Body : full g -> total c (evs_of cutoff ch (group_counts g) ++ g_events cutoff (ch + zlen (g_vals g)) gs) =
      (if c <? cutoff then nth (Z.to_nat (c - ch)) (group_counts g ++ flat_map group_counts gs) 0 else 0)).
    { intro F. rewrite total_app, total_evs by lia. pose proof (Full g F) as L. destruct (Z.lt_ge_cases c (ch + zlen (g_vals g))) as [Lt|Ge].
      - rewrite total_before by assumption. destruct (c <? cutoff); [|reflexivity]. rewrite app_nth1 by (unfold zlen in *; lia). lia.
      - rewrite IH by assumption. destruct (c <? cutoff); [|reflexivity]. rewrite nth_overflow by (unfold zlen in *; lia).
        rewrite app_nth2 by (clear - L Ge Hc; unfold zlen in *; lia). rewrite Z.add_0_l. f_equal. clear - L Ge Hc. unfold zlen in *. lia. }
    destruct g as [n|a v|a v|a v|a v]; cbn [g_events group_ok] in *; [|apply Body; exact I..].
    cbn [group_counts]. destruct (Z.lt_ge_cases c (ch + n)) as [Lt|Ge].
    + rewrite total_before by assumption. rewrite app_nth1 by (rewrite repeat_length; lia). rewrite nth_repeat. destruct (c <? cutoff); reflexivity.
    + rewrite IH by assumption. rewrite app_nth2 by (rewrite repeat_length; lia). rewrite repeat_length. destruct (c <? cutoff); [|reflexivity]. f_equal. lia.
Qed.

(** Both parsers yield the spectrum, channel by channel, when no group has 32-bit values. *)
Theorem C31_same : forall gs cutoff fuel, Forall group_ok gs -> Forall no_g32 gs -> (List.length gs < fuel)%nat ->
  let data := flat_map enc_group gs in
  exists evs, py_groups fuel data (zlen data) = Ok (flat_map group_counts gs, []) /\
    cy_groups fuel data (zlen data) cutoff 0 0 = Ok evs /\
    forall c, 0 <= c -> total c evs = if c <? cutoff then nth (Z.to_nat c) (flat_map group_counts gs) 0 else 0.
Proof.
  intros gs cutoff fuel H N F data. exists (g_events cutoff 0 gs). split; [|split].
  - pose proof (py_groups_ok gs fuel [] H F) as P. rewrite app_nil_r in P. exact P.
  - pose proof (cy_groups_ok gs fuel [] [] cutoff 0 H N F) as P. rewrite app_nil_r in P. exact P.
  - intros c Hc. rewrite total_groups by assumption. replace (c - 0) with c by lia. reflexivity.
Qed.
Print Assumptions C31_same.

(** The Python parser is right for all group sizes. *)
Theorem C31_python : forall gs fuel rest, Forall group_ok gs -> (List.length gs < fuel)%nat ->
  py_groups fuel (flat_map enc_group gs ++ rest) (zlen (flat_map enc_group gs)) = Ok (flat_map group_counts gs, rest).
Proof. intros. apply py_groups_ok; assumption. Qed.
Print Assumptions C31_python.

(** With 32-bit values the compiled parser steps by two bytes instead of four. *)
Theorem C31_32bit_refuted : exists gs, Forall group_ok gs /\
  py_groups 9 (flat_map enc_group gs) (zlen (flat_map enc_group gs)) = Ok ([1; 2; 3], []) /\
  cy_groups 9 (flat_map enc_group gs) (zlen (flat_map enc_group gs)) 10 0 0 = Ok [(0, 1); (1, 131072); (2, 2)].
Proof.
  exists [G32 0 [1; 2; 3]]. split; [|split; reflexivity]. repeat constructor; cbn; lia.
Qed.
Print Assumptions C31_32bit_refuted.

Example C31_example : let gs := [GZero 3; GNib 5 [1; 15; 3]; G8 300 [7]; G16 70000 [65535; 2]] in
  Forall group_ok gs /\ flat_map group_counts gs = [0; 0; 0; 6; 20; 8; 307; 135535; 70002] /\
  cy_groups 9 (flat_map enc_group gs) (zlen (flat_map enc_group gs)) 8 0 0 = Ok [(3, 6); (4, 20); (5, 8); (6, 307); (7, 135535)].
Proof. split; [|split; reflexivity]. repeat constructor; cbn; lia. Qed.
