(** Single precision numbers: struct.pack("<f") and struct.unpack("<f"), as used by
    /repo/rsciio/digitalsurf/_api.py lines 2095-2106.  Finite numbers are rationals in lowest
    terms; infinities and NaN are not modelled. *)
From Coq Require Import QArith Qabs.
From Coq Require Qcanon.
From Verif Require Import Base Text Bytes.
Local Open Scope Z_scope.

(** Round half to even of n / d, d > 0 *)
Definition round_div (n d : Z) : Z :=
  let q := n / d in let r := n mod d in
  if 2 * r <? d then q else if d <? 2 * r then q + 1 else if Z.even q then q else q + 1.
(** 2^e for any e, as a fraction *)
Definition up (e : Z) : Z := 2 ^ Z.max 0 e.
Definition q2 (m e : Z) : Q := Qred (m * up e # Z.to_pos (up (- e))).
(** Exponent of the leading bit of n / d *)
Definition top_bit (n d : Z) : Z :=
  let e := Z.log2 n - Z.log2 d in if n * up (- e) <? d * up e then e - 1 else e.
(** Exponent of the last bit, and the rounded mantissa *)
Definition last_bit (n d : Z) : Z := Z.max (top_bit n d) (-126) - 23.
Definition mantissa (n d : Z) : Z := let e := last_bit n d in round_div (n * up (- e)) (d * up e).
(** struct.pack("<f", q): OverflowError if the number is too large *)
Definition pack32 (q : Q) : res Z :=
  let n := Z.abs (Qnum q) in let d := Zpos (Qden q) in
  let w := if n =? 0 then 0 else (last_bit n d + 149) * 2 ^ 23 + mantissa n d in
  if 255 * 2 ^ 23 <=? w then Err OverflowError else Ok (if Qnum q <? 0 then w + 2 ^ 31 else w).
(** struct.unpack("<f") of finite numbers *)
Definition val32 (w : Z) : res Q :=
  let a := w mod 2 ^ 31 in
  let e := a / 2 ^ 23 in let m := a mod 2 ^ 23 in
  if e =? 255 then Err NotImplementedError
  else let (m, e) := if e =? 0 then (m, -149) else (m + 2 ^ 23, e - 150) in
       Ok (q2 (if 2 ^ 31 <=? w then - m else m) e).
(** The nearest single precision number *)
Definition round32 (q : Q) : res Q := let! w := pack32 q in val32 w.

(** * Specification *)
(** A number of single precision *)
Definition single (q : Q) : Prop := exists m e, Z.abs m < 2 ^ 24 /\ -149 <= e <= 104 /\ (q == m * up e # Z.to_pos (up (- e)))%Q.

Lemma up_pos : forall e, 0 < up e.
Proof. intro e. unfold up. apply Z.pow_pos_nonneg; lia. Qed.
Lemma up_split : forall a b, 0 <= b -> up (a + b) * up (- a) = 2 ^ b * (up a * up (- a - b)).
Proof.
  intros a b H. unfold up. rewrite <- !Z.pow_add_r by lia. f_equal. lia.
Qed.
(** The two sides of a power: only one is not 1 *)
Lemma up_one : forall e, up e = 1 \/ up (- e) = 1.
Proof. intro e. unfold up. destruct (Z.le_gt_cases e 0); [left|right]; rewrite Z.max_l by lia; reflexivity. Qed.
Lemma round_div_exact : forall k d, 0 < d -> round_div (k * d) d = k.
Proof. intros k d H. unfold round_div. rewrite Z.div_mul, Z.mod_mul by lia. assert (E : (2 * 0 <? d) = true) by lia. rewrite E. reflexivity. Qed.
Lemma round_div_error : forall n d, 0 < d -> 2 * Z.abs (round_div n d * d - n) <= d.
Proof.
  intros n d H. unfold round_div. pose proof (Z.div_mod n d ltac:(lia)) as E. pose proof (Z.mod_pos_bound n d H) as R. set (q := n / d) in *. set (r := n mod d) in *. clearbody q r. subst n.
  destruct (2 * r <? d) eqn:A; [lia|]. destruct (d <? 2 * r) eqn:B; [lia|]. destruct (Z.even q); lia.
Qed.
Lemma round_div_scale : forall n d k, 0 < d -> 0 < k -> round_div (n * k) (d * k) = round_div n d.
Proof.
  intros n d k Hd Hk. unfold round_div. rewrite Z.div_mul_cancel_r by lia. rewrite Zmult_mod_distr_r. set (r := n mod d). 
  assert (A : (2 * (r * k) <? d * k) = (2 * r <? d)) by (destruct (2 * r <? d) eqn:A; [apply Z.ltb_lt; clear - A Hk; apply Z.ltb_lt in A; nia|apply Z.ltb_ge; clear - A Hk; apply Z.ltb_ge in A; nia]).
  assert (B : (d * k <? 2 * (r * k)) = (d <? 2 * r)) by (destruct (d <? 2 * r) eqn:B; [apply Z.ltb_lt; clear - B Hk; apply Z.ltb_lt in B; nia|apply Z.ltb_ge; clear - B Hk; apply Z.ltb_ge in B; nia]).
  rewrite A, B. reflexivity.
Qed.

(** * Packing and unpacking *)
Lemma frac_eq : forall a b c d, 0 < b -> 0 < d -> (a # Z.to_pos b == c # Z.to_pos d)%Q <-> a * d = c * b.
Proof. intros a b c d Hb Hd. unfold Qeq. cbn [Qnum Qden]. rewrite !Z2Pos.id by lia. reflexivity. Qed.
Lemma q2_eq : forall m e m' e', m * up e * up (- e') = m' * up e' * up (- e) -> q2 m e = q2 m' e'.
Proof. intros m e m' e' H. unfold q2. apply Qred_complete. apply frac_eq; [apply up_pos|apply up_pos|]. exact H. Qed.
Lemma q2_shift : forall m e k, 0 <= k -> q2 (m * 2 ^ k) e = q2 m (e + k).
Proof. intros m e k H. apply q2_eq. replace (- (e + k)) with (- e - k) by lia. pose proof (up_split e k H) as S. transitivity (m * (2 ^ k * (up e * up (- e - k)))); [ring|]. rewrite <- S. ring. Qed.
Lemma top_bit_spec : forall n d, 0 < n -> 0 < d -> let e := top_bit n d in d * up e <= n * up (- e) < 2 * (d * up e).
Proof.
  intros n d Hn Hd. cbv zeta. unfold top_bit. pose proof (Z.log2_spec n Hn) as A. pose proof (Z.log2_spec d Hd) as B. pose proof (Z.log2_nonneg n) as A0. pose proof (Z.log2_nonneg d) as B0.
  set (a := Z.log2 n) in *. set (b := Z.log2 d) in *. clearbody a b. rewrite !Z.pow_succ_r in A, B by lia. destruct (n * up (- (a - b)) <? d * up (a - b)) eqn:E.
  - destruct (Z.le_gt_cases a b) as [C|C].
    + assert (U1 : up (a - b) = 1) by (unfold up; rewrite Z.max_l by lia; reflexivity). assert (U2 : up (a - b - 1) = 1) by (unfold up; rewrite Z.max_l by lia; reflexivity).
      assert (U3 : up (- (a - b - 1)) = 2 * up (- (a - b))) by (unfold up; rewrite !Z.max_r by lia; rewrite <- Z.pow_succ_r by lia; f_equal; lia).
      rewrite U3, U2. rewrite U1 in E. assert (F : 2 ^ a * up (- (a - b)) = 2 ^ b) by (unfold up; rewrite Z.max_r by lia; rewrite <- Z.pow_add_r by lia; f_equal; lia).
      pose proof (up_pos (- (a - b))). clear - A B E F H. apply Z.ltb_lt in E. nia.
    + assert (U1 : up (- (a - b)) = 1) by (unfold up; rewrite Z.max_l by lia; reflexivity). assert (U2 : up (- (a - b - 1)) = 1) by (unfold up; rewrite Z.max_l by lia; reflexivity).
      assert (U3 : up (a - b) = 2 * up (a - b - 1)) by (unfold up; rewrite !Z.max_r by lia; rewrite <- Z.pow_succ_r by lia; f_equal; lia).
      rewrite U2. rewrite U1, U3 in E. assert (F : 2 ^ a = 2 * (2 ^ b * up (a - b - 1))) by (unfold up; rewrite Z.max_r by lia; rewrite <- Z.pow_add_r, <- Z.pow_succ_r by lia; f_equal; lia).
      pose proof (up_pos (a - b - 1)). clear - A B E F H. apply Z.ltb_lt in E. nia.
  - destruct (Z.le_gt_cases a b) as [C|C].
    + assert (U1 : up (a - b) = 1) by (unfold up; rewrite Z.max_l by lia; reflexivity). rewrite U1 in *. assert (F : 2 ^ a * up (- (a - b)) = 2 ^ b) by (unfold up; rewrite Z.max_r by lia; rewrite <- Z.pow_add_r by lia; f_equal; lia).
      pose proof (up_pos (- (a - b))). clear - A B E F H. apply Z.ltb_ge in E. nia.
    + assert (U1 : up (- (a - b)) = 1) by (unfold up; rewrite Z.max_l by lia; reflexivity). rewrite U1 in *. assert (F : 2 ^ a = 2 ^ b * up (a - b)) by (unfold up; rewrite Z.max_r by lia; rewrite <- Z.pow_add_r by lia; f_equal; lia).
      pose proof (up_pos (a - b)). clear - A B E F H. apply Z.ltb_ge in E. nia.
Qed.
(** The mantissa has at most 24 bits, and the leading one unless the exponent is the least *)
Lemma round_div_mono : forall n d k, 0 < d -> k * d <= n -> k <= round_div n d.
Proof.
  intros n d k Hd H. assert (k <= n / d) by (apply Z.div_le_lower_bound; lia). unfold round_div. destruct (2 * (n mod d) <? d); [assumption|]. destruct (d <? 2 * (n mod d)); [lia|]. destruct (Z.even (n / d)); lia.
Qed.
Lemma round_div_upper : forall n d k, 0 < d -> n <= k * d -> round_div n d <= k.
Proof.
  intros n d k Hd H. pose proof (round_div_error n d Hd) as E. set (r := round_div n d) in *. clearbody r. assert (~ k + 1 <= r) by (intro C; assert ((k + 1) * d <= r * d) by nia; lia). lia.
Qed.
Lemma mantissa_range : forall n d, 0 < n -> 0 < d -> 0 <= mantissa n d <= 2 ^ 24 /\ (-149 < last_bit n d -> 2 ^ 23 <= mantissa n d).
Proof.
  intros n d Hn Hd. pose proof (top_bit_spec n d Hn Hd) as T. cbv zeta in T. unfold mantissa. set (t := top_bit n d) in *. assert (EL : last_bit n d = Z.max t (-126) - 23) by reflexivity. set (L := last_bit n d) in *. clearbody L.
  assert (P : 0 < d * up L) by (pose proof (up_pos L); nia). repeat split.
  - apply round_div_mono; [exact P|]. pose proof (up_pos (- L)). rewrite Z.mul_0_l. apply Z.mul_nonneg_nonneg; lia.
  - apply round_div_upper; [exact P|].
    destruct (Z.le_gt_cases t (-126)) as [C|C].
    + assert (EL' : L = -149) by lia. clear EL. subst L. assert (D : t <= -126) by exact C. replace (up (-149)) with 1 by reflexivity. replace (up (- -149)) with (2 ^ 149) by reflexivity.
      assert (U : up t = 1) by (unfold up; rewrite Z.max_l by lia; reflexivity). rewrite U in T. assert (F : 2 ^ 126 <= up (- t)) by (unfold up; rewrite Z.max_r by lia; apply Z.pow_le_mono_r; lia).
      replace (2 ^ 149) with (2 ^ 23 * 2 ^ 126) by reflexivity. clear - T F Hn Hd. set (x := 2 ^ 126) in *. clearbody x. assert (n * x <= n * up (- t)) by nia. lia.
    + assert (EL' : t - L = 23) by lia. pose proof (up_split L (t - L) ltac:(lia)) as S. replace (L + (t - L)) with t in S by lia. replace (- L - (t - L)) with (- t) in S by lia. rewrite EL' in S. pose proof (up_pos t). pose proof (up_pos (- t)). pose proof (up_pos L). pose proof (up_pos (- L)).
      (* n / d < 2 * up t / up (-t) ; up t * up(-L) = 2^23 * up L * up(-t) *)
      set (x := up t) in *. set (y := up (- t)) in *. set (u := up L) in *. set (v := up (- L)) in *. clearbody x y u v. clear EL EL' P C. replace (2 ^ 24) with (2 * 2 ^ 23) by reflexivity. set (c := 2 ^ 23) in *. clearbody c.
      assert (n * y * v <= 2 * (d * (x * v))) by nia. rewrite S in H3. assert (y * (n * v) <= y * (2 * c * (d * u))) by nia. nia.
  - intro HL. assert (C : -126 < t) by lia. assert (EL' : t - L = 23) by lia. apply round_div_mono; [exact P|]. pose proof (up_split L 23 ltac:(lia)) as S. replace (L + 23) with t in S by lia. replace (- L - 23) with (- t) in S by lia.
    pose proof (up_pos t). pose proof (up_pos (- t)). pose proof (up_pos L). pose proof (up_pos (- L)). set (x := up t) in *. set (y := up (- t)) in *. set (u := up L) in *. set (v := up (- L)) in *. clearbody x y u v. clear EL EL' P C HL. set (c := 2 ^ 23) in *. clearbody c.
    assert (d * (x * v) <= n * y * v) by nia. rewrite S in H3. assert (y * (c * (d * u)) <= y * (n * v)) by nia. nia.
Qed.
Lemma last_bit_low : forall n d, -149 <= last_bit n d.
Proof. intros. unfold last_bit. lia. Qed.
Lemma val32_word : forall L M (s : bool), -149 <= L -> 0 <= M <= 2 ^ 24 -> (-149 < L -> 2 ^ 23 <= M) -> (L + 149) * 2 ^ 23 + M < 255 * 2 ^ 23 ->
  val32 ((L + 149) * 2 ^ 23 + M + (if s then 2 ^ 31 else 0)) = Ok (q2 (if s then - M else M) L).
Proof.
  intros L M s HL HM Hn Hw. unfold val32. set (w := (L + 149) * 2 ^ 23 + M) in *. assert (Hw0 : 0 <= w) by (subst w; lia).
  assert (Ea : (w + (if s then 2 ^ 31 else 0)) mod 2 ^ 31 = w). { destruct s; [rewrite <- (Z.mul_1_l (2 ^ 31)) at 1; rewrite Z.mod_add by lia|rewrite Z.add_0_r]; apply Z.mod_small; lia. }
  assert (Es : (2 ^ 31 <=? w + (if s then 2 ^ 31 else 0)) = s) by (destruct s; lia). rewrite Ea, Es.
  assert (C : (L = -149 /\ M < 2 ^ 23) \/ (2 ^ 23 <= M < 2 ^ 24) \/ M = 2 ^ 24) by lia. destruct C as [[C1 C2]|[C|C]].
  - assert (E1 : w / 2 ^ 23 = 0) by (apply Z.div_small; lia). assert (E2 : w mod 2 ^ 23 = M) by (rewrite Z.mod_small by lia; lia). rewrite E1, E2. cbn [Z.eqb]. subst L. reflexivity.
  - assert (E1 : w / 2 ^ 23 = L + 150) by (symmetry; apply (Z.div_unique w (2 ^ 23) (L + 150) (M - 2 ^ 23)); lia). assert (E2 : w mod 2 ^ 23 = M - 2 ^ 23) by (symmetry; apply (Z.mod_unique w (2 ^ 23) (L + 150) (M - 2 ^ 23)); lia). rewrite E1, E2.
    assert (F1 : (L + 150 =? 255) = false) by lia. assert (F2 : (L + 150 =? 0) = false) by lia. rewrite F1, F2. replace (M - 2 ^ 23 + 2 ^ 23) with M by lia. replace (L + 150 - 150) with L by lia. reflexivity.
  - assert (E1 : w / 2 ^ 23 = L + 151) by (symmetry; apply (Z.div_unique w (2 ^ 23) (L + 151) 0); lia). assert (E2 : w mod 2 ^ 23 = 0) by (symmetry; apply (Z.mod_unique w (2 ^ 23) (L + 151) 0); lia). rewrite E1, E2.
    assert (F1 : (L + 151 =? 255) = false) by lia. assert (F2 : (L + 151 =? 0) = false) by lia. rewrite F1, F2. replace (L + 151 - 150) with (L + 1) by lia. subst M. f_equal.
    rewrite <- (q2_shift _ L 1) by lia. destruct s; f_equal.
Qed.
(** What is read back after packing *)
Definition nearest (q : Q) : Q :=
  if Z.abs (Qnum q) =? 0 then 0%Q
  else let n := Z.abs (Qnum q) in let d := Zpos (Qden q) in q2 (if Qnum q <? 0 then - mantissa n d else mantissa n d) (last_bit n d).
Lemma round32_nearest : forall q w, pack32 q = Ok w -> val32 w = Ok (nearest q) /\ 0 <= w < 2 ^ 32.
Proof.
  intros q w H. unfold pack32, nearest in *. destruct (Z.abs (Qnum q) =? 0) eqn:E0.
  - assert (E : Qnum q <? 0 = false) by lia. rewrite E in H. cbn in H. assert (w = 0) by congruence. subst w. split; [reflexivity|lia].
  - pose proof (mantissa_range (Z.abs (Qnum q)) (Zpos (Qden q)) ltac:(lia) ltac:(lia)) as [M1 M2]. pose proof (last_bit_low (Z.abs (Qnum q)) (Zpos (Qden q))) as L0.
    set (M := mantissa _ _) in *. set (L := last_bit _ _) in *. clearbody M L. destruct (255 * 2 ^ 23 <=? (L + 149) * 2 ^ 23 + M) eqn:B; [discriminate|]. apply Z.leb_gt in B.
    pose proof (val32_word L M (Qnum q <? 0) L0 M1 M2 B) as V. destruct (Qnum q <? 0) eqn:S.
    + assert (Hw : w = (L + 149) * 2 ^ 23 + M + 2 ^ 31) by congruence. subst w. split; [exact V|lia].
    + assert (Hw : w = (L + 149) * 2 ^ 23 + M) by congruence. subst w. rewrite Z.add_0_r in V. split; [exact V|lia].
Qed.
Lemma q2_mul : forall (m e : Z), (q2 m e * inject_Z (up (- e)) == inject_Z (m * up e))%Q.
Proof.
  intros m e. unfold q2. rewrite Qred_correct. unfold Qeq, Qmult, inject_Z. cbn [Qnum Qden]. rewrite Pos.mul_1_r, Z2Pos.id by (apply up_pos). lia.
Qed.
Lemma up_le : forall a b, a <= b -> up a * up (- b) <= up b * up (- a).
Proof. intros a b H. unfold up. rewrite <- !Z.pow_add_r by lia. apply Z.pow_le_mono_r; lia. Qed.
Lemma single_parts : forall q m e, (q == m * up e # Z.to_pos (up (- e)))%Q -> Z.abs (Qnum q) * up (- e) = Z.abs m * up e * Zpos (Qden q).
Proof.
  intros q m e H. unfold Qeq in H. cbn [Qnum Qden] in H. rewrite Z2Pos.id in H by (apply up_pos). rewrite <- (Z.abs_eq (up (- e))) by (pose proof (up_pos (- e)); lia). rewrite <- Z.abs_mul, H, !Z.abs_mul. rewrite (Z.abs_eq (up e)) by (pose proof (up_pos e); lia). lia.
Qed.
Theorem single_nearest : forall q, single q -> (exists w, pack32 q = Ok w) /\ nearest q = Qred q.
Proof.
  intros q (m & e & Hm & He & Hq). pose proof (single_parts q m e Hq) as P. unfold pack32, nearest. destruct (Z.abs (Qnum q) =? 0) eqn:E0.
  - split.
    + cbn [Z.leb]. eexists. assert (E : 255 * 2 ^ 23 <=? 0 = false) by reflexivity. rewrite E. reflexivity.
    + assert (E : (q == 0)%Q) by (unfold Qeq; cbn [Qnum Qden]; lia). rewrite (Qred_complete q 0 E). reflexivity.
  - set (n := Z.abs (Qnum q)) in *. set (d := Zpos (Qden q)) in *. assert (Hn : 0 < n) by lia. assert (Hd : 0 < d) by lia.
    pose proof (top_bit_spec n d Hn Hd) as T. cbv zeta in T. set (t := top_bit n d) in *.
    assert (Ht : t <= 23 + e).
    { destruct (Z.le_gt_cases t (23 + e)) as [C|C]; [exact C|exfalso]. pose proof (up_le (24 + e) t ltac:(lia)) as U. pose proof (up_split e 24 ltac:(lia)) as S. replace (e + 24) with (24 + e) in S by lia. replace (- e - 24) with (- (24 + e)) in S by lia.
      pose proof (up_pos t). pose proof (up_pos (- t)). pose proof (up_pos e). pose proof (up_pos (- e)). pose proof (up_pos (24 + e)). pose proof (up_pos (- (24 + e))). clearbody n d t. clear Hq E0 C.
      set (a := up t) in *. set (b := up (- t)) in *. set (u := up e) in *. set (v := up (- e)) in *. set (x := up (24 + e)) in *. set (y := up (- (24 + e))) in *. clearbody a b u v x y. set (c := 2 ^ 24) in *. clearbody c. set (k := Z.abs m) in *. assert (Hk : 0 <= k) by (subst k; lia). clearbody k.
      (* d a <= n b ; n v = k u d ; k < c ; x b <= a y ; x v = c u y *)
      assert (A1 : d * a * v <= k * u * d * b) by (replace (k * u * d * b) with (n * v * b) by (rewrite P; ring); nia).
      assert (A2 : a * v <= k * u * b) by nia. assert (A3 : a * v * y <= k * u * b * y) by nia. assert (A4 : x * b * v <= k * u * b * y) by nia. assert (A5 : b * (c * (u * y)) <= b * (k * (u * y))) by (rewrite <- S; nia). assert (0 < u * y) by nia. assert (c * (u * y) <= k * (u * y)) by nia. nia. }
    assert (HL : last_bit n d <= e) by (unfold last_bit; fold t; lia). pose proof (last_bit_low n d) as HL0. pose proof (mantissa_range n d Hn Hd) as [M1 M2].
    assert (EM : mantissa n d = Z.abs m * 2 ^ (e - last_bit n d)).
    { unfold mantissa. set (L := last_bit n d) in *. pose proof (up_split L (e - L) ltac:(lia)) as S. replace (L + (e - L)) with e in S by lia. replace (- L - (e - L)) with (- e) in S by lia.
      rewrite <- (round_div_scale _ _ (up (- e))); [|pose proof (up_pos L); nia|apply up_pos].
      replace (n * up (- L) * up (- e)) with (Z.abs m * 2 ^ (e - L) * (d * up L * up (- e))); [apply round_div_exact; pose proof (up_pos L); pose proof (up_pos (- e)); nia|].
      transitivity (Z.abs m * d * (2 ^ (e - L) * (up L * up (- e)))); [ring|]. rewrite <- S. transitivity (Z.abs m * up e * d * up (- L)); [ring|]. rewrite <- P. ring. }
    set (L := last_bit n d) in *. split.
    + assert (B : (L + 149) * 2 ^ 23 + mantissa n d < 255 * 2 ^ 23).
      { destruct (Z.eq_dec (mantissa n d) (2 ^ 24)) as [C|C].
        - exfalso. 
          (* n up(-L) = 2^24 d up L contradicts n up(-t) < 2 d up t, L >= t - 23 *)
          assert (X : n * up (- L) = mantissa n d * (d * up L)).
          { rewrite EM. pose proof (up_split L (e - L) ltac:(lia)) as S. replace (L + (e - L)) with e in S by lia. replace (- L - (e - L)) with (- e) in S by lia. pose proof (up_pos (- e)) as Ue.
            apply (Z.mul_reg_r _ _ (up (- e))); [lia|]. transitivity (n * up (- e) * up (- L)); [ring|]. rewrite P. transitivity (Z.abs m * d * (up e * up (- L))); [ring|]. rewrite S. ring. }
          rewrite C in X. pose proof (up_le (t - 23) L ltac:(unfold L, last_bit; fold t; lia)) as U. pose proof (up_split (t - 23) 23 ltac:(lia)) as S. replace (t - 23 + 23) with t in S by lia. replace (- (t - 23) - 23) with (- t) in S by lia.
          pose proof (up_pos t). pose proof (up_pos (- t)). pose proof (up_pos L). pose proof (up_pos (- L)). pose proof (up_pos (t - 23)). pose proof (up_pos (- (t - 23))). replace (2 ^ 24) with (2 * 2 ^ 23) in X by reflexivity.
          set (a := up t) in *. set (b := up (- t)) in *. set (u := up L) in *. set (v := up (- L)) in *. set (x := up (t - 23)) in *. set (y := up (- (t - 23))) in *. set (c := 2 ^ 23) in *. clear - T X U S Hn Hd H H0 H1 H2 H3 H4. clearbody n d a b u v x y c.
          (* n b < 2 d a ; n v = 2 c d u ; x v <= u y ; a y = c x b *)
          assert (n * b * v < 2 * (d * a) * v) by nia. assert (2 * c * (d * u) * b < 2 * (d * a) * v) by (rewrite <- X; nia). assert (c * u * b < a * v) by nia. assert (c * u * b * y < a * v * y) by nia. assert (c * u * b * y < c * x * b * v) by (replace (c * x * b * v) with (a * y * v) by (rewrite S; ring); nia). nia.
        - assert (L <= 104) by lia. lia. }
      assert (E : 255 * 2 ^ 23 <=? (L + 149) * 2 ^ 23 + mantissa n d = false) by lia. rewrite E. eexists. reflexivity.
    + rewrite EM. rewrite (Qred_complete _ _ Hq). destruct (Qnum q <? 0) eqn:Sg.
      * assert (Em : - (Z.abs m * 2 ^ (e - L)) = - Z.abs m * 2 ^ (e - L)) by ring. rewrite Em, q2_shift by lia. replace (L + (e - L)) with e by lia. unfold q2. f_equal. f_equal. f_equal. unfold Qeq in Hq. cbn [Qnum Qden] in Hq. rewrite Z2Pos.id in Hq by (apply up_pos). pose proof (up_pos e). pose proof (up_pos (- e)). assert (m < 0) by (clear - Hq Sg H H0 Hd; subst d; nia). lia.
      * rewrite q2_shift by lia. replace (L + (e - L)) with e by lia. unfold q2. f_equal. f_equal. f_equal. unfold Qeq in Hq. cbn [Qnum Qden] in Hq. rewrite Z2Pos.id in Hq by (apply up_pos). pose proof (up_pos e). pose proof (up_pos (- e)). assert (0 <= m) by (clear - Hq Sg H H0 Hd; subst d; nia). lia.
Qed.
(** * Rounding errors *)
Lemma abs_frac : forall (q : Q), (Qabs q == Z.abs (Qnum q) # Qden q)%Q.
Proof. intros [n d]. reflexivity. Qed.
(** The error is at most half of the last bit *)
Lemma half_bit : forall q, Qnum q <> 0 -> let L := last_bit (Z.abs (Qnum q)) (Zpos (Qden q)) in (Qabs (nearest q - q) <= up L # Z.to_pos (2 * up (- L)))%Q.
Proof.
  intros q Hq L. unfold nearest. assert (E0 : (Z.abs (Qnum q) =? 0) = false) by lia. rewrite E0. fold L.
  pose proof (round_div_error (Z.abs (Qnum q) * up (- L)) (Zpos (Qden q) * up L) ltac:(pose proof (up_pos L); nia)) as R.
  change (round_div (Z.abs (Qnum q) * up (- L)) (Zpos (Qden q) * up L)) with (mantissa (Z.abs (Qnum q)) (Zpos (Qden q))) in R. set (M := mantissa _ _) in *. clearbody M.
  pose proof (up_pos L) as UL. pose proof (up_pos (- L)) as UL'. set (u := up L) in *. set (v := up (- L)) in *.
  assert (EQ : ((q2 (if Qnum q <? 0 then - M else M) L - q) == ((if Qnum q <? 0 then - M else M) * u * Zpos (Qden q) - Qnum q * v) # Z.to_pos (v * Zpos (Qden q)))%Q).
  { unfold q2. rewrite Qred_correct. fold u v. unfold Qeq, Qminus, Qplus, Qopp. cbn [Qnum Qden]. rewrite Pos2Z.inj_mul, !Z2Pos.id by nia. ring. }
  rewrite EQ, abs_frac. cbn [Qnum Qden]. unfold Qle. cbn [Qnum Qden]. rewrite !Z2Pos.id by nia. set (d := Zpos (Qden q)) in *. assert (Hd : 0 < d) by (subst d; lia). 
  assert (AB : Z.abs ((if Qnum q <? 0 then - M else M) * u * d - Qnum q * v) = Z.abs (M * (d * u) - Z.abs (Qnum q) * v)).
  { destruct (Qnum q <? 0) eqn:S; [|rewrite Z.abs_eq with (n := Qnum q) by lia; f_equal; ring]. rewrite Z.abs_neq with (n := Qnum q) by lia. rewrite <- Z.abs_opp. f_equal. ring. }
  rewrite AB. clearbody u v d. set (x := Z.abs (M * (d * u) - Z.abs (Qnum q) * v)) in *. clearbody x. clear - R UL UL' Hd. nia.
Qed.
Theorem nearest_error : forall q, (Qabs (nearest q - q) <= Qabs q * (1 # 2 ^ 24))%Q \/ (Qabs (nearest q - q) <= 1 # 2 ^ 150)%Q.
Proof.
  intro q. destruct (Z.eq_dec (Qnum q) 0) as [E|E].
  - right. unfold nearest. rewrite E. cbn [Z.abs Z.eqb]. assert (X : (0 - q == 0)%Q) by (unfold Qeq, Qminus, Qplus, Qopp; cbn [Qnum Qden]; lia). rewrite X. unfold Qle. cbn. lia.
  - pose proof (half_bit q E) as H. cbv zeta in H. pose proof (top_bit_spec (Z.abs (Qnum q)) (Zpos (Qden q)) ltac:(lia) ltac:(lia)) as T. cbv zeta in T. set (t := top_bit _ _) in *. assert (EL : last_bit (Z.abs (Qnum q)) (Zpos (Qden q)) = Z.max t (-126) - 23) by reflexivity. set (L := last_bit _ _) in *. clearbody L t.
    destruct (Z.le_gt_cases t (-126)) as [C|C].
    + right. assert (EL2 : L = -149) by lia. clear EL. subst L. eapply Qle_trans; [exact H|]. unfold Qle. cbn [Qnum Qden]. vm_compute. intro X. discriminate X.
    + left. eapply Qle_trans; [exact H|]. rewrite abs_frac. unfold Qle, Qmult. cbn [Qnum Qden]. pose proof (up_pos L) as UL. pose proof (up_pos (- L)) as UL'. pose proof (up_pos t) as UT. pose proof (up_pos (- t)) as UT'. rewrite Z2Pos.id by lia.
      pose proof (up_split L 23 ltac:(lia)) as S. replace (L + 23) with t in S by lia. replace (- L - 23) with (- t) in S by lia. rewrite Pos2Z.inj_mul. change (Zpos (2 ^ 24)) with (2 * 2 ^ 23). set (d := Zpos (Qden q)) in *. assert (Hd : 0 < d) by (subst d; lia). set (n := Z.abs (Qnum q)) in *. set (c := 2 ^ 23) in *. assert (Hc : 0 < c) by (subst c; lia).
      set (u := up L) in *. set (v := up (- L)) in *. set (x := up t) in *. set (y := up (- t)) in *. clearbody n d c u v x y. clear - T S UL UL' UT UT' Hd Hc. destruct T as [T _].
      (* d x <= n y ; x v = c u y  |- u * (d * 2c) <= n * 1 * (2 * v) *)
      assert (A : d * x * v <= n * y * v) by nia. assert (B : d * (c * (u * y)) <= n * y * v) by (rewrite <- S; nia). assert (y * (d * c * u) <= y * (n * v)) by nia. nia.
Qed.
(** Integers: stored exactly up to 2^24, and always as integers *)
Lemma int_single : forall z, Z.abs z <= 2 ^ 24 -> single (inject_Z z).
Proof.
  intros z H. destruct (Z.eq_dec (Z.abs z) (2 ^ 24)) as [E|E].
  - exists (z / 2), 1. repeat split; [| lia|lia|].
    + destruct (Z.abs_spec z) as [[_ A]|[_ A]]; [assert (z = 2 ^ 24) by lia|assert (z = - 2 ^ 24) by lia]; subst z; reflexivity.
    + destruct (Z.abs_spec z) as [[_ A]|[_ A]]; [assert (z = 2 ^ 24) by lia|assert (z = - 2 ^ 24) by lia]; subst z; reflexivity.
  - exists z, 0. repeat split; [lia|lia|lia|]. unfold Qeq, inject_Z. cbn. lia.
Qed.
Definition integral (q : Q) : Prop := exists z, q = inject_Z z.
Lemma Qred_int : forall z, Qred (inject_Z z) = inject_Z z.
Proof. intro z. apply Qcanon.Qred_identity. cbn. apply Z.gcd_1_r. Qed.
Lemma nearest_int : forall z, integral (nearest (inject_Z z)).
Proof.
  intro z. destruct (Z.le_gt_cases (Z.abs z) (2 ^ 24)) as [C|C].
  - destruct (single_nearest _ (int_single z C)) as [_ E]. rewrite E, Qred_int. exists z. reflexivity.
  - unfold nearest. cbn [inject_Z Qnum Qden]. assert (E0 : (Z.abs z =? 0) = false) by lia. rewrite E0. set (M := if z <? 0 then _ else _). pose proof (top_bit_spec (Z.abs z) 1 ltac:(lia) ltac:(lia)) as T. cbv zeta in T.
    assert (HL : 0 <= last_bit (Z.abs z) 1). { unfold last_bit. set (t := top_bit _ _) in *. clearbody t. assert (~ t < 23); [|lia]. intro D. destruct T as [_ T]. pose proof (up_pos (- t)) as P.
      assert (up t <= 2 ^ 22) by (unfold up; apply Z.pow_le_mono_r; lia). nia. }
    unfold q2. assert (U : up (- last_bit (Z.abs z) 1) = 1) by (unfold up; rewrite Z.max_l by lia; reflexivity). rewrite U. exists (M * up (last_bit (Z.abs z) 1)). change (M * up (last_bit (Z.abs z) 1) # Z.to_pos 1)%Q with (inject_Z (M * up (last_bit (Z.abs z) 1))). apply Qred_int.
Qed.
(** Numbers below 2^127 can be stored *)
Lemma pack32_ok : forall q, (Qabs q < inject_Z (2 ^ 127))%Q -> exists w, pack32 q = Ok w.
Proof.
  intros q H. unfold pack32. destruct (Z.abs (Qnum q) =? 0) eqn:E0.
  - assert (E : 255 * 2 ^ 23 <=? 0 = false) by reflexivity. rewrite E. eexists. reflexivity.
  - set (n := Z.abs (Qnum q)) in *. set (d := Zpos (Qden q)). assert (Hnd : n < 2 ^ 127 * d) by (unfold Qlt, Qabs, inject_Z in H; destruct q as [a b]; cbn [Qnum Qden] in *; subst n d; lia).
    pose proof (top_bit_spec n d ltac:(lia) ltac:(lia)) as T. cbv zeta in T. pose proof (mantissa_range n d ltac:(lia) ltac:(lia)) as [M1 _]. assert (EL : last_bit n d = Z.max (top_bit n d) (-126) - 23) by reflexivity. set (t := top_bit n d) in *. set (L := last_bit n d) in *. set (M := mantissa n d) in *. clearbody t L M.
    assert (Ht : t <= 126). { assert (~ 126 < t); [|lia]. intro D. destruct T as [T _]. assert (U : up (- t) = 1) by (unfold up; rewrite Z.max_l by lia; reflexivity). assert (U2 : 2 ^ 127 <= up t) by (unfold up; apply Z.pow_le_mono_r; lia). rewrite U in T. assert (0 < d) by (subst d; lia). set (c := 2 ^ 127) in *. clearbody c d. nia. }
    assert (E : 255 * 2 ^ 23 <=? (L + 149) * 2 ^ 23 + M = false) by lia. rewrite E. eexists. reflexivity.
Qed.
