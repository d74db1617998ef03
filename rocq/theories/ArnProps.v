(** Property C97: Arina files. *)
From Coq Require Import QArith Permutation Sorted.
From Verif Require Import Base DistModel RowMajor SfsModel ArnModel.
Local Open Scope Z_scope.

(** * Specification *)
(** The image at a position of the file *)
Inductive image : list dataset -> Z -> dataset -> Z -> Prop :=
| image_here : forall d l i, 0 <= i < s_count d -> image (d :: l) i d i
| image_later : forall d l k e i, 0 <= s_count d -> image l k e i -> image (d :: l) (s_count d + k) e i.
Definition square (s : Z) (file : list dataset) : Prop := file <> [] /\ Forall (fun d => s_height d = s /\ s_width d = s /\ 0 <= s_count d) file.
Fixpoint total (file : list dataset) : Z := match file with [] => 0 | d :: l => s_count d + total l end.
(** The shape of the scan *)
Definition scan (n : Z) (v : nav) (a b : Z) : Prop :=
  n = a * b /\ 0 <= a /\ 0 <= b /\
  match v with
  | Square => a = b
  | Scalar (Dim m) => a = m /\ m <> 0
  | Scalar Auto => False
  | Pair (Dim x) (Dim y) => a = x /\ b = y
  | Pair (Dim x) Auto => a = x /\ x <> 0
  | Pair Auto (Dim y) => b = y /\ y <> 0
  | Pair Auto Auto => False
  end.
Definition fits (t : ty) (p : Z) : Prop := match t with Float => True | UInt b => 0 <= p < 2 ^ b | SInt b => 1 <= b /\ - 2 ^ (b - 1) <= p < 2 ^ (b - 1) end.
(** Types of the result *)
Definition result_type (dtype : option ty) (file : list dataset) (t : ty) : Prop :=
  match dtype with
  | Some u => t = u
  | None => exists l d, file = l ++ [d] /\ (s_type d = UInt 32 -> t = UInt 16) /\ (s_type d <> UInt 32 -> t = s_type d)
  end.
Definition zsum (f : Z -> Z) (n : Z) : Z := fold_right Z.add 0 (map f (zseq 0 (Z.to_nat n))).
Definition block (b : Z) (img : Z -> Z -> Z) (r c : Z) : Z := zsum (fun i => zsum (fun j => img (b * r + i) (b * c + j)) b) b.
Definition is_median (l : list Q) (m : Q) : Prop :=
  exists a x b, Sorted Qle (a ++ x ++ b) /\ Permutation l (a ++ x ++ b) /\ List.length a = List.length b /\ ((exists y, x = [y] /\ m == y) \/ exists y z, x = [y; z] /\ m * 2 == y + z)%Q.

(** * The scan *)
Theorem C97_scan : forall n v a b, 0 <= n -> scan n v a b -> nav_shape n v = Ok (a, b).
Proof.
  intros n v a b N (-> & A & B & H). unfold nav_shape. destruct v as [|[|m]|[|x] [|y]]; cbn [quotient bind fst snd]; try contradiction.
  - subst b. rewrite Z.sqrt_square by exact A. cbn [fst snd]. rewrite Z.eqb_refl. reflexivity.
  - destruct H as [-> M]. unfold quotient. destruct m as [|m|m]; [congruence| |lia]; cbn [bind fst snd]; rewrite Z.mul_comm, Z.div_mul by lia; rewrite Z.mul_comm, Z.eqb_refl; reflexivity.
  - destruct H as [-> M]. unfold quotient. destruct y as [|y|y]; [congruence| |lia]; cbn [bind fst snd]; rewrite Z.div_mul by lia; rewrite Z.eqb_refl; reflexivity.
  - destruct H as [-> M]. unfold quotient. destruct x as [|x|x]; [congruence| |lia]; cbn [bind fst snd]; rewrite Z.mul_comm, Z.div_mul by lia; rewrite Z.mul_comm, Z.eqb_refl; reflexivity.
  - destruct H as [-> ->]. rewrite Z.eqb_refl. reflexivity.
Qed.
(** Other shapes are refused *)
Theorem C97_no_scan : forall n v a b, nav_shape n v = Ok (a, b) -> n = a * b /\ (0 <= a -> 0 <= b -> scan n v a b).
Proof.
  intros n v a b H. assert (N : n = a * b).
  { unfold nav_shape in H. destruct v as [|[|m]|[|x] [|y]]; cbn [quotient bind fst snd] in H; try discriminate H; try (destruct m as [|m|m]); try (destruct x as [|x|x]); try (destruct y as [|y|y]); cbn [quotient bind fst snd] in H; try discriminate H; match type of H with (if ?c then _ else _) = _ => destruct c eqn:E; [|discriminate H] end; apply Z.eqb_eq in E; injection H as <- <-; exact E. }
  split; [exact N|]. intros A B. split; [exact N|]. split; [exact A|]. split; [exact B|].
  unfold nav_shape in H. destruct v as [|[|m]|[|x] [|y]]; cbn [quotient bind fst snd] in H; try discriminate H; try (destruct m as [|m|m]); try (destruct x as [|x|x]); try (destruct y as [|y|y]); cbn [quotient bind fst snd] in H; try discriminate H; match type of H with (if ?c then _ else _) = _ => destruct c; [|discriminate H] end; injection H as H1 H2; lia.
Qed.

(** * Images *)
Lemma mapM_spec : forall A B (f : A -> res B) g l, (forall x, In x l -> f x = Ok (g x)) -> mapM f l = Ok (map g l).
Proof. intros A B f g l. induction l as [|x l IH]; intro H; [reflexivity|]. cbn [mapM map]. rewrite (H x (or_introl eq_refl)). cbn [bind]. rewrite IH by (intros; apply H; right; assumption). reflexivity. Qed.
Lemma image_nth : forall A (g : dataset -> Z -> A) file k d i, image file k d i -> nth_error (List.concat (map (fun d => map (g d) (zseq 0 (Z.to_nat (s_count d)))) file)) (Z.to_nat k) = Some (g d i) /\ 0 <= k < total file \/ ~ Forall (fun d => 0 <= s_count d) file.
Proof.
  intros A g file k d i H. induction H as [d l i I|d l k e i N H IH]; cbn [map List.concat total].
  - destruct (Forall_dec (fun d => 0 <= s_count d) (fun d => Z_le_dec 0 (s_count d)) l) as [F|F]; [|right; intro K; inversion K; contradiction]. left. split.
    + rewrite nth_error_app1 by (rewrite map_length, zseq_length; lia). apply map_nth_error. rewrite nth_error_zseq by lia. f_equal. lia.
    + assert (0 <= total l) by (induction F; cbn [total]; lia). lia.
  - destruct IH as [[IH R]|IH]; [left|right; intro K; inversion K; contradiction]. split; [|lia]. rewrite nth_error_app2 by (rewrite map_length, zseq_length; lia). rewrite map_length, zseq_length. replace (Z.to_nat (s_count d + k) - Z.to_nat (s_count d))%nat with (Z.to_nat k) by lia. exact IH.
Qed.
Lemma image_exists : forall file k, Forall (fun d => 0 <= s_count d) file -> 0 <= k < total file -> exists d i, image file k d i.
Proof.
  induction file as [|d file IH]; intros k F K; cbn [total] in K; [lia|]. inversion F; subst. destruct (Z_lt_dec k (s_count d)) as [L|L]; [exists d, k; constructor; lia|]. destruct (IH (k - s_count d) ltac:(assumption) ltac:(lia)) as (e & i & I). exists e, i. replace k with (s_count d + (k - s_count d)) by lia. constructor; assumption.
Qed.
Definition pix (b : Z) (img : Z -> Z -> Q) : Z -> Z -> Q := if b =? 1 then img else block_mean b img.
Definition value (t : ty) (b : Z) (f : option flat) (d : dataset) (i r c : Z) : Q := cast t (pix b (fun r c => (cast t (inject_Z (s_at d i r c)) * factor f r c)%Q) r c).
Definition flat_ok (s : Z) (f : option flat) : Prop := match f with Some f => f_height f = s /\ f_width f = s | None => True end.
Lemma total_sum : forall file, fold_right Z.add 0 (map s_count file) = total file.
Proof. induction file as [|d file IH]; [reflexivity|]. cbn [map fold_right total]. rewrite IH. reflexivity. Qed.
Lemma array_typed : forall dtype file l d t, file = l ++ [d] -> result_type dtype file t -> array_type dtype None (s_type d) = t.
Proof.
  intros dtype file l d t E H. unfold array_type. destruct dtype as [u|]; [symmetry; exact H|]. destruct H as (l' & d' & E' & H1 & H2). rewrite E in E'. apply app_inj_tail in E'. destruct E' as [<- <-].
  destruct (s_type d) as [b|b|]; try (symmetry; apply H2; discriminate). destruct (Z.eq_dec b 32) as [-> | N]; [symmetry; apply H1; reflexivity|]. rewrite H2 by congruence. destruct b as [|p|p]; try reflexivity. repeat (destruct p as [p|p|]; try reflexivity). contradiction N. reflexivity.
Qed.
Lemma processed : forall t s b f d i, 1 <= b -> 1 <= s -> s_height d = b * s -> s_width d = b * s -> flat_ok (b * s) f -> exists g, process t s s b f d i = Ok g /\ forall r c, 0 <= r < s -> 0 <= c < s -> g r c = value t b f d i r c.
Proof.
  intros t s b f d i B S H W F. unfold process. assert (FK : (match f with Some f => if (f_height f =? s_height d) && (f_width f =? s_width d) then Ok tt else Err ValueError | None => Ok tt end) = Ok tt). { destruct f as [f|]; [|reflexivity]. destruct F as [F1 F2]. rewrite H, W, F1, F2, Z.eqb_refl. reflexivity. }
  rewrite FK. cbn [bind]. unfold bin2d. rewrite H, W. destruct (Z.eqb_spec b 1) as [-> | N].
  - cbn [bind]. unfold store. rewrite !Z.mul_1_l, Z.eqb_refl. cbn [orb andb]. eexists. split; [reflexivity|]. intros r c R C. unfold value, pix. cbn [Z.eqb Pos.eqb]. destruct (Z.eqb_spec s 1) as [-> | M]; [|reflexivity]. replace r with 0 by lia. replace c with 0 by lia. reflexivity.
  - assert (D : b * s / b = s) by (rewrite Z.mul_comm; apply Z.div_mul; lia). rewrite D. replace (b * s * (b * s) =? s * b * s * b) with true by (symmetry; apply Z.eqb_eq; ring). cbn [bind]. unfold store. rewrite Z.eqb_refl. cbn [orb andb]. eexists. split; [reflexivity|]. intros r c R C. unfold value, pix. replace (b =? 1) with false by lia. destruct (Z.eqb_spec s 1) as [-> | M]; [|reflexivity]. replace r with 0 by lia. replace c with 0 by lia. reflexivity.
Qed.
Lemma processed_all : forall t s b f, 1 <= b -> 1 <= s -> flat_ok (b * s) f -> exists g, forall d i, s_height d = b * s -> s_width d = b * s -> process t s s b f d i = Ok (g d i) /\ forall r c, 0 <= r < s -> 0 <= c < s -> g d i r c = value t b f d i r c.
Proof.
  intros t s b f B S F. exists (fun d i => match process t s s b f d i with Ok g => g | Err _ => fun _ _ => 0%Q end). intros d i H W. destruct (processed t s b f d i B S H W F) as (g & E & V). rewrite E. split; [reflexivity|exact V].
Qed.
Lemma read_general : forall v b dtype f ps file s n0 n1 l e, square (b * s) file -> file = l ++ [e] -> 1 <= b -> 1 <= s -> flat_ok (b * s) f -> nav_shape (total file) v = Ok (n0, n1) -> 0 <= n0 -> 0 <= n1 ->
  exists a, arina_reader false v b dtype f ps file = Ok a /\ a_shape a = [n0; n1; s; s] /\ a_scale a = match ps with Some q => (q * 10)%Q | None => 1%Q end /\ a_angstrom a = match ps with Some _ => true | None => false end /\
    forall x y d i, 0 <= x < n0 -> 0 <= y < n1 -> image file (x * n1 + y) d i -> forall r c, 0 <= r < s -> 0 <= c < s -> a_at a x y r c = value (array_type dtype f (s_type e)) b f d i r c.
Proof.
  intros v b dtype f ps file s n0 n1 l e [NE SQ] E B S F NV N0 N1. unfold arina_reader. assert (RV : rev file = e :: rev l) by (rewrite E, rev_app_distr; reflexivity). rewrite total_sum, RV. replace (b =? 0) with false by lia.
  assert (EE : s_height e = b * s /\ s_width e = b * s) by (rewrite Forall_forall in SQ; destruct (SQ e) as (A1 & A2 & _); [rewrite E; apply in_or_app; right; left; reflexivity|split; assumption]). destruct EE as [EH EW]. rewrite EH, EW. assert (D : b * s / b = s) by (rewrite Z.mul_comm; apply Z.div_mul; lia). rewrite D. cbv zeta. rewrite NV. cbn [bind fst snd]. replace ((s <? 0) || (s <? 0)) with false by lia.
  destruct (processed_all (array_type dtype f (s_type e)) s b f B S F) as (g & G).
  assert (M : mapM (process_dataset (array_type dtype f (s_type e)) s s b f) file = Ok (map (fun d => map (g d) (zseq 0 (Z.to_nat (s_count d)))) file)).
  { apply mapM_spec. intros d DI. rewrite Forall_forall in SQ. destruct (SQ d DI) as (D1 & D2 & _). unfold process_dataset. apply mapM_spec. intros i _. exact (proj1 (G d i D1 D2)). }
  rewrite M. cbn [bind]. replace ((n0 <? 0) || (n1 <? 0)) with false by lia. eexists. split; [reflexivity|]. cbn [a_shape a_scale a_angstrom a_at]. split; [reflexivity|]. split; [reflexivity|]. split; [reflexivity|].
  intros x y d i X Y I r c R C. destruct (image_nth _ g _ _ _ _ I) as [[NT _]|K]; [|exfalso; apply K; eapply Forall_impl; [|exact SQ]; cbn; tauto]. rewrite (nth_error_nth _ _ _ NT). assert (DI : In d file) by (clear - I; induction I; [left; reflexivity|right; assumption]). rewrite Forall_forall in SQ. destruct (SQ d DI) as (D1 & D2 & _). apply (proj2 (G d i D1 D2)); assumption.
Qed.
Lemma last_dataset : forall (file : list dataset), file <> [] -> exists l e, file = l ++ [e].
Proof. intros file H. destruct (exists_last H) as (l & e & E). exists l, e. exact E. Qed.

(** * Numbers *)
Lemma truncate_comp : forall p q, (p == q)%Q -> truncate p = truncate q.
Proof.
  intros [a b] [c d] E. unfold Qeq in E. cbn [Qnum Qden] in E. unfold truncate. cbn [Qnum Qden]. rewrite <- (Z.quot_mul_cancel_r a (Zpos b) (Zpos d)) by lia. rewrite <- (Z.quot_mul_cancel_r c (Zpos d) (Zpos b)) by lia. rewrite E. f_equal. lia.
Qed.
Lemma cast_comp : forall t p q, (p == q)%Q -> (cast t p == cast t q)%Q.
Proof. intros t p q E. destruct t; cbn [cast]; [rewrite (truncate_comp p q E); reflexivity|rewrite (truncate_comp p q E); reflexivity|exact E]. Qed.
Lemma cast_fits : forall t p, fits t p -> (cast t (inject_Z p) == inject_Z p)%Q.
Proof.
  intros t p F. destruct t as [b|b|]; cbn [cast fits] in *; [| |reflexivity].
  - assert (T : truncate (inject_Z p) = p) by (unfold truncate, inject_Z; cbn [Qnum Qden]; apply Z.quot_1_r). rewrite T, Z.mod_small by exact F. reflexivity.
  - assert (T : truncate (inject_Z p) = p) by (unfold truncate, inject_Z; cbn [Qnum Qden]; apply Z.quot_1_r). destruct F as [F0 F]. assert (P : 2 ^ b = 2 * 2 ^ (b - 1)) by (rewrite <- Z.pow_succ_r by lia; f_equal; lia). rewrite T, Z.mod_small by lia. replace (p + 2 ^ (b - 1) - 2 ^ (b - 1)) with p by lia. reflexivity.
Qed.

(** * Files *)
(** Every pixel of every image is at its place *)
Theorem C97_pixels : forall v dtype ps file s n0 n1 t, square s file -> 1 <= s -> scan (total file) v n0 n1 -> result_type dtype file t ->
  exists a, arina_reader false v 1 dtype None ps file = Ok a /\ a_shape a = [n0; n1; s; s] /\
    forall x y, 0 <= x < n0 -> 0 <= y < n1 -> (exists d i, image file (n1 * x + y) d i) /\ forall d i r c, image file (n1 * x + y) d i -> 0 <= r < s -> 0 <= c < s -> fits t (s_at d i r c) -> (a_at a x y r c == inject_Z (s_at d i r c))%Q.
Proof.
  intros v dtype ps file s n0 n1 t SQ S SC RT. destruct (last_dataset file (proj1 SQ)) as (l & e & E). assert (P : 0 <= total file) by (destruct SQ as [_ SQ]; clear - SQ; induction SQ as [|d l (_ & _ & H) F IH]; cbn [total]; lia). pose proof SC as (N & N0 & N1 & _). assert (SQ' : square (1 * s) file) by (rewrite Z.mul_1_l; exact SQ).
  destruct (read_general v 1 dtype None ps file s n0 n1 l e SQ' E ltac:(lia) S I (C97_scan _ _ _ _ P SC) N0 N1) as (a & A & SH & _ & _ & V). exists a. split; [exact A|]. split; [exact SH|]. intros x y X Y. split; [apply image_exists; [destruct SQ as [_ SQ]; eapply Forall_impl; [|exact SQ]; cbn; tauto|nia]|].
  intros d i r c IM R C FT. rewrite Z.mul_comm in IM. rewrite (V x y d i X Y IM r c R C). rewrite (array_typed dtype file l e t E RT). unfold value, pix, factor. cbn [Z.eqb Pos.eqb]. rewrite (cast_comp t _ (inject_Z (s_at d i r c))); [apply cast_fits; exact FT|]. rewrite (cast_fits t _ FT). ring.
Qed.
Lemma zseq_sum : forall (g : Z -> Q) (h : Z -> Z) l, (forall i, In i l -> (g i == inject_Z (h i))%Q) -> (fold_right (fun i s => (g i + s)%Q) 0 l == inject_Z (fold_right Z.add 0%Z (map h l)))%Q.
Proof. intros g h l. induction l as [|i l IH]; intro H; [reflexivity|]. cbn [fold_right map]. rewrite inject_Z_plus, (H i (or_introl eq_refl)), IH by (intros; apply H; right; assumption). reflexivity. Qed.
Lemma fold_flat : forall A B (g : B -> Q) (k : A -> list B) l, (fold_right (fun i s => (g i + s)%Q) 0 (flat_map k l) == fold_right (fun x s => (fold_right (fun i s => (g i + s)%Q) 0 (k x) + s)%Q) 0 l)%Q.
Proof.
  intros A B g k l. induction l as [|x l IH]; [reflexivity|]. cbn [flat_map fold_right]. rewrite fold_right_app. rewrite <- IH. generalize (fold_right (fun i s => (g i + s)%Q) 0%Q (flat_map k l)). intro q. induction (k x) as [|y m IM]; cbn [fold_right]; [ring|]. rewrite IM. ring.
Qed.
Lemma fold_map : forall A B (g : B -> Q) (k : A -> B) l, fold_right (fun i s => (g i + s)%Q) 0%Q (map k l) = fold_right (fun x s => (g (k x) + s)%Q) 0%Q l.
Proof. intros. induction l as [|x l IH]; [reflexivity|]. cbn [map fold_right]. rewrite IH. reflexivity. Qed.
Lemma block_sum : forall b (g : Z -> Z -> Q) (h : Z -> Z -> Z) r c, 1 <= b -> (forall i j, 0 <= i < b -> 0 <= j < b -> (g (r * b + i)%Z (c * b + j)%Z == inject_Z (h (b * r + i)%Z (b * c + j)%Z))%Q) -> (block_mean b g r c == inject_Z (block b h r c) / inject_Z (b * b))%Q.
Proof.
  intros b g h r c B H. unfold block_mean. apply Qmult_comp; [|reflexivity]. cbn [box_indices]. rewrite fold_flat. unfold block, zsum. apply zseq_sum. intros i I. apply in_zseq in I. rewrite fold_map, fold_flat. cbn [map fold_right]. apply zseq_sum. intros j J. apply in_zseq in J. rewrite Qplus_0_r. apply H; lia.
Qed.
Lemma sum_bound : forall f m n, 0 <= n -> (forall i, 0 <= i < n -> 0 <= f i <= m) -> 0 <= zsum f n <= n * m.
Proof.
  intros f m n N H. unfold zsum. assert (G : forall k a, (forall i, a <= i < a + Z.of_nat k -> 0 <= f i <= m) -> 0 <= fold_right Z.add 0 (map f (zseq a k)) <= Z.of_nat k * m).
  { induction k as [|k IH]; intros a K; [cbn; lia|]. cbn [zseq map fold_right]. specialize (IH (a + 1) ltac:(intros; apply K; lia)). specialize (K a ltac:(lia)). lia. }
  specialize (G (Z.to_nat n) 0 ltac:(intros; apply H; lia)). rewrite Z2Nat.id in G by lia. exact G.
Qed.
Lemma block_bound : forall b h r c m, 1 <= b -> 0 <= r -> 0 <= c -> (forall i j, 0 <= i -> 0 <= j -> b * r <= i < b * r + b -> b * c <= j < b * c + b -> 0 <= h i j <= m) -> 0 <= block b h r c <= b * (b * m).
Proof. intros b h r c m B R C H. unfold block. apply sum_bound; [lia|]. intros i I. apply sum_bound; [lia|]. intros j J. apply H; nia. Qed.
(** Binning: the mean of each block, cut to a whole number in whole types *)
Theorem C97_binned : forall v b dtype ps file s n0 n1 t, square (b * s) file -> 2 <= b -> 1 <= s -> scan (total file) v n0 n1 -> result_type dtype file t ->
  exists a, arina_reader false v b dtype None ps file = Ok a /\ a_shape a = [n0; n1; s; s] /\
    forall x y d i r c, 0 <= x < n0 -> 0 <= y < n1 -> image file (n1 * x + y) d i -> 0 <= r < s -> 0 <= c < s ->
      (t = Float -> (a_at a x y r c * inject_Z (b * b) == inject_Z (block b (s_at d i) r c))%Q) /\
      (forall m, t <> Float -> (forall r c, 0 <= r < b * s -> 0 <= c < b * s -> 0 <= s_at d i r c <= m) -> fits t m -> (a_at a x y r c == inject_Z (block b (s_at d i) r c / (b * b)))%Q).
Proof.
  intros v b dtype ps file s n0 n1 t SQ B S SC RT. destruct (last_dataset file (proj1 SQ)) as (l & e & E). assert (P : 0 <= total file) by (destruct SQ as [_ SQ]; clear - SQ; induction SQ as [|d l (_ & _ & H) F IH]; cbn [total]; lia). pose proof SC as (N & N0 & N1 & _).
  destruct (read_general v b dtype None ps file s n0 n1 l e SQ E ltac:(lia) S I (C97_scan _ _ _ _ P SC) N0 N1) as (a & A & SH & _ & _ & V). exists a. split; [exact A|]. split; [exact SH|]. intros x y d i r c X Y IM R C. rewrite Z.mul_comm in IM. rewrite (V x y d i X Y IM r c R C). rewrite (array_typed dtype file l e t E RT). unfold value, pix, factor. replace (b =? 1) with false by lia.
  assert (NZ : ~ (inject_Z (b * b) == 0)%Q) by (unfold Qeq, inject_Z; cbn [Qnum Qden]; nia). split.
  - intros ->. cbn [cast]. rewrite (block_sum b _ (s_at d i)); [field; exact NZ|lia|]. intros u w U W. rewrite Qmult_1_r. rewrite !(Z.mul_comm b). reflexivity.
  - intros m NF PX FM.
    assert (CF : forall p, 0 <= p <= m -> fits t p) by (intros p PP; destruct t; cbn [fits] in *; lia).
    assert (BM : (block_mean b (fun r c => (cast t (inject_Z (s_at d i r c)) * 1)%Q) r c == inject_Z (block b (s_at d i) r c) / inject_Z (b * b))%Q).
    { apply block_sum; [lia|]. intros u w U W. rewrite !(Z.mul_comm b). rewrite cast_fits by (apply CF; apply PX; nia). ring. }
    rewrite (cast_comp t _ _ BM). assert (BB : 0 <= block b (s_at d i) r c <= b * (b * m)) by (apply block_bound; [lia|lia|lia|]; intros; apply PX; nia). set (S0 := block b (s_at d i) r c) in *.
    assert (T : truncate (inject_Z S0 / inject_Z (b * b)) = S0 / (b * b)).
    { rewrite (truncate_comp _ (S0 # Z.to_pos (b * b))). - unfold truncate. cbn [Qnum Qden]. rewrite Z2Pos.id by nia. apply Z.quot_div_nonneg; nia. - unfold Qdiv, Qmult, Qinv, inject_Z, Qeq. destruct (b * b) as [|p|p] eqn:Q; [nia| |nia]. cbn [Qnum Qden Z.to_pos]. lia. }
    assert (K : 0 <= S0 / (b * b) <= m). { split; [apply Z.div_pos; nia|]. replace m with (b * (b * m) / (b * b)) by (rewrite Z.mul_assoc, Z.mul_comm; apply Z.div_mul; nia). apply Z.div_le_mono; nia. }
    specialize (CF _ K). clear - CF T NF. destruct t as [n|n|]; [| |congruence]; cbn [cast fits] in *.
    + rewrite T, Z.mod_small by exact CF. reflexivity.
    + destruct CF as [C0 CF]. assert (P : 2 ^ n = 2 * 2 ^ (n - 1)) by (rewrite <- Z.pow_succ_r by lia; f_equal; lia). rewrite T, Z.mod_small by lia. replace (S0 / (b * b) + 2 ^ (n - 1) - 2 ^ (n - 1)) with (S0 / (b * b)) by lia. reflexivity.
Qed.
(** * The flatfield *)
Lemma insert_perm : forall x l, Permutation (x :: l) (insert x l).
Proof. intros x l. induction l as [|y l IH]; [reflexivity|]. cbn [insert]. destruct (Qle_bool x y); [reflexivity|]. rewrite perm_swap. constructor. exact IH. Qed.
Lemma insert_sorted : forall x l, Sorted Qle l -> Sorted Qle (insert x l).
Proof.
  intros x l S. induction S as [|y l S IH H]; [repeat constructor|]. cbn [insert]. destruct (Qle_bool x y) eqn:E; [apply Qle_bool_iff in E; constructor; [constructor; assumption|constructor; exact E]|]. constructor; [exact IH|]. assert (YX : (y <= x)%Q) by (destruct (Qlt_le_dec x y) as [K|K]; [apply Qlt_le_weak in K; apply Qle_bool_iff in K; congruence|exact K]). destruct l as [|z l]; cbn [insert]; [constructor; exact YX|]. inversion H; subst. destruct (Qle_bool x z); constructor; assumption.
Qed.
Lemma sort_ok : forall l, Permutation l (sort l) /\ Sorted Qle (sort l).
Proof. induction l as [|x l [P S]]; [split; constructor|]. cbn [sort fold_right]. fold (sort l). split; [rewrite <- insert_perm; constructor; exact P|apply insert_sorted; exact S]. Qed.
Lemma cut_at : forall A (l : list A) n k, (n + k <= List.length l)%nat -> exists a x b, l = a ++ x ++ b /\ List.length a = n /\ List.length x = k.
Proof.
  intros A l n k H. exists (firstn n l), (firstn k (skipn n l)), (skipn k (skipn n l)). rewrite firstn_skipn, firstn_skipn. split; [reflexivity|]. rewrite !firstn_length, skipn_length. lia.
Qed.
Lemma median_ok : forall l, l <> [] -> is_median l (median l).
Proof.
  intros l NE. destruct (sort_ok l) as [P S]. unfold median. cbv zeta. set (s := sort l) in *. set (n := List.length s). assert (N : (1 <= n)%nat) by (unfold n; rewrite <- (Permutation_length P); destruct l; [congruence|cbn [List.length]; lia]). destruct (Nat.odd n) eqn:O.
  - apply Nat.odd_spec in O. destruct O as [k K]. assert (D : (n / 2 = k)%nat) by (rewrite K; rewrite Nat.mul_comm, Nat.div_add_l by lia; cbn; lia). destruct (cut_at _ s k 1 ltac:(fold n; lia)) as (a & x & b & E & LA & LX). destruct x as [|y [|z x]]; cbn [List.length] in LX; try lia. exists a, [y], b. rewrite <- E. split; [exact S|]. split; [exact P|]. split; [assert (L : List.length s = List.length (a ++ [y] ++ b)) by (rewrite E; reflexivity); rewrite !app_length in L; cbn [List.length] in L; fold n in L; lia|]. left. exists y. split; [reflexivity|]. rewrite D, E. rewrite app_nth2 by lia. rewrite LA, Nat.sub_diag. reflexivity.
  - rewrite <- Nat.negb_even in O. apply Bool.negb_false_iff in O. apply Nat.even_spec in O. destruct O as [k K]. assert (D : (n / 2 = k)%nat) by (rewrite K, Nat.mul_comm; apply Nat.div_mul; lia). destruct (cut_at _ s (k - 1) 2 ltac:(fold n; lia)) as (a & x & b & E & LA & LX). destruct x as [|y [|z [|? x]]]; cbn [List.length] in LX; try lia. exists a, [y; z], b. rewrite <- E. split; [exact S|]. split; [exact P|]. split; [assert (L : List.length s = List.length (a ++ [y; z] ++ b)) by (rewrite E; reflexivity); rewrite !app_length in L; cbn [List.length] in L; fold n in L; lia|]. right. exists y, z. split; [reflexivity|]. rewrite D, E. rewrite (app_nth2 a _ _ (n := (k - 1)%nat)), (app_nth2 a _ _ (n := k)) by lia. rewrite LA, Nat.sub_diag. replace (k - (k - 1))%nat with 1%nat by lia. cbn [app nth]. field.
Qed.
Lemma values_ne : forall f, 1 <= f_height f -> 1 <= f_width f -> flat_values f <> [].
Proof.
  intros f H W E. unfold flat_values in E. apply (f_equal (@List.length Q)) in E. rewrite map_length in E. cbn [List.length] in E. pose proof (box_length [f_height f; f_width f] ltac:(repeat constructor; lia)) as L. unfold prodZ in L. cbn [fold_right] in L. nia.
Qed.
(** Pixels are divided by the flatfield and multiplied by its median; pixels with 0 in it stay *)
Theorem C97_flat : forall v dtype f ps file s n0 n1, square s file -> 1 <= s -> scan (total file) v n0 n1 -> f_height f = s -> f_width f = s ->
  exists a m, arina_reader false v 1 dtype (Some f) ps file = Ok a /\ a_shape a = [n0; n1; s; s] /\ is_median (flat_values f) m /\
    forall x y d i r c, 0 <= x < n0 -> 0 <= y < n1 -> image file (n1 * x + y) d i -> 0 <= r < s -> 0 <= c < s ->
      (~ f_at f r c == 0 -> a_at a x y r c * f_at f r c == m * inject_Z (s_at d i r c))%Q /\ (f_at f r c == 0 -> a_at a x y r c == inject_Z (s_at d i r c))%Q.
Proof.
  intros v dtype f ps file s n0 n1 SQ S SC FH FW. destruct (last_dataset file (proj1 SQ)) as (l & e & E). assert (P : 0 <= total file) by (destruct SQ as [_ SQ]; clear - SQ; induction SQ as [|d l (_ & _ & H) F IH]; cbn [total]; lia). pose proof SC as (N & N0 & N1 & _). assert (SQ' : square (1 * s) file) by (rewrite Z.mul_1_l; exact SQ).
  assert (FK : flat_ok (1 * s) (Some f)) by (rewrite Z.mul_1_l; split; assumption).
  destruct (read_general v 1 dtype (Some f) ps file s n0 n1 l e SQ' E ltac:(lia) S FK (C97_scan _ _ _ _ P SC) N0 N1) as (a & A & SH & _ & _ & V). exists a, (median (flat_values f)). split; [exact A|]. split; [exact SH|]. split; [apply median_ok; apply values_ne; lia|].
  intros x y d i r c X Y IM R C. rewrite Z.mul_comm in IM. rewrite (V x y d i X Y IM r c R C). unfold value, pix, array_type, factor. cbn [Z.eqb Pos.eqb cast]. split.
  - intro NZ. destruct (Qeq_bool (f_at f r c) 0) eqn:Q; [apply Qeq_bool_iff in Q; contradiction|]. field. exact NZ.
  - intro ZE. apply Qeq_bool_iff in ZE. rewrite ZE. ring.
Qed.
(** * Refused files *)
Theorem C97_empty_refuted : forall v b dtype f ps, arina_reader false v b dtype f ps [] = Err NameError.
Proof. reflexivity. Qed.
Theorem C97_lazy : forall v b dtype f ps file, arina_reader true v b dtype f ps file = Err NotImplementedError.
Proof. reflexivity. Qed.
Lemma first_image : forall A B (f : A -> res B) e l, l <> [] -> (forall x, In x l -> f x = Err e) -> mapM f l = Err e.
Proof. intros A B f e [|x l] N H; [congruence|]. cbn [mapM]. rewrite (H x (or_introl eq_refl)). reflexivity. Qed.
Lemma image_fails : forall t w h b f d, 1 <= s_count d -> (forall i, process t w h b f d i = Err ValueError) -> process_dataset t w h b f d = Err ValueError.
Proof. intros t w h b f d C H. unfold process_dataset. apply first_image; [|intros; apply H]. destruct (Z.to_nat (s_count d)) eqn:E; [lia|discriminate]. Qed.
Lemma one_dataset : forall v b dtype f ps d a c, b <> 0 -> 0 <= s_width d / b -> 0 <= s_height d / b -> nav_shape (s_count d) v = Ok (a, c) -> process_dataset (array_type dtype f (s_type d)) (s_width d / b) (s_height d / b) b f d = Err ValueError -> arina_reader false v b dtype f ps [d] = Err ValueError.
Proof.
  intros v b dtype f ps d a c B W H N P. unfold arina_reader. cbn [map fold_right rev app]. replace (s_count d + 0) with (s_count d) by lia. rewrite N. replace (b =? 0) with false by lia. cbn [bind]. replace ((s_width d / b <? 0) || (s_height d / b <? 0)) with false by lia. cbn [mapM]. rewrite P. reflexivity.
Qed.
(** Images that are not square cannot be read *)
Theorem C97_rectangle_refuted : forall v dtype ps d a c, 1 <= s_count d -> 1 <= s_height d -> 1 <= s_width d -> s_height d <> s_width d -> scan (s_count d) v a c -> arina_reader false v 1 dtype None ps [d] = Err ValueError.
Proof.
  intros v dtype ps d a c C H W N SC. eapply one_dataset; [lia|rewrite Z.div_1_r; lia|rewrite Z.div_1_r; lia|eapply C97_scan; [lia|exact SC]|]. rewrite !Z.div_1_r. apply image_fails; [exact C|]. intro i. unfold process, bin2d, store. cbn [bind Z.eqb Pos.eqb]. replace (((s_height d =? s_width d) || (s_height d =? 1)) && ((s_width d =? s_height d) || (s_width d =? 1))) with false by lia. reflexivity.
Qed.
(** Images that are not a multiple of the bins cannot be read *)
Theorem C97_remainder : forall v b dtype ps d a c, 1 <= s_count d -> 1 <= s_height d -> 1 <= s_width d -> 2 <= b -> s_height d mod b <> 0 \/ s_width d mod b <> 0 -> scan (s_count d) v a c -> arina_reader false v b dtype None ps [d] = Err ValueError.
Proof.
  intros v b dtype ps d a c C H W B N SC. eapply one_dataset; [lia|apply Z.div_pos; lia|apply Z.div_pos; lia|eapply C97_scan; [lia|exact SC]|]. apply image_fails; [exact C|]. intro i. unfold process, bin2d. cbn [bind]. replace (b =? 1) with false by lia.
  pose proof (Z.div_mod (s_height d) b ltac:(lia)) as DH. pose proof (Z.div_mod (s_width d) b ltac:(lia)) as DW. pose proof (Z.mod_pos_bound (s_height d) b ltac:(lia)) as MH. pose proof (Z.mod_pos_bound (s_width d) b ltac:(lia)) as MW. assert (P0 : 0 <= s_height d / b) by (apply Z.div_pos; lia). assert (Q0 : 0 <= s_width d / b) by (apply Z.div_pos; lia). set (p := s_height d / b) in *. set (q := s_width d / b) in *. set (m := s_height d mod b) in *. set (k := s_width d mod b) in *. clearbody p q m k.
  assert (PB : 0 <= p * b <= s_height d) by (rewrite Z.mul_comm; nia). assert (QB : 0 <= q * b <= s_width d) by (rewrite Z.mul_comm; nia). assert (KB : p * b < s_height d \/ q * b < s_width d) by (rewrite (Z.mul_comm p), (Z.mul_comm q); lia). replace (p * b * q * b) with ((p * b) * (q * b)) by ring. clear - PB QB KB H W. set (x := p * b) in *. set (y := q * b) in *. clearbody x y.
  destruct (Z.eqb_spec (s_height d * s_width d) (x * y)) as [E|E]; [|reflexivity]. exfalso. destruct KB as [KB|KB]; nia.
Qed.
(** Counts above 65535 are cut in files of 32 bits *)
Theorem C97_counts_refuted : exists d a, s_type d = UInt 32 /\ fits (UInt 32) (s_at d 0 0 0) /\ arina_reader false Square 1 None None None [d] = Ok a /\ s_at d 0 0 0 = 65537 /\ (a_at a 0 0 0 0 == 1)%Q.
Proof. exists {| s_type := UInt 32; s_count := 1; s_height := 1; s_width := 1; s_at := fun _ _ _ => 65537 |}. eexists. cbn [s_at s_type fits]. split; [reflexivity|]. split; [lia|]. split; [reflexivity|]. split; [reflexivity|]. vm_compute. reflexivity. Qed.
(** The pixel size of the other file is given in angstrom *)
Theorem C97_scale : forall v b dtype f ps file a, arina_reader false v b dtype f ps file = Ok a -> (forall q, ps = Some q -> a_scale a = (q * 10)%Q /\ a_angstrom a = true) /\ (ps = None -> a_scale a = 1%Q /\ a_angstrom a = false).
Proof.
  intros v b dtype f ps file a H. unfold arina_reader in H. destruct (rev file) as [|d l]; [discriminate H|]. destruct (b =? 0); [discriminate H|]. cbv zeta in H. destruct (nav_shape _ v) as [p|]; [|discriminate H]. cbn [bind] in H. destruct (_ || _); [discriminate H|]. destruct (mapM _ file) as [fs|]; [|discriminate H]. cbn [bind] in H. destruct (_ || _); [discriminate H|]. injection H as <-. cbn [a_scale a_angstrom]. split; [intros q ->; split; reflexivity|intros ->; split; reflexivity].
Qed.

(** * Examples *)
Definition demo (k : Z) : dataset := {| s_type := UInt 16; s_count := k; s_height := 4; s_width := 4; s_at := fun i r c => 100 * i + 10 * r + c |}.
Definition demo_file : list dataset := [demo 4; demo 2].
Lemma demo_square : square 4 demo_file.
Proof. split; [discriminate|repeat constructor; cbn; lia]. Qed.
Example C97_scan_demo : scan 6 (Scalar (Dim 2)) 2 3 /\ scan 6 (Pair Auto (Dim 3)) 2 3 /\ scan 9 Square 3 3.
Proof. repeat split; lia. Qed.
Example C97_pixels_demo : square 4 demo_file /\ scan (total demo_file) (Scalar (Dim 2)) 2 3 /\ result_type None demo_file (UInt 16) /\ image demo_file (3 * 1 + 2) (demo 2) 1 /\ fits (UInt 16) (s_at (demo 2) 1 3 2).
Proof.
  split; [exact demo_square|]. split; [repeat split; cbn; lia|]. split; [exists [demo 4], (demo 2); repeat split; discriminate|]. split; [|cbn; lia]. change (3 * 1 + 2) with (s_count (demo 4) + 1). apply image_later; [cbn; lia|]. apply image_here. cbn. lia.
Qed.
Example C97_binned_demo : square (2 * 2) demo_file /\ exists a, arina_reader false (Scalar (Dim 2)) 2 None None (Some 3%Q) demo_file = Ok a /\ (a_at a 1 2 1 0 == inject_Z (block 2 (s_at (demo 2) 1) 1 0 / 4))%Q /\ block 2 (s_at (demo 2) 1) 1 0 / 4 = 125.
Proof. split; [exact demo_square|]. eexists. split; [reflexivity|]. split; vm_compute; reflexivity. Qed.
Definition demo_flat : flat := {| f_height := 4; f_width := 4; f_at := fun r c => inject_Z (r * c) |}.
Example C97_flat_demo : exists a, arina_reader false (Scalar (Dim 2)) 1 None (Some demo_flat) None demo_file = Ok a /\ (a_at a 1 2 3 2 == 132 * (3 # 2) / 6)%Q /\ (a_at a 1 2 3 0 == 130)%Q.
Proof. eexists. split; [reflexivity|]. split; vm_compute; reflexivity. Qed.
Definition wide : dataset := {| s_type := UInt 16; s_count := 1; s_height := 2; s_width := 4; s_at := fun _ _ _ => 7 |}.
Example C97_rectangle_demo : s_height wide <> s_width wide /\ scan (s_count wide) Square 1 1.
Proof. split; [discriminate|repeat split; cbn; lia]. Qed.
Example C97_remainder_demo : s_height (demo 1) mod 3 <> 0 /\ arina_reader false Square 3 None None None [demo 1] = Err ValueError.
Proof. split; [discriminate|]. apply (C97_remainder _ _ _ _ _ 1 1); cbn; try lia. split; [lia|]. split; lia. Qed.
Print Assumptions C97_scan.
Print Assumptions C97_no_scan.
Print Assumptions C97_pixels.
Print Assumptions C97_binned.
Print Assumptions C97_flat.
Print Assumptions C97_empty_refuted.
Print Assumptions C97_lazy.
Print Assumptions C97_rectangle_refuted.
Print Assumptions C97_remainder.
Print Assumptions C97_counts_refuted.
Print Assumptions C97_scale.
