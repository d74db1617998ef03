(** Property C87: scans of diffraction patterns in Topspin files. *)
From Coq Require Import QArith Permutation Sorting.Sorted Qabs.
From Verif Require Import Base Text Bytes RowMajor HierModel SfsModel SfsProps BcfUnpack SurFloat RenBlocks XmlModel QuadModel QuadSac TopModel.
Local Open Scope Z_scope.

Section Scan.
Variable number : pystr -> res Z.
Variable unit : positive.
(** * Specification *)
(** The element found by going to child number i, and so on *)
Fixpoint inside (x : xml) (p : list nat) : option xml := match p with [] => Some x | i :: p' => match nth_error (x_children x) i with Some c => inside c p' | None => None end end.
Definition has_number (root : xml) (p : list nat) (v : Z) : Prop := exists e, inside root p = Some e /\ x_text e <> [] /\ number (x_text e) = Ok v.
(** Frame number k of a group: its metadata and its data *)
Definition frame (l : list (pystr * h5)) (k : Z) (root : xml) (w : Z) (shape : list Z) (o : option Z) : Prop :=
  exists f data, lookup (str_int k) l = Some (Group f) /\ lookup (str "Metadata") f = Some (Meta root) /\ lookup (str "Data") f = Some (Array w shape o data).
Definition first_root (l : list (pystr * h5)) (root : xml) (w s0 s1 : Z) : Prop :=
  exists k f o data l', l = (k, Group f) :: l' /\ lookup (str "Metadata") f = Some (Meta root) /\ lookup (str "Data") f = Some (Array w [s0; s1] o data).
Record setup := { nx : Z; ny : Z; x0 : Z; y0 : Z; dx : Z; dy : Z }.
(** Frames 0, 1, ... are the points of the lines from left to right, lines with increasing y *)
Definition raster (l : list (pystr * h5)) (s : setup) : Prop :=
  0 < nx s /\ 0 < ny s /\ 0 < dx s /\ 0 < dy s /\ NoDup (map fst l) /\ zlen l = nx s * ny s /\
  forall i j, 0 <= i < nx s -> 0 <= j < ny s -> exists root w shape o, frame l (j * nx s + i) root w shape o /\ has_number root [1; 0; 1; 0]%nat (x0 s + i * dx s) /\ has_number root [1; 0; 1; 1]%nat (y0 s + j * dy s).
(** A length in nm, rounded to a thousandth *)
Definition about (c : Q) (n : Z) : Prop := (Qabs (c - (n # unit) * inject_Z (10 ^ 9)) <= 1 # 2000)%Q /\ (forall k, (n # unit == k # 10 ^ 12)%Q -> (c == k # 1000)%Q).
Definition scan_axis (name : string) (i size offset : Z) (scale : option Q -> Prop) (a : axis) : Prop :=
  a_name a = str name /\ a_units a = str "nm" /\ a_size a = size /\ a_navigate a = true /\ a_index a = i /\ (a_offset a == (offset # unit) * inject_Z (10 ^ 9))%Q /\ scale (a_scale a).
Definition pattern_axis (name : string) (i size : Z) (root : xml) (p : nat) (a : axis) : Prop :=
  a_name a = str name /\ a_size a = size /\ a_navigate a = false /\ a_index a = i /\
  (exists u, inside root [0; p; 2; 1]%nat = Some u /\ a_units a = x_text u) /\
  (exists n, has_number root [0; p; 1]%nat n /\ a_scale a = Some (n # unit)) /\ (exists n, has_number root [0; p; 0]%nat n /\ a_offset a = (n # unit)).
Definition pattern_ok (root : xml) : Prop := forall p, (p < 2)%nat -> (exists u, inside root [0; p; 2; 1]%nat = Some u) /\ (exists n, has_number root [0; p; 1]%nat n) /\ (exists n, has_number root [0; p; 0]%nat n).

(** * np.unique *)
Lemma insert_in : forall x l y, In y (insert x l) <-> y = x \/ In y l.
Proof.
  intros x l y. induction l as [|z l IH]; cbn [insert In]; [intuition auto|]. destruct (x <? z) eqn:L; [cbn [In]; intuition auto|]. destruct (x =? z) eqn:E; [apply Z.eqb_eq in E; subst z; cbn [In]; intuition auto|]. cbn [In]. rewrite IH. intuition auto.
Qed.
Lemma insert_sorted : forall x l, StronglySorted Z.lt l -> StronglySorted Z.lt (insert x l).
Proof.
  intros x l S. induction S as [|z l S IH F]; [repeat constructor|]. cbn [insert]. destruct (x <? z) eqn:L.
  - constructor; [constructor; assumption|]. constructor; [lia|]. rewrite Forall_forall in *. intros y Y. specialize (F y Y). lia.
  - destruct (x =? z) eqn:E; [constructor; assumption|]. constructor; [exact IH|]. rewrite Forall_forall in *. intros y Y. apply insert_in in Y. destruct Y as [-> | Y]; [lia|apply F; exact Y].
Qed.
Lemma unique_in : forall l y, In y (unique l) <-> In y l.
Proof. induction l as [|x l IH]; intro y; [reflexivity|]. cbn [unique In]. rewrite insert_in, IH. intuition auto. Qed.
Lemma unique_sorted : forall l, StronglySorted Z.lt (unique l).
Proof. induction l as [|x l IH]; [constructor|]. apply insert_sorted. exact IH. Qed.
Lemma sorted_same : forall a b, StronglySorted Z.lt a -> StronglySorted Z.lt b -> (forall y, In y a <-> In y b) -> a = b.
Proof.
  intros a b SA. revert b. induction SA as [|x a SA IH FA]; intros b SB H.
  - destruct b as [|y b]; [reflexivity|]. destruct (proj2 (H y) (or_introl eq_refl)).
  - inversion SB as [|y b' SB' FB]; subst b; [destruct (proj1 (H x) (or_introl eq_refl))|]. rename b' into b. rewrite Forall_forall in FA, FB. assert (E : x = y).
    { destruct (proj1 (H x) (or_introl eq_refl)) as [-> | X]; [reflexivity|]. destruct (proj2 (H y) (or_introl eq_refl)) as [-> | Y]; [reflexivity|]. specialize (FA y Y). specialize (FB x X). lia. }
    subst y. f_equal. apply IH; [exact SB'|]. intro z. split; intro Z.
    + destruct (proj1 (H z) (or_intror Z)) as [<- | K]; [|exact K]. specialize (FA x Z). lia.
    + destruct (proj2 (H z) (or_intror Z)) as [<- | K]; [|exact K]. specialize (FB x Z). lia.
Qed.
Definition ladder (o d n : Z) : list Z := map (fun i => o + i * d) (zseq 0 (Z.to_nat n)).
Lemma ladder_sorted_gen : forall d o n a, 0 < d -> StronglySorted Z.lt (map (fun i => o + i * d) (zseq a n)).
Proof.
  intros d o n a D. revert a. induction n as [|n IH]; intro a; [constructor|]. cbn [zseq map]. constructor; [apply IH|]. apply Forall_forall. intros y Y. apply in_map_iff in Y. destruct Y as [i [<- I]]. apply in_zseq in I. nia.
Qed.
Lemma unique_ladder : forall l o d n, 0 < d -> (forall y, In y l <-> exists i, 0 <= i < n /\ y = o + i * d) -> unique l = ladder o d n.
Proof.
  intros l o d n D H. apply sorted_same; [apply unique_sorted|apply ladder_sorted_gen; exact D|]. intro y. rewrite unique_in, H. unfold ladder. rewrite in_map_iff. split; intros [i I]; exists i; [rewrite in_zseq; split; [symmetry; apply I|lia]|]. destruct I as [<- I]. apply in_zseq in I. split; [lia|reflexivity].
Qed.
Lemma ladder_length : forall o d n, 0 <= n -> zlen (ladder o d n) = n.
Proof. intros o d n N. unfold zlen, ladder. rewrite map_length, zseq_length. lia. Qed.
Lemma ladder_low : forall o d n, 0 < n -> lowest (ladder o d n) = o.
Proof. intros o d n N. unfold lowest, ladder. replace (Z.to_nat n) with (S (Z.to_nat (n - 1))) by lia. cbn [zseq map hd]. lia. Qed.
Lemma ladder_high : forall o d n, 0 < n -> highest (ladder o d n) = o + (n - 1) * d.
Proof.
  intros o d n N. unfold highest, ladder. replace (Z.to_nat n) with (S (Z.to_nat (n - 1))) by lia. cbn [zseq map]. rewrite tail_default. rewrite (last_map _ _ (fun i => o + i * d)). destruct (Z.to_nat (n - 1)) as [|m] eqn:M; [replace n with 1 by lia; reflexivity|]. rewrite last_zseq by lia. f_equal. f_equal. lia.
Qed.
Lemma ladder_step : forall o d n, 1 < n -> step unit (ladder o d n) = Some (((n - 1) * d) # (unit * Z.to_pos (n - 1)))%Q.
Proof. intros o d n N. unfold step. rewrite ladder_length, ladder_low, ladder_high by lia. replace (n =? 1) with false by lia. replace (o + (n - 1) * d - o) with ((n - 1) * d) by lia. reflexivity. Qed.
Lemma around_cancel : forall m d, 0 < m -> around ((m * d) # (unit * Z.to_pos m)) = around (d # unit).
Proof.
  intros m d M. unfold around. cbn [Qnum Qden]. replace (m * d * 10 ^ 12) with (d * 10 ^ 12 * m) by lia. rewrite Pos2Z.inj_mul, Z2Pos.id by lia. rewrite round_div_scale by lia. reflexivity.
Qed.
Lemma around_about : forall d, about (around (d # unit)) d.
Proof.
  intro d. unfold about, around. cbn [Qnum Qden]. split.
  - pose proof (round_div_error (d * 10 ^ 12) (Z.pos unit) ltac:(lia)) as E. set (r := round_div _ _) in *. apply Qabs_Qle_condition. unfold Qle, Qminus, Qplus, Qopp, Qmult, inject_Z. cbn [Qnum Qden]. rewrite !Pos2Z.inj_mul. generalize dependent (Z.pos unit). intros u E. change (10 ^ 12) with 1000000000000 in *. change (10 ^ 9) with 1000000000. lia.
  - intros k K. unfold Qeq in K. cbn [Qnum Qden] in K. replace (d * 10 ^ 12) with (k * Z.pos unit) by (change (Z.pos (10 ^ 12)) with (10 ^ 12) in K; lia). rewrite round_div_exact by lia. reflexivity.
Qed.
(** * Keys *)
Lemma str_int_inj : forall a b, str_int a = str_int b -> a = b.
Proof. intros a b H. pose proof (parse_int_str_int a) as A. rewrite H, parse_int_str_int in A. congruence. Qed.
Lemma insert_int_perm : forall x l, Permutation (insert_int x l) (x :: l).
Proof. intros x l. induction l as [|y l IH]; [apply Permutation_refl|]. cbn [insert_int]. destruct (x <=? y); [apply Permutation_refl|]. rewrite IH. apply perm_swap. Qed.
Lemma insert_int_sorted : forall x l, StronglySorted Z.le l -> StronglySorted Z.le (insert_int x l).
Proof.
  intros x l S. induction S as [|y l S IH F]; [repeat constructor|]. cbn [insert_int]. destruct (x <=? y) eqn:L.
  - constructor; [constructor; assumption|]. constructor; [lia|]. rewrite Forall_forall in *. intros z Z. specialize (F z Z). lia.
  - constructor; [exact IH|]. rewrite Forall_forall in *. intros z Z. apply (Permutation_in _ (insert_int_perm x l)) in Z. destruct Z as [<- | Z]; [lia|apply F; exact Z].
Qed.
Lemma sort_int_ok : forall l, Permutation (sort_int l) l /\ StronglySorted Z.le (sort_int l).
Proof. induction l as [|x l [P S]]; [split; constructor|]. cbn [sort_int]. split; [rewrite insert_int_perm; constructor; exact P|apply insert_int_sorted; exact S]. Qed.
Lemma le_sorted_same : forall a b, StronglySorted Z.le a -> StronglySorted Z.le b -> Permutation a b -> a = b.
Proof.
  intros a b SA. revert b. induction SA as [|x a SA IH FA]; intros b SB P.
  - apply Permutation_nil in P. symmetry. exact P.
  - inversion SB as [|y b' SB' FB]; subst b; [apply Permutation_sym, Permutation_nil in P; discriminate P|]. rewrite Forall_forall in FA, FB. assert (E : x = y).
    { assert (X : In x (y :: b')) by (apply (Permutation_in _ P); left; reflexivity). assert (Y : In y (x :: a)) by (apply (Permutation_in _ (Permutation_sym P)); left; reflexivity). destruct X as [X|X]; [symmetry; exact X|]. destruct Y as [Y|Y]; [exact Y|]. specialize (FA y Y). specialize (FB x X). lia. }
    subst y. f_equal. apply IH; [exact SB'|]. apply Permutation_cons_inv in P. exact P.
Qed.
Lemma zseq_le_sorted : forall n a, StronglySorted Z.le (zseq a n).
Proof. induction n as [|n IH]; intro a; [constructor|]. cbn [zseq]. constructor; [apply IH|]. apply Forall_forall. intros y Y. apply in_zseq in Y. lia. Qed.
Lemma names_perm : forall names n, NoDup names -> List.length names = n -> (forall k, 0 <= k < Z.of_nat n -> In (str_int k) names) -> Permutation names (map str_int (zseq 0 n)).
Proof.
  intros names n N L H. apply Permutation_sym. apply NoDup_Permutation_bis.
  - apply FinFun.Injective_map_NoDup; [intros a b; apply str_int_inj|]. clear. generalize 0. induction n as [|n IH]; intro a; [constructor|]. cbn [zseq]. constructor; [intro I; apply in_zseq in I; lia|apply IH].
  - rewrite map_length, zseq_length, L. apply le_n.
  - intros k K. apply in_map_iff in K. destruct K as [z [<- I]]. apply in_zseq in I. apply H. lia.
Qed.
Lemma parse_names : forall l m, Permutation l (map str_int m) -> exists r, mapM parse_int l = Ok r /\ Permutation r m.
Proof.
  intros l m P. apply Permutation_map_inv in P. destruct P as [m' [-> Q]]. exists m'. split; [|apply Permutation_sym; exact Q].
  clear Q. induction m' as [|x m' IH]; [reflexivity|]. cbn [map mapM]. rewrite parse_int_str_int. cbn [bind]. rewrite IH. reflexivity.
Qed.
(** * Positions *)
Lemma descend_inside : forall p x e, inside x p = Some e -> descend x p = Ok e.
Proof. induction p as [|i p IH]; intros x e H; cbn [inside descend] in *; [congruence|]. unfold child. destruct (nth_error (x_children x) i) as [c|]; [|discriminate H]. cbn [bind]. apply IH. exact H. Qed.
Lemma inside_app : forall p q x e, inside x (p ++ q) = Some e -> exists m, inside x p = Some m /\ inside m q = Some e.
Proof. induction p as [|i p IH]; intros q x e H; cbn [inside app] in *; [exists x; split; [reflexivity|exact H]|]. destruct (nth_error (x_children x) i) as [c|]; [|discriminate H]. apply IH. exact H. Qed.
Lemma float_text : forall e v, x_text e <> [] -> number (x_text e) = Ok v -> float_of number e = Ok v.
Proof. intros e v N H. unfold float_of. destruct (x_text e); [contradiction|exact H]. Qed.
Lemma number_inside : forall x p v, has_number x p v -> (let! e := descend x p in float_of number e) = Ok v.
Proof. intros x p v [e [I [N H]]]. rewrite (descend_inside _ _ _ I). cbn [bind]. apply float_text; assumption. Qed.
Lemma position_frame : forall l k root w shape o x y, frame l k root w shape o -> has_number root [1; 0; 1; 0]%nat x -> has_number root [1; 0; 1; 1]%nat y -> position number (Group l) (str_int k) = Ok (x, y).
Proof.
  intros l k root w shape o x y [f [data [F [M D]]]] [ex [IX [NX HX]]] [ey [IY [NY HY]]]. unfold position, get. rewrite F. cbn [bind]. rewrite M. cbn [bind text_of].
  destruct (inside_app [1; 0; 1]%nat [0]%nat root ex IX) as [p [P1 P2]]. destruct (inside_app [1; 0; 1]%nat [1]%nat root ey IY) as [p' [P1' P2']]. rewrite P1 in P1'. injection P1' as <-.
  rewrite (descend_inside _ _ _ P1). cbn [bind]. cbn [inside] in P2, P2'. unfold child. destruct (nth_error (x_children p) 0) as [c0|]; [|discriminate P2]. injection P2 as ->. cbn [bind]. rewrite (float_text _ _ NX HX). cbn [bind]. destruct (nth_error (x_children p) 1) as [c1|]; [|discriminate P2']. injection P2' as ->. cbn [bind]. rewrite (float_text _ _ NY HY). reflexivity.
Qed.
Definition place (s : setup) (k : Z) : Z * Z := (x0 s + (k mod nx s) * dx s, y0 s + (k / nx s) * dy s).
Lemma raster_place : forall l s k, raster l s -> 0 <= k < nx s * ny s -> position number (Group l) (str_int k) = Ok (place s k).
Proof.
  intros l s k [X [Y [_ [_ [_ [_ H]]]]]] K. destruct (H (k mod nx s) (k / nx s)) as [root [w [shape [o [F [HX HY]]]]]].
  - apply Z.mod_pos_bound. exact X.
  - split; [apply Z.div_pos; lia|apply Z.div_lt_upper_bound; lia].
  - replace (k / nx s * nx s + k mod nx s) with k in F by (pose proof (Z.div_mod k (nx s) ltac:(lia)); lia). apply (position_frame _ _ _ _ _ _ _ _ F HX HY).
Qed.
(** The rest of the first line, and the first point of the next *)
Lemma scan_line : forall l s m a, raster l s -> 0 <= a -> a + Z.of_nat m <= nx s * ny s -> a + Z.of_nat m <= nx s -> scan number (Group l) (Some (y0 s)) (map str_int (zseq a m)) = Ok (map (place s) (zseq a m)).
Proof.
  intros l s m. induction m as [|m IH]; intros a R A L1 L2; [reflexivity|]. cbn [zseq map scan]. rewrite (raster_place l s a R) by lia. cbn [bind]. assert (E : snd (place s a) = y0 s). { unfold place. cbn [snd]. rewrite Z.div_small by lia. lia. }
  rewrite E. replace (y0 s <? y0 s) with false by lia. rewrite IH by (try exact R; lia). reflexivity.
Qed.
Lemma scan_next : forall l s m r a, raster l s -> 0 <= a -> a + Z.of_nat m = nx s -> nx s < nx s * ny s -> scan number (Group l) (Some (y0 s)) (map str_int (zseq a m ++ nx s :: r)) = Ok (map (place s) (zseq a m ++ [nx s])).
Proof.
  intros l s m r. induction m as [|m IH]; intros a R A L1 L2.
  - cbn [zseq app map scan]. rewrite (raster_place l s (nx s) R) by (destruct R; lia). cbn [bind]. assert (P : 0 < nx s) by apply R. assert (Y : 0 < dy s) by apply R. assert (E : snd (place s (nx s)) = y0 s + dy s). { unfold place. cbn [snd]. rewrite Z.div_same by lia. lia. } rewrite E. replace (y0 s <? y0 s + dy s) with true by lia. reflexivity.
  - cbn [zseq app map scan]. rewrite (raster_place l s a R) by (destruct R; lia). cbn [bind]. assert (E : snd (place s a) = y0 s). { unfold place. cbn [snd]. rewrite Z.div_small by lia. lia. }
    rewrite E. replace (y0 s <? y0 s) with false by lia. rewrite IH by (try exact R; lia). reflexivity.
Qed.
Definition seen (s : setup) : list Z := zseq 0 (Z.to_nat (if ny s =? 1 then nx s else nx s + 1)).
Lemma zseq_app : forall n m a, zseq a (n + m) = zseq a n ++ zseq (a + Z.of_nat n) m.
Proof. induction n as [|n IH]; intros m a; [cbn [Nat.add zseq app]; f_equal; lia|]. cbn [Nat.add zseq app]. f_equal. rewrite IH. do 2 f_equal. lia. Qed.
Lemma scan_all : forall l s, raster l s -> scan number (Group l) None (map str_int (zseq 0 (Z.to_nat (nx s * ny s)))) = Ok (map (place s) (seen s)).
Proof.
  intros l s R. assert (X : 0 < nx s) by apply R. assert (Y : 0 < ny s) by apply R. unfold seen. replace (Z.to_nat (nx s * ny s)) with (S (Z.to_nat (nx s * ny s - 1))) by nia. cbn [zseq map scan]. rewrite (raster_place l s 0 R) by nia. cbn [bind].
  assert (E : snd (place s 0) = y0 s). { unfold place. cbn [snd]. rewrite Z.div_0_l by lia. lia. } rewrite E. destruct (ny s =? 1) eqn:N1.
  - replace (Z.to_nat (nx s * ny s - 1)) with (Z.to_nat (nx s - 1)) by nia. rewrite (scan_line l s _ 1 R) by nia. cbn [bind]. replace (Z.to_nat (nx s)) with (S (Z.to_nat (nx s - 1))) by lia. reflexivity.
  - assert (LT : nx s < nx s * ny s) by nia. replace (Z.to_nat (nx s * ny s - 1)) with (Z.to_nat (nx s - 1) + S (Z.to_nat (nx s * ny s - nx s - 1)))%nat by nia. rewrite zseq_app. replace (0 + 1 + Z.of_nat (Z.to_nat (nx s - 1))) with (nx s) by lia. cbn [zseq]. rewrite (scan_next l s _ _ (0 + 1) R) by lia. cbn [bind]. replace (Z.to_nat (nx s + 1)) with (S (Z.to_nat (nx s - 1) + 1))%nat by lia. cbn [zseq map]. rewrite zseq_app. replace (0 + 1 + Z.of_nat (Z.to_nat (nx s - 1))) with (nx s) by lia. reflexivity.
Qed.
Lemma all_places : forall l s names, raster l s -> Permutation names (map str_int (zseq 0 (Z.to_nat (nx s * ny s)))) -> exists qs, mapM (position number (Group l)) names = Ok qs /\ Permutation qs (map (place s) (zseq 0 (Z.to_nat (nx s * ny s)))).
Proof.
  intros l s names R P. apply Permutation_map_inv in P. destruct P as [m [-> Q]]. exists (map (place s) m). split.
  - assert (F : forall k, In k m -> 0 <= k < nx s * ny s) by (intros k K; apply (Permutation_in _ (Permutation_sym Q)) in K; apply in_zseq in K; nia). clear Q. induction m as [|k m IH]; [reflexivity|]. cbn [map mapM]. rewrite (raster_place l s k R) by (apply F; left; reflexivity). cbn [bind]. rewrite IH by (intros z Z; apply F; right; exact Z). reflexivity.
  - apply Permutation_map. apply Permutation_sym. exact Q.
Qed.
Lemma seen_x : forall s, 0 < nx s -> 0 < ny s -> 0 < dx s -> unique (map fst (map (place s) (seen s))) = ladder (x0 s) (dx s) (nx s).
Proof.
  intros s X Y D. apply unique_ladder; [exact D|]. intro y. rewrite map_map. rewrite in_map_iff. unfold seen. split.
  - intros [k [<- K]]. exists (k mod nx s). split; [apply Z.mod_pos_bound; exact X|reflexivity].
  - intros [i [I ->]]. exists i. split; [unfold place; cbn [fst]; rewrite Z.mod_small by lia; reflexivity|]. apply in_zseq. destruct (ny s =? 1); lia.
Qed.
Lemma seen_y : forall s, 0 < nx s -> 0 < ny s -> 0 < dy s -> unique (map snd (map (place s) (seen s))) = ladder (y0 s) (dy s) (if ny s =? 1 then 1 else 2).
Proof.
  intros s X Y D. apply unique_ladder; [exact D|]. intro y. rewrite map_map. rewrite in_map_iff. unfold seen. split.
  - intros [k [<- K]]. apply in_zseq in K. exists (k / nx s). split; [|reflexivity]. split; [apply Z.div_pos; lia|]. apply Z.div_lt_upper_bound; [exact X|]. destruct (ny s =? 1); lia.
  - intros [i [I ->]]. exists (i * nx s). split; [unfold place; cbn [snd]; rewrite Z.div_mul by lia; reflexivity|]. apply in_zseq. destruct (ny s =? 1) eqn:E; nia.
Qed.
Lemma all_x : forall s qs, 0 < nx s -> 0 < ny s -> 0 < dx s -> Permutation qs (map (place s) (zseq 0 (Z.to_nat (nx s * ny s)))) -> unique (map fst qs) = ladder (x0 s) (dx s) (nx s).
Proof.
  intros s qs X Y D P. apply unique_ladder; [exact D|]. intro y. assert (E : In y (map fst qs) <-> In y (map fst (map (place s) (zseq 0 (Z.to_nat (nx s * ny s)))))). { split; apply Permutation_in; [|apply Permutation_sym]; apply Permutation_map; exact P. }
  rewrite E, map_map, in_map_iff. split.
  - intros [k [<- K]]. exists (k mod nx s). split; [apply Z.mod_pos_bound; exact X|reflexivity].
  - intros [i [I ->]]. exists i. split; [unfold place; cbn [fst]; rewrite Z.mod_small by lia; reflexivity|]. apply in_zseq. nia.
Qed.
Lemma all_y : forall s qs, 0 < nx s -> 0 < ny s -> 0 < dy s -> Permutation qs (map (place s) (zseq 0 (Z.to_nat (nx s * ny s)))) -> unique (map snd qs) = ladder (y0 s) (dy s) (ny s).
Proof.
  intros s qs X Y D P. apply unique_ladder; [exact D|]. intro y. assert (E : In y (map snd qs) <-> In y (map snd (map (place s) (zseq 0 (Z.to_nat (nx s * ny s)))))). { split; apply Permutation_in; [|apply Permutation_sym]; apply Permutation_map; exact P. }
  rewrite E, map_map, in_map_iff. split.
  - intros [k [<- K]]. apply in_zseq in K. exists (k / nx s). split; [|reflexivity]. split; [apply Z.div_pos; lia|]. apply Z.div_lt_upper_bound; [exact X|]. nia.
  - intros [i [I ->]]. exists (i * nx s). split; [unfold place; cbn [snd]; rewrite Z.div_mul by lia; reflexivity|]. apply in_zseq. nia.
Qed.
Lemma lookup_in : forall A k (l : list (pystr * A)) v, lookup k l = Some v -> In k (map fst l).
Proof. intros A k l v. induction l as [|[k' v'] l IH]; cbn [lookup map fst In]; [discriminate|]. destruct (eqb_str k k') eqn:E; [apply eqb_str_spec in E; auto|auto]. Qed.
(** The axes of a raster *)
Theorem C87_axes : forall l s root w s0 s1, raster l s -> first_root l root w s0 s1 -> pattern_ok root ->
  exists y x ky kx, axes_4d number unit (Group l) = Ok [y; x; ky; kx] /\
    scan_axis "y" 0 (ny s) (y0 s) (fun c => if ny s =? 1 then exists q, c = Some q /\ (q == 0)%Q else exists q, c = Some q /\ about q (dy s)) y /\
    scan_axis "x" 1 (nx s) (x0 s) (fun c => if nx s =? 1 then c = None else exists q, c = Some q /\ about q (dx s)) x /\
    pattern_axis "ky" 2 s0 root 0 ky /\ pattern_axis "kx" 3 s1 root 1 kx.
Proof.
  intros l s root w s0 s1 R [k [f [o [data [l' [EL [FM FD]]]]]]] PO. assert (X : 0 < nx s) by apply R. assert (Y : 0 < ny s) by apply R. assert (DX : 0 < dx s) by apply R. assert (DY : 0 < dy s) by apply R.
  assert (NAMES : Permutation (map fst l) (map str_int (zseq 0 (Z.to_nat (nx s * ny s))))).
  { destruct R as [_ [_ [_ [_ [ND [LEN H]]]]]]. apply names_perm; [exact ND|rewrite map_length; unfold zlen in LEN; lia|]. intros z Z. destruct (H (z mod nx s) (z / nx s)) as [ro [w' [sh [o' [[f' [d' [F' _]]] _]]]]].
    - apply Z.mod_pos_bound. exact X.
    - split; [apply Z.div_pos; lia|apply Z.div_lt_upper_bound; lia].
    - replace (z / nx s * nx s + z mod nx s) with z in F' by (pose proof (Z.div_mod z (nx s) ltac:(lia)); lia). apply lookup_in in F'. exact F'. }
  assert (LEN : zlen (map fst l) = nx s * ny s). { unfold zlen. rewrite (Permutation_length NAMES), map_length, zseq_length. nia. }
  unfold axes_4d, keys. cbn [bind]. destruct (PO 0%nat ltac:(lia)) as [[u0 U0] [[c0 SC0] [o0 OF0]]]. destruct (PO 1%nat ltac:(lia)) as [[u1 U1] [[c1 SC1] [o1 OF1]]].
  assert (HK : exists r, map fst l = k :: r) by (rewrite EL; eexists; reflexivity). destruct HK as [r HK]. rewrite HK. cbn [bind]. rewrite <- HK. assert (G : get (Group l) k = Ok (Group f)). { rewrite EL. cbn [get lookup]. rewrite eqb_str_refl. reflexivity. }
  rewrite G. cbn [bind]. unfold get at 1. rewrite FM. cbn [bind text_of]. destruct (inside_app [0]%nat [0; 2; 1]%nat root u0 U0) as [ks [K1 K2]].
  assert (CH : child root 0 = Ok ks). { cbn [inside] in K1. unfold child. destruct (nth_error (x_children root) 0); [congruence|discriminate K1]. } rewrite CH. cbn [bind]. unfold get at 1. rewrite FD. cbn [bind array_of fst snd].
  assert (IN : forall p e, inside root (0%nat :: p) = Some e -> inside ks p = Some e). { intros p e H. cbn [inside] in H, K1. destruct (nth_error (x_children root) 0) as [c|]; [|discriminate K1]. injection K1 as ->. exact H. }
  assert (HN : forall p v, has_number root (0%nat :: p) v -> has_number ks p v) by (intros p v [e [I H]]; exists e; split; [apply IN; exact I|exact H]).
  rewrite (descend_inside _ _ _ (IN _ _ U0)). cbn [bind size_at nth_error]. rewrite (number_inside _ _ _ (HN _ _ SC0)). cbn [bind]. rewrite (number_inside _ _ _ (HN _ _ OF0)). cbn [bind]. rewrite (descend_inside _ _ _ (IN _ _ U1)). cbn [bind size_at nth_error]. rewrite (number_inside _ _ _ (HN _ _ SC1)). cbn [bind]. rewrite (number_inside _ _ _ (HN _ _ OF1)). cbn [bind].
  destruct (parse_names _ _ NAMES) as [nums [EN PN]]. rewrite EN. cbn [bind]. destruct (sort_int_ok nums) as [SP SS].
  rewrite (le_sorted_same (sort_int nums) (zseq 0 (Z.to_nat (nx s * ny s))) SS (zseq_le_sorted _ _) (Permutation_trans SP PN)). rewrite (scan_all l s R). cbn [bind]. rewrite (seen_x s X Y DX), (seen_y s X Y DY). rewrite LEN.
  assert (PA : pattern_axis "ky" 2 s0 root 0 {| a_name := str "ky"; a_units := x_text u0; a_size := s0; a_scale := Some (value unit c0); a_offset := value unit o0; a_navigate := false; a_index := 2 |}).
  { unfold pattern_axis. cbn [a_name a_units a_size a_scale a_offset a_navigate a_index]. repeat (split; [reflexivity|]). split; [exists u0; split; [exact U0|reflexivity]|]. split; [exists c0; split; [exact SC0|reflexivity]|exists o0; split; [exact OF0|reflexivity]]. }
  assert (PB : pattern_axis "kx" 3 s1 root 1 {| a_name := str "kx"; a_units := x_text u1; a_size := s1; a_scale := Some (value unit c1); a_offset := value unit o1; a_navigate := false; a_index := 3 |}).
  { unfold pattern_axis. cbn [a_name a_units a_size a_scale a_offset a_navigate a_index]. repeat (split; [reflexivity|]). split; [exists u1; split; [exact U1|reflexivity]|]. split; [exists c1; split; [exact SC1|reflexivity]|exists o1; split; [exact OF1|reflexivity]]. }
  assert (SX : (fun c => if nx s =? 1 then c = None else exists q, c = Some q /\ about q (dx s)) (option_map around (step unit (ladder (x0 s) (dx s) (nx s))))).
  { cbn beta. destruct (nx s =? 1) eqn:N1; [unfold step; rewrite ladder_length by lia; rewrite N1; reflexivity|]. rewrite ladder_step by lia. cbn [option_map]. eexists. split; [reflexivity|]. rewrite around_cancel by lia. apply around_about. }
  assert (L2 : zlen (ladder (y0 s) (dy s) (if ny s =? 1 then 1 else 2)) = if ny s =? 1 then 1 else 2) by (apply ladder_length; destruct (ny s =? 1); lia). rewrite L2.
  destruct ((nx s * ny s) mod (if ny s =? 1 then 1 else 2) =? 0) eqn:MOD.
  - cbn [bind]. do 4 eexists. split; [reflexivity|]. split; [|split; [|split; assumption]].
    + unfold scan_axis. cbn [a_name a_units a_size a_scale a_offset a_navigate a_index]. do 2 (split; [reflexivity|]). split; [rewrite ladder_length by lia; rewrite Z.mul_comm; apply Z.div_mul; lia|]. do 2 (split; [reflexivity|]). split; [rewrite ladder_low by (destruct (ny s =? 1); lia); reflexivity|]. cbn [option_map]. rewrite ladder_low, ladder_high by (destruct (ny s =? 1); lia). destruct (ny s =? 1) eqn:N1.
      * eexists. split; [reflexivity|]. unfold around. cbn [Qnum Qden]. replace ((y0 s + (1 - 1) * dy s - y0 s) * 10 ^ 12) with (0 * Z.pos unit) by lia. rewrite round_div_exact by lia. reflexivity.
      * eexists. split; [reflexivity|]. replace (y0 s + (2 - 1) * dy s - y0 s) with (dy s) by lia. apply around_about.
    + unfold scan_axis. cbn [a_name a_units a_size a_scale a_offset a_navigate a_index]. do 2 (split; [reflexivity|]). split; [apply ladder_length; lia|]. do 2 (split; [reflexivity|]). split; [rewrite ladder_low by lia; reflexivity|exact SX].
  - destruct (all_places l s (map fst l) R NAMES) as [qs [EQ PQ]]. rewrite EQ. cbn [bind]. rewrite (all_x s qs X Y DX PQ), (all_y s qs X Y DY PQ). assert (N1 : (ny s =? 1) = false). { destruct (ny s =? 1); [|reflexivity]. rewrite Z.mod_1_r in MOD. discriminate MOD. } rewrite N1.
    do 4 eexists. split; [reflexivity|]. split; [|split; [|split; assumption]].
    + unfold scan_axis. cbn [a_name a_units a_size a_scale a_offset a_navigate a_index]. do 2 (split; [reflexivity|]). split; [apply ladder_length; lia|]. do 2 (split; [reflexivity|]). split; [rewrite ladder_low by lia; reflexivity|]. rewrite ladder_step by lia. cbn [option_map]. eexists. split; [reflexivity|]. rewrite around_cancel by lia. apply around_about.
    + unfold scan_axis. cbn [a_name a_units a_size a_scale a_offset a_navigate a_index]. do 2 (split; [reflexivity|]). split; [apply ladder_length; lia|]. do 2 (split; [reflexivity|]). split; [rewrite ladder_low by lia; reflexivity|exact SX].
Qed.
End Scan.
