(** C28, C49, C50: scan grids of TVIPS series. *)
From Coq Require Import Permutation.
From Verif Require Import Base Text Bytes HierModel Dict RowMajor TvipsModel TvipsProof TvipsProps.

(** ** Winding *)
(** Where line element [i] of a reversed and rolled line of length [n] comes from. *)
Definition back (h : Z) (n i : nat) : nat := Z.to_nat (Z.of_nat n - 1 - (Z.of_nat i - h) mod Z.of_nat n).
Definition source (w : winding) (h : Z) (ny nx j i : nat) : nat * nat :=
  match w with
  | WX => if Nat.even j then (j, back h nx i) else (j, i)
  | WY => if Nat.even i then (back h ny j, i) else (j, i)
  end.

Lemma back_lt : forall h n i, (i < n)%nat -> (back h n i < n)%nat.
Proof. intros h n i H. unfold back. assert (K := Z.mod_pos_bound (Z.of_nat i - h) (Z.of_nat n)). lia. Qed.
Lemma back_inj : forall h n i j, (i < n)%nat -> (j < n)%nat -> back h n i = back h n j -> i = j.
Proof.
  intros h n i j Hi Hj E. unfold back in E.
  assert (Ki := Z.mod_pos_bound (Z.of_nat i - h) (Z.of_nat n)). assert (Kj := Z.mod_pos_bound (Z.of_nat j - h) (Z.of_nat n)).
  assert (M : (Z.of_nat i - h) mod Z.of_nat n = (Z.of_nat j - h) mod Z.of_nat n) by lia. clear E Ki Kj.
  assert (D : (Z.of_nat i - Z.of_nat j) mod Z.of_nat n = 0).
  { replace (Z.of_nat i - Z.of_nat j) with ((Z.of_nat i - h) - (Z.of_nat j - h)) by lia. rewrite Zminus_mod, M, Z.sub_diag. apply Z.mod_0_l. lia. }
  apply Z.mod_divide in D; [|lia]. destruct D as [q D]. assert (q = 0) by nia. subst q. lia.
Qed.

Lemma nth_roll : forall h l i, (i < List.length l)%nat ->
  nth i (roll h l) 0 = nth (Z.to_nat ((Z.of_nat i - h) mod Z.of_nat (List.length l))) l 0.
Proof.
  intros h l i H. unfold roll. apply nth_error_nth. rewrite nth_error_map, nth_error_zseq by exact H. reflexivity.
Qed.
Lemma roll_length : forall h l, List.length (roll h l) = List.length l.
Proof. intros. unfold roll. rewrite map_length, zseq_length. reflexivity. Qed.
Lemma nth_turned : forall h row i, (i < List.length row)%nat -> nth i (roll h (rev row)) 0 = nth (back h (List.length row) i) row 0.
Proof.
  intros h row i H. rewrite nth_roll by (rewrite rev_length; exact H). rewrite rev_length.
  assert (K := Z.mod_pos_bound (Z.of_nat i - h) (Z.of_nat (List.length row))).
  rewrite rev_nth by lia. f_equal. unfold back. lia.
Qed.

Definition entry (m : list (list Z)) (j i : nat) : Z := nth i (nth j m []) 0.
Definition rect (ny nx : nat) (m : list (list Z)) : Prop := List.length m = ny /\ Forall (fun r => List.length r = nx) m.

Lemma wind_lines_rect : forall nx m h e, Forall (fun r => List.length r = nx) m -> rect (List.length m) nx (wind_lines h e m).
Proof.
  intros nx m. induction m as [|r m IH]; intros h e H; [split; [reflexivity|constructor]|]. inversion H as [|? ? H1 H2]; subst.
  destruct (IH h (negb e) H2) as [L F]. split; cbn [wind_lines List.length]; [rewrite L; reflexivity|]. constructor; [|exact F].
  destruct e; [rewrite roll_length, rev_length|]; reflexivity.
Qed.
Lemma wind_lines_entry : forall nx m h e j i, Forall (fun r => List.length r = nx) m -> (j < List.length m)%nat -> (i < nx)%nat ->
  entry (wind_lines h e m) j i = if Bool.eqb e (Nat.even j) then entry m j (back h nx i) else entry m j i.
Proof.
  intros nx m. induction m as [|r m IH]; intros h e j i H Hj Hi; [cbn in Hj; lia|]. inversion H as [|? ? H1 H2]; subst.
  destruct j as [|j]; cbn [wind_lines].
  - unfold entry. cbn [nth Nat.even]. destruct e; cbn [Bool.eqb]; [apply nth_turned; exact Hi|reflexivity].
  - cbn [List.length] in Hj. change (entry ((if e then roll h (rev r) else r) :: wind_lines h (negb e) m) (S j) i) with (entry (wind_lines h (negb e) m) j i).
    rewrite IH by (assumption || lia). rewrite Nat.even_succ, <- Nat.negb_even. change (entry (r :: m) (S j)) with (entry m j).
    destruct e, (Nat.even j); reflexivity.
Qed.

Lemma transpose_rect : forall nc m, rect nc (List.length m) (transpose nc m).
Proof.
  intros nc m. unfold transpose. split; [rewrite map_length, seq_length; reflexivity|]. apply Forall_forall. intros r Hr.
  apply in_map_iff in Hr. destruct Hr as [i [<- _]]. apply map_length.
Qed.
Lemma transpose_entry : forall nc m j i, (j < nc)%nat -> (i < List.length m)%nat -> entry (transpose nc m) j i = entry m i j.
Proof.
  intros nc m j i Hj Hi. unfold entry, transpose.
  assert (E : nth j (map (fun k => map (fun row => nth k row 0) m) (seq 0 nc)) [] = map (fun row => nth j row 0) m).
  { apply nth_error_nth. rewrite nth_error_map.
    assert (S : nth_error (seq 0 nc) j = Some j) by (rewrite (nth_error_nth' _ 0%nat) by (rewrite seq_length; exact Hj); rewrite seq_nth by exact Hj; reflexivity).
    rewrite S. reflexivity. }
  rewrite E. apply nth_error_nth. rewrite nth_error_map. rewrite (nth_error_nth' m []) by exact Hi. reflexivity.
Qed.

Lemma wind_grid_spec : forall w h ny nx m, rect ny nx m ->
  rect ny nx (wind_grid w h ny nx m) /\
  forall j i, (j < ny)%nat -> (i < nx)%nat -> entry (wind_grid w h ny nx m) j i = let (j', i') := source w h ny nx j i in entry m j' i'.
Proof.
  intros w h ny nx m [L F]. destruct w; cbn [wind_grid source].
  - split; [rewrite <- L; apply wind_lines_rect; exact F|]. intros j i Hj Hi.
    rewrite (wind_lines_entry nx) by (assumption || lia). destruct (Nat.even j); reflexivity.
  - destruct (transpose_rect nx m) as [TL TF]. rewrite L in TF.
    destruct (wind_lines_rect ny (transpose nx m) h true TF) as [WL WF]. rewrite TL in WL.
    split; [assert (K := transpose_rect ny (wind_lines h true (transpose nx m))); rewrite WL in K; exact K|]. intros j i Hj Hi.
    rewrite transpose_entry by lia. rewrite (wind_lines_entry ny) by (assumption || lia).
    destruct (Nat.even i) eqn:E; cbn [Bool.eqb]; rewrite transpose_entry; try lia; try reflexivity.
    rewrite L. apply back_lt. exact Hj.
Qed.

Lemma nth_concat : forall nx m j i, Forall (fun r : list Z => List.length r = nx) m -> (j < List.length m)%nat -> (i < nx)%nat ->
  nth (j * nx + i) (List.concat m) 0 = entry m j i.
Proof.
  intros nx m. induction m as [|r m IH]; intros j i H Hj Hi; [cbn in Hj; lia|]. inversion H as [|? ? H1 H2]; subst.
  cbn [List.concat]. destruct j as [|j].
  - cbn [Nat.mul plus]. rewrite app_nth1 by exact Hi. reflexivity.
  - rewrite app_nth2 by (cbn; lia). cbn [List.length] in Hj. change (entry (r :: m) (S j) i) with (entry m j i). rewrite <- IH by (assumption || lia).
    f_equal. cbn. lia.
Qed.

Lemma nth_slice : forall (l : list Z) a n p, (p < n)%nat -> nth p (slice a n l) 0 = nth (a + p) l 0.
Proof.
  intros l a n p H. unfold slice.
  assert (E : nth p (firstn n (skipn a l)) 0 = nth p (skipn a l) 0).
  { destruct (Nat.lt_ge_cases p (List.length (skipn a l))) as [K|K].
    - rewrite <- (firstn_skipn n (skipn a l)) at 2. rewrite app_nth1; [reflexivity|]. rewrite firstn_length. lia.
    - rewrite (nth_overflow (skipn a l)) by exact K. apply nth_overflow. rewrite firstn_length. lia. }
  rewrite E. clear E. revert l. induction a as [|a IH]; intros l; [reflexivity|]. destruct l as [|x l]; [cbn; destruct p; reflexivity|]. cbn. apply IH.
Qed.

Lemma records_entry : forall ny nx g j i, (j < ny)%nat -> (i < nx)%nat -> entry (records ny nx g) j i = nth (j * nx + i) g 0.
Proof.
  intros ny nx g j i Hj Hi. unfold entry. rewrite (nth_error_nth _ _ [] (nth_records _ ny nx g j Hj)). apply nth_slice. exact Hi.
Qed.

(** The wound index array, element by element. *)
Lemma wind_spec : forall w h pre ny nx ix, (1 <= ny)%nat -> (1 <= nx)%nat -> Forall (fun n => 1 <= n) pre ->
  Z.of_nat (List.length ix) = prodZ pre * (Z.of_nat ny * Z.of_nat nx) ->
  exists r, wind w h (pre ++ [Z.of_nat ny; Z.of_nat nx]) ix = Ok r /\ List.length r = List.length ix
    /\ forall b j i, (b < Z.to_nat (prodZ pre))%nat -> (j < ny)%nat -> (i < nx)%nat ->
         nth (b * (ny * nx) + (j * nx + i)) r 0 = let (j', i') := source w h ny nx j i in nth (b * (ny * nx) + (j' * nx + i')) ix 0.
Proof.
  intros w h pre ny nx ix Hy Hx Hp HL. unfold wind. rewrite rev_app_distr. cbn [rev app].
  assert (PR : prodZ (rev pre) = prodZ pre).
  { clear. assert (A : forall a b, prodZ (a ++ b) = prodZ a * prodZ b).
    { induction a as [|x a IH]; intros b; [cbn [app prodZ fold_right]; fold (prodZ b); lia|]. cbn [app prodZ fold_right]. fold (prodZ (a ++ b)). fold (prodZ a). rewrite IH. lia. }
    induction pre as [|x l IH]; [reflexivity|]. cbn [rev]. rewrite A, IH. cbn [prodZ fold_right]. fold (prodZ l). lia. }
  rewrite PR. assert (PP := prod_ge1 _ Hp). set (P := Z.to_nat (prodZ pre)).
  replace (Z.to_nat (Z.of_nat ny * Z.of_nat nx)) with (ny * nx)%nat by lia. rewrite !Nat2Z.id.
  set (f := fun g => List.concat (wind_grid w h ny nx (records ny nx g))).
  assert (HLn : List.length ix = (P * (ny * nx))%nat) by (unfold P; nia).
  set (gs := records P (ny * nx) ix).
  assert (Hg : Forall (fun g => List.length g = (ny * nx)%nat) gs) by (apply records_each; lia).
  assert (Hf : forall g, In g gs -> List.length (f g) = (ny * nx)%nat).
  { intros g Hin. rewrite Forall_forall in Hg. specialize (Hg g Hin). unfold f.
    assert (R : rect ny nx (records ny nx g)) by (split; [apply records_length|apply records_each; lia]).
    destruct (wind_grid_spec w h ny nx _ R) as [[L F] _]. rewrite (concat_length_const _ _ _ F), L. reflexivity. }
  eexists. split; [reflexivity|]. fold f. split.
  - rewrite (flat_map_len _ _ f gs _ Hf). unfold gs. rewrite records_length. lia.
  - intros b j i Hb Hj Hi.
    assert (Hr : (j * nx + i < ny * nx)%nat) by nia.
    assert (Hgb : nth_error gs b = Some (slice (b * (ny * nx)) (ny * nx) ix)) by (apply nth_records; exact Hb).
    set (g := slice (b * (ny * nx)) (ny * nx) ix) in *.
    assert (Hin : In g gs) by (eapply nth_error_In; exact Hgb).
    assert (Lg : List.length g = (ny * nx)%nat) by (rewrite Forall_forall in Hg; apply Hg; exact Hin).
    assert (R : rect ny nx (records ny nx g)) by (split; [apply records_length|apply records_each; lia]).
    destruct (wind_grid_spec w h ny nx _ R) as [[L F] S].
    assert (E : nth (b * (ny * nx) + (j * nx + i)) (flat_map f gs) 0 = nth (j * nx + i) (f g) 0).
    { assert (K := nth_error_flat_map _ _ f gs (ny * nx) b (j * nx + i) g Hf Hgb Hr).
      destruct (nth_error (f g) (j * nx + i)) as [v|] eqn:V.
      - rewrite (nth_error_nth _ _ 0 V). apply nth_error_nth. exact K.
      - apply nth_error_None in V. rewrite (Hf g Hin) in V. lia. }
    rewrite E. unfold f. rewrite (nth_concat nx) by (assumption || lia). rewrite S by assumption.
    assert (Hs : let (j', i') := source w h ny nx j i in (j' < ny)%nat /\ (i' < nx)%nat).
    { unfold source. destruct w; [destruct (Nat.even j)|destruct (Nat.even i)]; split; try lia; apply back_lt; assumption. }
    destruct (source w h ny nx j i) as [j' i']. destruct Hs as [Hj' Hi'].
    rewrite records_entry by assumption. unfold g. rewrite nth_slice by nia. reflexivity.
Qed.

Lemma source_inj : forall w h ny nx j i j2 i2, (j < ny)%nat -> (i < nx)%nat -> (j2 < ny)%nat -> (i2 < nx)%nat ->
  source w h ny nx j i = source w h ny nx j2 i2 -> j = j2 /\ i = i2.
Proof.
  intros w h ny nx j i j2 i2 Hj Hi Hj2 Hi2 E. destruct w; cbn [source] in E.
  - destruct (Nat.even j) eqn:A, (Nat.even j2) eqn:B; injection E as E1 E2; subst; try congruence; split; auto. apply back_inj in E2; assumption.
  - destruct (Nat.even i) eqn:A, (Nat.even i2) eqn:B; injection E as E1 E2; subst; try congruence; split; auto. apply back_inj in E1; assumption.
Qed.

Lemma decompose : forall ny nx P p, (p < P * (ny * nx))%nat -> exists b j i, (b < P)%nat /\ (j < ny)%nat /\ (i < nx)%nat /\ p = (b * (ny * nx) + (j * nx + i))%nat.
Proof.
  intros ny nx P p H. assert (N : (ny * nx <> 0)%nat) by (intro K; rewrite K in H; lia). assert (nx <> 0)%nat by (intro; subst; lia).
  exists (p / (ny * nx))%nat, ((p mod (ny * nx)) / nx)%nat, ((p mod (ny * nx)) mod nx)%nat.
  assert (D := Nat.div_mod p (ny * nx) N). assert (M := Nat.mod_upper_bound p (ny * nx) N).
  assert (D2 := Nat.div_mod (p mod (ny * nx)) nx H0). assert (M2 := Nat.mod_upper_bound (p mod (ny * nx)) nx H0).
  repeat split; try assumption.
  - apply Nat.div_lt_upper_bound; [exact N|]. rewrite (Nat.mul_comm (ny * nx) P). exact H.
  - apply Nat.div_lt_upper_bound; [exact H0|]. rewrite (Nat.mul_comm nx ny). exact M.
  - rewrite (Nat.mul_comm (_ / nx)), <- D2, (Nat.mul_comm (p / _)). exact D.
Qed.

Lemma mixed : forall M a r b q, (r < M)%nat -> (q < M)%nat -> (a * M + r = b * M + q)%nat -> a = b /\ r = q.
Proof. intros M a r b q H1 H2 E. assert (a = b) by nia. subst. lia. Qed.

Lemma wind_perm : forall w h pre ny nx start r, (1 <= ny)%nat -> (1 <= nx)%nat -> Forall (fun n => 1 <= n) pre ->
  wind w h (pre ++ [Z.of_nat ny; Z.of_nat nx]) (zseq start (Z.to_nat (prodZ pre) * (ny * nx))) = Ok r ->
  Permutation r (zseq start (Z.to_nat (prodZ pre) * (ny * nx))).
Proof.
  intros w h pre ny nx start r Hy Hx Hp E. assert (PP := prod_ge1 _ Hp). set (P := Z.to_nat (prodZ pre)) in *.
  destruct (wind_spec w h pre ny nx (zseq start (P * (ny * nx))) Hy Hx Hp) as [r' [E' [L S]]].
  { rewrite zseq_length. unfold P. nia. }
  rewrite E in E'. injection E' as <-. rewrite zseq_length in L. fold P in S.
  assert (V : forall b j i, (b < P)%nat -> (j < ny)%nat -> (i < nx)%nat ->
     nth (b * (ny * nx) + (j * nx + i)) r 0 = start + Z.of_nat (let (j', i') := source w h ny nx j i in b * (ny * nx) + (j' * nx + i'))
     /\ (let (j', i') := source w h ny nx j i in (j' < ny)%nat /\ (i' < nx)%nat)).
  { intros b j i Hb Hj Hi. 
    assert (Hs : let (j', i') := source w h ny nx j i in (j' < ny)%nat /\ (i' < nx)%nat).
    { unfold source. destruct w; [destruct (Nat.even j)|destruct (Nat.even i)]; split; try lia; apply back_lt; assumption. }
    split; [|exact Hs]. rewrite S by assumption. destruct (source w h ny nx j i) as [j' i']. destruct Hs as [Hj' Hi'].
    rewrite nth_zseq; [reflexivity|]. assert (j' * nx + i' < ny * nx)%nat by nia. nia. }
  apply NoDup_Permutation_bis.
  - apply (NoDup_nth r 0). rewrite L. intros p q Hp1 Hq1 Epq.
    destruct (decompose _ _ _ _ Hp1) as [b [j [i [Hb [Hj [Hi ->]]]]]]. destruct (decompose _ _ _ _ Hq1) as [b2 [j2 [i2 [Hb2 [Hj2 [Hi2 ->]]]]]].
    destruct (V b j i Hb Hj Hi) as [V1 S1]. destruct (V b2 j2 i2 Hb2 Hj2 Hi2) as [V2 S2]. rewrite V1, V2 in Epq.
    assert (SI := source_inj w h ny nx j i j2 i2 Hj Hi Hj2 Hi2).
    destruct (source w h ny nx j i) as [j' i'], (source w h ny nx j2 i2) as [j2' i2'].
    assert (Q : (b * (ny * nx) + (j' * nx + i') = b2 * (ny * nx) + (j2' * nx + i2'))%nat) by lia.
    assert (R1 : (j' * nx + i' < ny * nx)%nat) by nia. assert (R2 : (j2' * nx + i2' < ny * nx)%nat) by nia.
    destruct (mixed _ _ _ _ _ R1 R2 Q) as [-> Q2]. destruct (mixed nx j' i' j2' i2') as [-> ->]; try tauto.
    destruct (SI eq_refl) as [-> ->]. reflexivity.
  - rewrite zseq_length, L. apply Nat.le_refl.
  - intros x Hin. apply In_nth with (d := 0) in Hin. destruct Hin as [p [Hp1 <-]]. rewrite L in Hp1.
    destruct (decompose _ _ _ _ Hp1) as [b [j [i [Hb [Hj [Hi ->]]]]]]. destruct (V b j i Hb Hj Hi) as [V1 S1]. rewrite V1.
    apply in_zseq. destruct (source w h ny nx j i) as [j' i']. assert (j' * nx + i' < ny * nx)%nat by nia. nia.
Qed.

Lemma pick_ok : forall fs ix, Forall (fun i => 0 <= i < Z.of_nat (List.length fs)) ix -> pick fs ix = Ok (map (fun i => nth (Z.to_nat i) fs []) ix).
Proof.
  induction 1 as [|i ix Hi _ IH]; [reflexivity|]. cbn [pick map]. replace (i <? 0) with false by lia. replace (i <? 0) with false by lia.
  rewrite (nth_error_nth' fs []) by lia. rewrite IH. reflexivity.
Qed.

Lemma map_zseq_slice : forall A (d : A) fs n start, 0 <= start -> (Z.to_nat start + n <= List.length fs)%nat ->
  map (fun i => nth (Z.to_nat i) fs d) (zseq start n) = slice (Z.to_nat start) n fs.
Proof.
  intros A d fs n start Hs H. apply nth_ext with (d := d) (d' := d); rewrite map_length, zseq_length.
  - rewrite slice_length by exact H. reflexivity.
  - intros k Hk. assert (E : nth_error (map (fun i => nth (Z.to_nat i) fs d) (zseq start n)) k = Some (nth (Z.to_nat start + k) fs d)).
    { rewrite nth_error_map, nth_error_zseq by exact Hk. cbn [option_map]. f_equal. f_equal. lia. }
    rewrite (nth_error_nth _ _ d E). unfold slice.
    clear E. symmetry. assert (J : (k < List.length (firstn n (skipn (Z.to_nat start) fs)))%nat) by (rewrite firstn_length, skipn_length; lia).
    rewrite <- (app_nth1 _ (skipn n (skipn (Z.to_nat start) fs)) d J). rewrite firstn_skipn.
    clear J. assert (Q : forall a (l : list A), nth k (skipn a l) d = nth (a + k) l d).
    { induction a as [|a IH]; intros l; [reflexivity|]. destruct l as [|x l]; [cbn; destruct k; reflexivity|]. cbn. apply IH. }
    apply Q.
Qed.

Lemma zseq_slice_range : forall fs n start, 0 <= start -> (Z.to_nat start + n <= List.length fs)%nat -> Forall (fun i => 0 <= i < Z.of_nat (List.length (fs : list (list Z)))) (zseq start n).
Proof. intros. apply Forall_forall. intros i Hi. apply in_zseq in Hi. lia. Qed.

(** ** C28 *)
Definition grid_frame (fs : list (list Z)) (start : Z) (ny nx b j i : nat) : list Z :=
  nth (Z.to_nat start + (b * (ny * nx) + (j * nx + i))) fs [].

Theorem C28_winding : forall name d k w h pre ny nx start,
  load_stack name d = Ok k -> (1 <= ny)%nat -> (1 <= nx)%nat -> Forall (fun n => 1 <= n) pre -> 0 <= start ->
  start + prodZ pre * (Z.of_nat ny * Z.of_nat nx) <= Z.of_nat (List.length (k_frames k)) ->
  exists o, tvips_read name (SShape (pre ++ [Z.of_nat ny; Z.of_nat nx])) start (Some w) h d = Ok o
    /\ o_shape o = pre ++ [Z.of_nat ny; Z.of_nat nx; k_dimy k; k_dimx k]
    /\ Permutation (o_frames o) (slice (Z.to_nat start) (Z.to_nat (prodZ pre) * (ny * nx)) (k_frames k))
    /\ forall b j i, (b < Z.to_nat (prodZ pre))%nat -> (j < ny)%nat -> (i < nx)%nat ->
         grid_frame (o_frames o) 0 ny nx b j i =
         let (j', i') := source w h ny nx j i in grid_frame (k_frames k) start ny nx b j' i'.
Proof.
  intros name d k w h pre ny nx start Hk Hy Hx Hp Hs HB. assert (PP := prod_ge1 _ Hp). set (P := Z.to_nat (prodZ pre)) in *.
  unfold tvips_read. rewrite Hk. cbn [bind scan_indices].
  assert (PE : prodZ (pre ++ [Z.of_nat ny; Z.of_nat nx]) = prodZ pre * (Z.of_nat ny * Z.of_nat nx)).
  { clear. induction pre as [|x l IH]; [cbn [app prodZ fold_right]; lia|]. cbn [app prodZ fold_right]. fold (prodZ (l ++ [Z.of_nat ny; Z.of_nat nx])). fold (prodZ l). rewrite IH. lia. }
  rewrite PE. replace (Z.of_nat (List.length (k_frames k)) <? start + prodZ pre * (Z.of_nat ny * Z.of_nat nx)) with false by lia. cbn [bind].
  replace (Z.to_nat (prodZ pre * (Z.of_nat ny * Z.of_nat nx))) with (P * (ny * nx))%nat by (unfold P; nia).
  destruct (wind_spec w h pre ny nx (zseq start (P * (ny * nx))) Hy Hx Hp) as [r [E [L S]]].
  { rewrite zseq_length. unfold P. nia. }
  rewrite E. cbn [bind]. assert (PM := wind_perm _ _ _ _ _ _ _ Hy Hx Hp E). fold P in PM, S. rewrite zseq_length in L.
  assert (HBn : (Z.to_nat start + P * (ny * nx) <= List.length (k_frames k))%nat) by (unfold P; nia).
  assert (RG : Forall (fun i => 0 <= i < Z.of_nat (List.length (k_frames k))) r).
  { apply Forall_forall. intros i Hi. apply (Permutation_in _ PM) in Hi. apply in_zseq in Hi. lia. }
  rewrite pick_ok by exact RG. cbn [bind]. eexists. split; [reflexivity|]. cbn [o_shape o_frames]. split; [|split].
  - rewrite <- app_assoc. reflexivity.
  - rewrite <- (map_zseq_slice _ []) by assumption. apply Permutation_map. exact PM.
  - intros b j i Hb Hj Hi. unfold grid_frame at 1. cbn [Z.to_nat plus].
    assert (Q : (b * (ny * nx) + (j * nx + i) < List.length r)%nat) by (rewrite L; assert (j * nx + i < ny * nx)%nat by nia; nia).
    assert (E2 : nth_error (map (fun i0 => nth (Z.to_nat i0) (k_frames k) []) r) (b * (ny * nx) + (j * nx + i)) = Some (nth (Z.to_nat (nth (b * (ny * nx) + (j * nx + i)) r 0)) (k_frames k) [])).
    { rewrite nth_error_map. rewrite (nth_error_nth' r 0) by exact Q. reflexivity. }
    rewrite (nth_error_nth _ _ [] E2). rewrite S by assumption.
    assert (Hsrc : let (j', i') := source w h ny nx j i in (j' < ny)%nat /\ (i' < nx)%nat).
    { unfold source. destruct w; [destruct (Nat.even j)|destruct (Nat.even i)]; split; try lia; apply back_lt; assumption. }
    destruct (source w h ny nx j i) as [j' i']. destruct Hsrc as [Hj' Hi']. unfold grid_frame. f_equal.
    rewrite nth_zseq; [lia|]. assert (j' * nx + i' < ny * nx)%nat by nia. nia.
Qed.

(** Without winding the frames come in order. *)
Theorem C28_no_winding : forall name d k sh start h,
  load_stack name d = Ok k -> Forall (fun n => 1 <= n) sh -> 0 <= start -> start + prodZ sh <= Z.of_nat (List.length (k_frames k)) ->
  exists o, tvips_read name (SShape sh) start None h d = Ok o /\ o_shape o = sh ++ [k_dimy k; k_dimx k]
    /\ o_frames o = slice (Z.to_nat start) (Z.to_nat (prodZ sh)) (k_frames k).
Proof.
  intros name d k sh start h Hk Hp Hs HB. assert (PP := prod_ge1 _ Hp). unfold tvips_read. rewrite Hk. cbn [bind scan_indices].
  replace (Z.of_nat (List.length (k_frames k)) <? start + prodZ sh) with false by lia. cbn [bind].
  rewrite pick_ok by (apply zseq_slice_range; lia). cbn [bind]. eexists. split; [reflexivity|]. split; [reflexivity|].
  apply map_zseq_slice; lia.
Qed.

(** Too large a shape is refused. *)
Theorem C28_out_of_bounds : forall name d k sh start w h,
  load_stack name d = Ok k -> Z.of_nat (List.length (k_frames k)) < start + prodZ sh ->
  tvips_read name (SShape sh) start w h d = Err ValueError.
Proof.
  intros name d k sh start w h Hk HB. unfold tvips_read. rewrite Hk. cbn [bind scan_indices].
  replace (Z.of_nat (List.length (k_frames k)) <? start + prodZ sh) with true by lia. reflexivity.
Qed.

(** ** C49: axes *)
Theorem C49_scan_axes : forall name d k pre ny nx start w h o,
  load_stack name d = Ok k -> tvips_read name (SShape (pre ++ [ny; nx])) start w h d = Ok o ->
  map x_size (o_axes o) = o_shape o /\ o_shape o = pre ++ [ny; nx; k_dimy k; k_dimx k]
  /\ map x_name (o_axes o) = repeat ""%string (List.length pre) ++ ["y"; "x"; "dy"; "dx"]%string
  /\ map x_image (o_axes o) = repeat false (List.length pre) ++ [false; false; true; true]
  /\ map x_nav (o_axes o) = repeat true (List.length pre) ++ [true; true; false; false].
Proof.
  intros name d k pre ny nx start w h o Hk H. unfold tvips_read in H. rewrite Hk in H. cbn [bind scan_indices] in H.
  destruct (_ <? _) in H; [discriminate|]. cbn [bind] in H.
  destruct (match w with None => _ | Some _ => _ end) as [ix|] in H; cbn [bind] in H; [|discriminate].
  destruct (pick _ _) as [fs|] in H; cbn [bind] in H; [|discriminate]. injection H as <-. cbn [o_axes o_shape].
  rewrite app_length. cbn [List.length]. replace (List.length pre + 2 - 2)%nat with (List.length pre) by lia. rewrite <- app_assoc. cbn [app].
  assert (Z0 : forall pre, zip_axes (repeat ""%string (List.length pre) ++ ["y"; "x"; "dy"; "dx"]%string) (repeat false (List.length pre) ++ [false; false; true; true])
      (pre ++ [ny; nx; k_dimy k; k_dimx k]) (List.length pre + 2)
      = map (fun n => mkTaxis "" n false true) pre ++ [mkTaxis "y" ny false true; mkTaxis "x" nx false true; mkTaxis "dy" (k_dimy k) true false; mkTaxis "dx" (k_dimx k) true false]).
  { clear. induction pre as [|n l IH]; [reflexivity|]. cbn [List.length repeat app plus zip_axes map]. cbn [pred]. rewrite IH. reflexivity. }
  rewrite Z0. rewrite !map_app, !map_map. cbn [map x_name x_size x_image x_nav]. rewrite map_id.
  assert (R : forall A (v : A) (l : list Z), map (fun _ => v) l = repeat v (List.length l)) by (clear; induction l as [|x l IH]; [reflexivity|cbn; f_equal; exact IH]).
  rewrite !R. repeat split; reflexivity.
Qed.

Theorem C49_stack_axes : forall name d k start w h o,
  load_stack name d = Ok k -> tvips_read name SNone start w h d = Ok o ->
  o_frames o = k_frames k /\ o_shape o = [Z.of_nat (List.length (k_frames k)); k_dimy k; k_dimx k]
  /\ map x_size (o_axes o) = o_shape o /\ map x_name (o_axes o) = ["time"; "dy"; "dx"]%string
  /\ map x_image (o_axes o) = [false; true; true] /\ map x_nav (o_axes o) = [true; false; false].
Proof.
  intros name d k start w h o Hk H. unfold tvips_read in H. rewrite Hk in H. cbn [bind] in H.
  destruct (k_time k) as [|t1 [|t2 ts]]; try discriminate. injection H as <-. repeat split.
Qed.

(** ** C50: automatic scan grids *)
Lemma nth_set_from : forall pos vs l p, (pos + List.length vs <= List.length l)%nat ->
  nth p (set_from pos vs l) 0 = if (pos <=? p)%nat && (p <? pos + List.length vs)%nat then nth (p - pos) vs 0 else nth p l 0.
Proof.
  intros pos vs l p H. unfold set_from. assert (LF : List.length (firstn pos l) = pos) by (apply firstn_length_le; lia).
  destruct (pos <=? p)%nat eqn:A; cbn [andb].
  - rewrite app_nth2 by lia. rewrite LF. destruct (p <? pos + List.length vs)%nat eqn:B.
    + rewrite app_nth1 by lia. reflexivity.
    + rewrite app_nth2 by lia. assert (Q : forall a k (m : list Z), nth k (skipn a m) 0 = nth (a + k) m 0).
      { induction a as [|a IH]; intros k m; [reflexivity|]. destruct m as [|x m]; [cbn; destruct k; reflexivity|]. cbn. apply IH. }
      rewrite Q. f_equal. lia.
  - rewrite app_nth1 by lia. rewrite <- (firstn_skipn pos l) at 2. rewrite app_nth1 by lia. reflexivity.
Qed.
Lemma set_from_length : forall pos vs l, (pos + List.length vs <= List.length l)%nat -> List.length (set_from pos vs l) = List.length l.
Proof. intros pos vs l H. unfold set_from. rewrite !app_length, firstn_length, skipn_length. lia. Qed.

Definition nondecreasing (R : list Z) : Prop := forall a b, (a <= b < List.length R)%nat -> nth a R 0 <= nth b R 0.
(** Frame [q] is the right one for scan position [p] (counted from zero): its rotator index is
    the largest that does not exceed p + 1, and if it is p + 1 it is the first such frame. *)
Definition right_frame (R : list Z) (p : nat) (q : Z) : Prop :=
  0 <= q < Z.of_nat (List.length R)
  /\ nth (Z.to_nat q) R 0 <= Z.of_nat p + 1
  /\ (forall q', (q' < List.length R)%nat -> nth q' R 0 <= Z.of_nat p + 1 -> nth q' R 0 <= nth (Z.to_nat q) R 0)
  /\ (nth (Z.to_nat q) R 0 = Z.of_nat p + 1 -> forall q', (q' < Z.to_nat q)%nat -> nth q' R 0 < Z.of_nat p + 1).

Lemma nth_stack : forall a n k, (k < n)%nat -> nth k (zseq a n) 0 = a + Z.of_nat k.
Proof. intros. apply nth_zseq. assumption. Qed.
Lemma last_zseq : forall n a, (0 < n)%nat -> last (zseq a n) 0 = a + Z.of_nat n - 1.
Proof.
  induction n as [|n IH]; intros a H; [lia|]. destruct n as [|n]; [cbn; lia|].
  change (last (zseq a (S (S n))) 0) with (last (zseq (a + 1) (S n)) 0). rewrite IH by lia. lia.
Qed.
Lemma nth_repeat' : forall (v : Z) n k, (k < n)%nat -> nth k (repeat v n) 0 = v.
Proof. induction n as [|n IH]; intros k H; [lia|]. destruct k; cbn; [reflexivity|apply IH; lia]. Qed.

Lemma guess_loop_spec : forall R v0, nondecreasing R -> forall rest i inv vinv ix,
  (i <= List.length R)%nat -> rest = skipn i R -> 1 <= v0 <= vinv ->
  (inv <= i)%nat -> (inv < List.length R)%nat -> nth inv R 0 = vinv ->
  (forall q, (q < inv)%nat -> nth q R 0 < vinv) -> (forall q, (inv <= q < i)%nat -> nth q R 0 = vinv) -> (i <> 0%nat -> (inv < i)%nat) ->
  Z.of_nat (List.length ix) = last R 0 ->
  (forall p, v0 - 1 <= Z.of_nat p < vinv - 1 -> right_frame R p (nth p ix 0)) ->
  (forall p, Z.of_nat p < v0 - 1 -> nth p ix 0 = 0) ->
  exists ix' inv', guess_loop rest (Z.of_nat i) (Z.of_nat inv) vinv ix = Ok (ix', Z.of_nat inv', last R 0)
    /\ (inv' < List.length R)%nat /\ nth inv' R 0 = last R 0 /\ (forall q, (q < inv')%nat -> nth q R 0 < last R 0)
    /\ List.length ix' = List.length ix
    /\ (forall p, v0 - 1 <= Z.of_nat p < last R 0 - 1 -> right_frame R p (nth p ix' 0))
    /\ (forall p, Z.of_nat p < v0 - 1 -> nth p ix' 0 = 0).
Proof.
  intros R v0 HR rest. induction rest as [|v rest IH]; intros i inv vinv ix Hi Hrest Hv Hinv HinvR Evinv Hlt Heq Hne HL Hgood Hzero; cbn [guess_loop].
  - assert (List.length R = i). { assert (K := f_equal (@List.length Z) Hrest). rewrite skipn_length in K. cbn in K. lia. }
    assert (EL : last R 0 = vinv).
    { assert (R <> []) by (destruct R; [cbn in HinvR; lia|discriminate]).
      rewrite <- (Heq (i - 1)%nat).
      - rewrite (app_removelast_last 0 H0) at 2. assert (LR : List.length (removelast R) = (i - 1)%nat).
        { assert (K := f_equal (@List.length Z) (app_removelast_last 0 H0)). rewrite app_length in K. cbn in K. lia. }
        rewrite app_nth2 by lia. rewrite LR, Nat.sub_diag. reflexivity.
      - destruct (Nat.eq_dec i 0) as [Z0|N0]; [lia|]. specialize (Hne N0). lia. }
    exists ix, inv. rewrite EL. split; [reflexivity|]. split; [exact HinvR|]. split; [exact Evinv|]. split; [exact Hlt|]. split; [reflexivity|]. split; [exact Hgood|exact Hzero].
  - assert (Hlen : (i < List.length R)%nat). { assert (K := f_equal (@List.length Z) Hrest). rewrite skipn_length in K. cbn in K. lia. }
    assert (Ev : nth i R 0 = v).
    { rewrite <- (firstn_skipn i R). rewrite app_nth2 by (rewrite firstn_length; lia). rewrite firstn_length. replace (i - Nat.min i (List.length R))%nat with 0%nat by lia. rewrite <- Hrest. reflexivity. }
    assert (Hr2 : rest = skipn (S i) R). { replace (S i) with (i + 1)%nat by lia. rewrite <- skipn_skipn. rewrite <- Hrest. reflexivity. }
    replace (Z.of_nat i + 1) with (Z.of_nat (S i)) by lia.
    destruct (v =? vinv) eqn:E1.
    + apply IH; auto; try lia.
      intros q Hq. destruct (Nat.eq_dec q i) as [->|]; [lia|]. apply Heq. lia.
    + assert (Hge : vinv <= v). { rewrite <- Evinv, <- Ev. apply HR. lia. }
      replace (v <? vinv) with false by lia.
      assert (Hinv_i : (inv < i)%nat). { destruct (Nat.eq_dec inv i) as [EI|]; [subst i; lia|lia]. }
      set (span := v - vinv). assert (Hspan : 1 <= span) by (unfold span; lia).
      set (len := Z.to_nat (Z.min (Z.of_nat i - Z.of_nat inv) span)).
      assert (Hlen1 : (1 <= len)%nat) by (unfold len; lia). assert (Hlen2 : Z.of_nat len <= span) by (unfold len; lia). assert (Hlen3 : (len <= i - inv)%nat) by (unfold len; lia).
      assert (Hlast : v <= last R 0).
      { assert (R <> []) by (destruct R; [cbn in HinvR; lia|discriminate]). rewrite <- Ev.
        assert (LN : last R 0 = nth (List.length R - 1) R 0).
        { rewrite (app_removelast_last 0 H) at 3. assert (LR : List.length (removelast R) = (List.length R - 1)%nat).
          { assert (K := f_equal (@List.length Z) (app_removelast_last 0 H)). rewrite app_length in K. cbn in K. lia. }
          rewrite app_nth2 by lia. rewrite LR, Nat.sub_diag. reflexivity. }
        rewrite LN. apply HR. lia. }
      set (base := Z.to_nat (vinv - 1)). 
      set (ix1 := set_from base (repeat (last (zseq (Z.of_nat inv) len) 0) (Z.to_nat span)) ix).
      assert (B1 : (base + List.length (repeat (last (zseq (Z.of_nat inv) len) 0%Z) (Z.to_nat span)) <= List.length ix)%nat) by (rewrite repeat_length; unfold base, span; lia).
      assert (L1 : List.length ix1 = List.length ix) by (apply set_from_length; exact B1).
      set (ix2 := set_from base (zseq (Z.of_nat inv) len) ix1).
      assert (B2 : (base + List.length (zseq (Z.of_nat inv) len) <= List.length ix1)%nat) by (rewrite zseq_length, L1; rewrite repeat_length in B1; lia).
      assert (L2 : List.length ix2 = List.length ix) by (unfold ix2; rewrite set_from_length by exact B2; exact L1).
      assert (NV : forall p, nth p ix2 0 = if (base <=? p)%nat && (p <? base + Z.to_nat span)%nat then Z.of_nat inv + Z.of_nat (Nat.min (p - base) (len - 1)) else nth p ix 0).
      { intros p. unfold ix2. rewrite nth_set_from by exact B2. rewrite zseq_length. unfold ix1. rewrite nth_set_from by exact B1. rewrite repeat_length.
        destruct (base <=? p)%nat eqn:A1; cbn [andb]; [|reflexivity]. destruct (p <? base + len)%nat eqn:A2.
        - replace (p <? base + Z.to_nat span)%nat with true by lia. rewrite nth_stack by lia. lia.
        - destruct (p <? base + Z.to_nat span)%nat eqn:A3; [|reflexivity]. rewrite nth_repeat' by lia. rewrite last_zseq by lia. lia. }
      assert (IHx := IH (S i) i v ix2). clear IH. rewrite L2 in IHx. apply IHx; clear IHx; auto; try lia.
      * intros q Hq. destruct (Nat.lt_ge_cases q inv) as [K|K]; [specialize (Hlt q K); lia|]. rewrite Heq by lia. lia.
      * intros q Hq. replace q with i by lia. exact Ev.
      * intros p Hp. destruct (Z_lt_le_dec (Z.of_nat p) (vinv - 1)) as [K|K].
        -- rewrite NV. replace (base <=? p)%nat with false by (unfold base; lia). cbn [andb]. apply Hgood. lia.
        -- rewrite NV. replace ((base <=? p)%nat && (p <? base + Z.to_nat span)%nat) with true by (unfold base, span; lia).
           set (q := (inv + Nat.min (p - base) (len - 1))%nat). replace (Z.of_nat inv + Z.of_nat (Nat.min (p - base) (len - 1))) with (Z.of_nat q) by (unfold q; lia).
           assert (Hq : (inv <= q < i)%nat) by (unfold q; lia). unfold right_frame. rewrite Nat2Z.id. rewrite (Heq q Hq). repeat split.
           ++ lia.
           ++ lia.
           ++ lia.
           ++ intros q' Hq' Hle. destruct (Nat.lt_ge_cases q' i) as [J|J].
              ** destruct (Nat.lt_ge_cases q' inv) as [J2|J2]; [specialize (Hlt q' J2); lia|]. rewrite Heq by lia. lia.
              ** assert (nth i R 0 <= nth q' R 0) by (apply HR; lia). lia.
           ++ intros EQ q' Hq'. assert (q = inv) by (clear - EQ; unfold q, base; lia). assert (J : (q' < inv)%nat) by lia. specialize (Hlt q' J). lia.
      * intros p Hp. rewrite NV. replace (base <=? p)%nat with false by (unfold base; lia). cbn [andb]. apply Hzero. exact Hp.
Qed.

Theorem C50_grid : forall rot start stop R v0, (start <= stop < List.length rot)%nat -> R = slice start (stop + 1 - start) rot ->
  nondecreasing R -> nth 0 R 0 = v0 -> 1 <= v0 ->
  exists ix, guess_grid rot (Z.of_nat start) (Z.of_nat stop) = Ok ix
    /\ Z.of_nat (List.length ix) = nth stop rot 0
    /\ (forall p, v0 - 1 <= Z.of_nat p < nth stop rot 0 -> exists q, nth p ix 0 = Z.of_nat start + q /\ right_frame R p q)
    /\ (forall p, Z.of_nat p < v0 - 1 -> Z.of_nat p < nth stop rot 0 -> nth p ix 0 = Z.of_nat start).
Proof.
  intros rot start stop R v0 Hss ER HR Hv0 H1. unfold guess_grid. rewrite !Nat2Z.id.
  replace (Z.to_nat (Z.of_nat stop + 1 - Z.of_nat start)) with (stop + 1 - start)%nat by lia. rewrite <- ER.
  assert (LR : List.length R = (stop + 1 - start)%nat) by (rewrite ER; apply slice_length; lia).
  assert (NL : last R 0 = nth stop rot 0).
  { assert (NE : R <> []) by (destruct R; [cbn in LR; lia|discriminate]).
    assert (LN : last R 0 = nth (List.length R - 1) R 0).
    { rewrite (app_removelast_last 0 NE) at 3. assert (L2 : List.length (removelast R) = (List.length R - 1)%nat).
      { assert (K := f_equal (@List.length Z) (app_removelast_last 0 NE)). rewrite app_length in K. cbn in K. lia. }
      rewrite app_nth2 by lia. rewrite L2, Nat.sub_diag. reflexivity. }
    rewrite LN, LR. rewrite ER. rewrite nth_slice by lia. f_equal. lia. }
  assert (FL : v0 <= last R 0).
  { rewrite NL. assert (K : nth 0 R 0 <= nth (stop - start) R 0) by (apply HR; lia).
    replace (nth (stop - start) R 0) with (nth stop rot 0) in K; [lia|]. rewrite ER, nth_slice by lia. f_equal. lia. }
  destruct R as [|v R']; [cbn in LR; lia|]. cbn [nth] in Hv0. subst v. replace (v0 <=? 0) with false by lia.
  destruct (guess_loop_spec (v0 :: R') v0 HR (v0 :: R') 0 0 v0 (repeat 0 (Z.to_nat (nth stop rot 0)))) as [ix [inv [E [H2 [H3 [H4 [H5 [H6 H7]]]]]]]]; auto; try lia.
  - rewrite repeat_length. lia.
  - intros p Hp. destruct (Nat.lt_ge_cases p (Z.to_nat (nth stop rot 0))) as [J|J]; [apply nth_repeat'; exact J|apply nth_overflow; rewrite repeat_length; exact J].
  - cbn [Z.of_nat] in E. rewrite E. cbn [bind]. rewrite NL in *. rewrite repeat_length in H5.
    replace (nth stop rot 0 - (nth stop rot 0 - 1)) with 1 by lia. change (Z.to_nat 1) with 1%nat. cbn [repeat].
    set (n := nth stop rot 0) in *. eexists. split; [reflexivity|].
    assert (B : (Z.to_nat (n - 1) + List.length [Z.of_nat inv] <= List.length ix)%nat) by (cbn [List.length]; lia).
    assert (NM : forall p, (p < Z.to_nat n)%nat -> nth p (map (fun x => x + Z.of_nat start) (set_from (Z.to_nat (n - 1)) [Z.of_nat inv] ix)) 0 =
      (if (p =? Z.to_nat (n - 1))%nat then Z.of_nat inv else nth p ix 0) + Z.of_nat start).
    { intros p Hp. assert (LS := set_from_length _ _ _ B).
      assert (E2 : nth_error (map (fun x => x + Z.of_nat start) (set_from (Z.to_nat (n - 1)) [Z.of_nat inv] ix)) p = Some (nth p (set_from (Z.to_nat (n - 1)) [Z.of_nat inv] ix) 0 + Z.of_nat start)).
      { rewrite nth_error_map. rewrite (nth_error_nth' _ 0) by lia. reflexivity. }
      rewrite (nth_error_nth _ _ 0 E2). f_equal. rewrite nth_set_from by exact B. cbn [List.length].
      destruct (p =? Z.to_nat (n - 1))%nat eqn:F.
      - replace ((Z.to_nat (n - 1) <=? p)%nat && (p <? Z.to_nat (n - 1) + 1)%nat) with true by lia. replace (p - Z.to_nat (n - 1))%nat with 0%nat by lia. reflexivity.
      - replace ((Z.to_nat (n - 1) <=? p)%nat && (p <? Z.to_nat (n - 1) + 1)%nat) with false by lia. reflexivity. }
    split; [rewrite map_length, set_from_length by exact B; lia|]. split.
    + intros p Hp. rewrite NM by lia. destruct (p =? Z.to_nat (n - 1))%nat eqn:F.
      * exists (Z.of_nat inv). split; [lia|]. unfold right_frame. rewrite Nat2Z.id, H3. repeat split; try lia.
        intros _ q' Hq'. specialize (H4 q' Hq'). lia.
      * exists (nth p ix 0). split; [lia|]. apply H6. lia.
    + intros p Hp1 Hp2. rewrite NM by lia. replace (p =? Z.to_nat (n - 1))%nat with false by lia. rewrite H7 by exact Hp1. lia.
Qed.

(** A square scan written by the package is recognised. *)
Lemma changes_seq : forall n a i, (1 <= n)%nat -> changes i (zseq a n) = zseq i (n - 1).
Proof.
  induction n as [|n IH]; intros a i H; [lia|]. destruct n as [|n]; [reflexivity|].
  transitivity (if 0 <? (a + 1 - a) mod 2 ^ 32 then i :: changes (i + 1) (zseq (a + 1) (S n)) else changes (i + 1) (zseq (a + 1) (S n))); [reflexivity|].
  replace ((a + 1 - a) mod 2 ^ 32) with 1 by (replace (a + 1 - a) with 1 by lia; reflexivity). change (0 <? 1) with true. cbv iota. rewrite IH by lia.
  replace (S (S n) - 1)%nat with (S (S n - 1))%nat by lia. reflexivity.
Qed.

Theorem C50_written_scan : forall fnb ext s maxsize extra d n, good_sig s extra -> strip_000 fnb <> [] -> tvips_ext ext ->
  t_nav s = [n; n] -> 2 <= n ->
  lookup (part_name (strip_000 fnb) ext (file_count s extra maxsize)) d = None ->
  exists d' o, tvips_write fnb ext s maxsize 2 extra d = Ok d'
    /\ tvips_read (part_name (strip_000 fnb) ext 0) SAuto 0 None 0 d' = Ok o
    /\ o_shape o = [n; n; t_dimy s; t_dimx s] /\ o_frames o = t_frames s.
Proof.
  intros fnb ext s maxsize extra d n G Hf He Hnav Hn Hfree.
  destruct (write_spec fnb ext s maxsize 2 extra d G) as [d' [cs [H1 _]]]. exists d'.
  destruct (load_after_write _ _ _ _ _ _ _ G Hf He H1 Hfree) as [tm [L LT]].
  assert (HL : Z.of_nat (List.length (t_frames s)) = n * n).
  { destruct G as [_ [_ [_ [_ [_ [_ [HL _]]]]]]]. rewrite HL, Hnav. cbn [prodZ fold_right]. lia. }
  unfold tvips_read. rewrite L. cbn [bind scan_indices k_rot k_frames k_dimy k_dimx].
  set (N := List.length (t_frames s)) in *. assert (HN : (4 <= N)%nat) by nia.
  unfold auto_start_stop. rewrite changes_seq by lia. destruct (N - 1)%nat as [|m] eqn:EN; [lia|]. cbn [zseq].
  change (0 :: zseq (0 + 1) m) with (zseq 0 (S m)). rewrite last_zseq by lia.
  replace (nth (Z.to_nat 0) (zseq 1 N) 0) with 1 by (destruct N; [lia|reflexivity]). cbn [Z.eqb].
  replace (0 + Z.of_nat (S m) - 1 + 1) with (Z.of_nat (N - 1)) by lia. rewrite Nat2Z.id.
  assert (TOT : nth (N - 1) (zseq 1 N) 0 = n * n) by (rewrite nth_zseq by lia; lia). rewrite TOT. rewrite Z.sqrt_square by lia. rewrite Z.eqb_refl. cbn [negb].
  assert (SL : zseq 1 N = slice 0 (N - 1 + 1 - 0) (zseq 1 N)) by (unfold slice; cbn [skipn]; symmetry; apply firstn_all2; rewrite zseq_length; lia).
  destruct (C50_grid (zseq 1 N) 0 (N - 1) (zseq 1 N) 1) as [ix [E [LI [P1 _]]]]; auto; try lia.
  - rewrite zseq_length. lia.
  - intros a b Hab. rewrite zseq_length in Hab. rewrite !nth_zseq by lia. lia.
  - destruct N; [lia|reflexivity].
  - change (Z.of_nat 0) with 0 in E. rewrite E. cbn [bind]. rewrite TOT in LI, P1.
    assert (IX : ix = zseq 0 N).
    { apply nth_ext with (d := 0) (d' := 0); [rewrite zseq_length; lia|]. intros p Hp. destruct (P1 p ltac:(lia)) as [q [Q1 [Q2 [Q3 [Q4 _]]]]].
      rewrite zseq_length in Q2, Q4. rewrite nth_zseq in Q3 by lia. specialize (Q4 p ltac:(lia)). rewrite !nth_zseq in Q4 by lia. rewrite nth_zseq by lia. lia. }
    subst ix. rewrite pick_ok by (apply (zseq_slice_range (t_frames s) N 0); [lia|unfold N; lia]). cbn [bind]. eexists.
    split; [exact H1|]. split; [reflexivity|]. split; [reflexivity|]. cbn [o_frames]. apply (nth_frames _ [] (t_frames s)).
Qed.

(** ** Witnesses *)
Definition ex6 : tsig := ex_sig [6] [[1; 2]; [3; 4]; [5; 6]; [7; 8]; [9; 10]; [11; 12]].
Definition ex6_dir : dir := match tvips_write (str "a") (str ".tvips") ex6 (Some 400) 2 0 [] with Ok d => d | Err _ => [] end.
Definition ex6_stack : stack := match load_stack (str "a_000.tvips") ex6_dir with Ok k => k | Err _ => mkStack 0 0 0 [] [] [] end.
Lemma ex6_load : load_stack (str "a_000.tvips") ex6_dir = Ok ex6_stack.
Proof. vm_compute. reflexivity. Qed.
Example C28_ex : exists o, tvips_read (str "a_000.tvips") (SShape [2; 3]) 0 (Some WX) 1 ex6_dir = Ok o /\ Permutation (o_frames o) (t_frames ex6).
Proof.
  destruct (C28_winding _ _ _ WX 1 [] 2 3 0 ex6_load) as [o [H1 [_ [H2 _]]]]; try lia; [constructor|vm_compute; discriminate|].
  exists o. split; [exact H1|]. replace (t_frames ex6) with (slice 0 6 (k_frames ex6_stack)) by (vm_compute; reflexivity). exact H2.
Qed.
Example C28_ex2 : (let! o := tvips_read (str "a_000.tvips") (SShape [2; 3]) 0 (Some WX) 1 ex6_dir in Ok (o_frames o))
  = Ok [[1; 2]; [5; 6]; [3; 4]; [7; 8]; [9; 10]; [11; 12]].
Proof. vm_compute. reflexivity. Qed.
Example C49_ex : exists o, tvips_read (str "a_000.tvips") (SShape [2; 3]) 0 None 0 ex6_dir = Ok o /\ map x_name (o_axes o) = ["y"; "x"; "dy"; "dx"]%string.
Proof.
  destruct (C28_no_winding _ _ _ [2; 3] 0 0 ex6_load) as [o [H _]]; [repeat constructor; lia|lia|vm_compute; discriminate|].
  exists o. split; [exact H|]. apply (C49_scan_axes _ _ _ [] 2 3 0 None 0 o ex6_load H).
Qed.
Example C49_stack_ex : exists o, tvips_read (str "a_000.tvips") SNone 0 None 0 ex6_dir = Ok o /\ o_shape o = [6; 1; 2].
Proof.
  destruct (tvips_read (str "a_000.tvips") SNone 0 None 0 ex6_dir) as [o|e] eqn:E; [|vm_compute in E; discriminate].
  exists o. split; [reflexivity|]. destruct (C49_stack_axes _ _ _ _ _ _ _ ex6_load E) as [_ [H _]]. rewrite H. vm_compute. reflexivity.
Qed.
(** Position 2 was recorded twice, positions 4 and 5 not at all. *)
Example C50_ex : guess_grid [1; 2; 2; 3; 6] 0 4 = Ok [0; 1; 3; 3; 3; 4].
Proof. vm_compute. reflexivity. Qed.
Example C50_ex2 : exists ix, guess_grid [1; 2; 2; 3; 6] 0 4 = Ok ix /\ exists q, nth 1 ix 0 = 0 + q /\ right_frame [1; 2; 2; 3; 6] 1 q.
Proof.
  destruct (C50_grid [1; 2; 2; 3; 6] 0 4 [1; 2; 2; 3; 6] 1) as [ix [H1 [_ [H2 _]]]]; cbn [List.length]; try lia; try reflexivity.
  - intros a b Hab. cbn [List.length] in Hab. do 5 (destruct a as [|a]; [do 5 (destruct b as [|b]; [cbn; lia|]); lia|]). lia.
  - exists ix. split; [exact H1|]. apply H2. cbn. lia.
Qed.
Example C50_written_ex : exists d' o, tvips_write (str "a") (str ".tvips") (ex_sig [2; 2] [[1; 2]; [3; 4]; [5; 6]; [7; 8]]) (Some 400) 2 0 [] = Ok d'
   /\ tvips_read (str "a_000.tvips") SAuto 0 None 0 d' = Ok o /\ o_shape o = [2; 2; 1; 2] /\ o_frames o = [[1; 2]; [3; 4]; [5; 6]; [7; 8]].
Proof.
  apply (C50_written_scan (str "a") (str ".tvips") (ex_sig [2; 2] [[1; 2]; [3; 4]; [5; 6]; [7; 8]]) (Some 400) 0 [] 2).
  - split; [discriminate|]. split; [repeat constructor; lia|]. repeat split; cbn; try lia. repeat constructor.
  - discriminate. - apply ext_ok. - reflexivity. - lia. - reflexivity.
Qed.

(** ** Refutations *)
(** Winding needs two scan axes. *)
Theorem C28_one_scan_axis_refuted : tvips_read (str "a_000.tvips") (SShape [6]) 0 (Some WX) 0 ex6_dir = Err IndexError.
Proof. vm_compute. reflexivity. Qed.
(** With a single scan axis the image axes get the names and scales of scan axes. *)
Theorem C49_one_scan_axis_refuted : exists o, tvips_read (str "a_000.tvips") (SShape [6]) 0 None 0 ex6_dir = Ok o
  /\ map x_name (o_axes o) = ["y"; "x"; "dy"]%string /\ map x_image (o_axes o) = [false; false; true] /\ map x_nav (o_axes o) = [true; false; false].
Proof. eexists. split; [vm_compute; reflexivity|]. repeat split. Qed.
(** Rotator indices that return to zero after the scan: the stop is found one frame too late,
    at an index of zero, because differences of unsigned numbers are never negative. *)
Theorem C50_reset_refuted : exists a b, auto_start_stop [0; 0; 1; 2; 3; 4; 0; 0] = Some (a, b)
  /\ nth (Z.to_nat b) [0; 0; 1; 2; 3; 4; 0; 0] 0 = 0 /\ nth (Z.to_nat (b - 1)) [0; 0; 1; 2; 3; 4; 0; 0] 0 = 4.
Proof. do 2 eexists. split; [vm_compute; reflexivity|]. split; reflexivity. Qed.

Print Assumptions C28_winding.
Print Assumptions C28_no_winding.
Print Assumptions C28_one_scan_axis_refuted.
Print Assumptions C28_out_of_bounds.
Print Assumptions C49_scan_axes.
Print Assumptions C49_stack_axes.
Print Assumptions C49_one_scan_axis_refuted.
Print Assumptions C50_grid.
Print Assumptions C50_written_scan.
Print Assumptions C50_reset_refuted.
