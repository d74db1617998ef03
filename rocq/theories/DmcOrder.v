(** Delmic files: stable sorting, removing and reordering dimensions (C111). *)
From Coq Require Import QArith Lia Permutation Sorted.
From Verif Require Import Base Text HierModel HierProps DistModel RowMajor DmcModel.
Local Open Scope Z_scope.

(** * Stable sorting *)
Section Group.
  Context {A : Type} (key : A -> Z).
  Definition grouped (ks : list Z) (l : list A) : list A := flat_map (fun k => filter (fun x => key x =? k) l) ks.
  Let le := fun x y : A => key x <=? key y.
  Lemma insert_after x L : forall R, (forall y, In y L -> key y < key x) -> insert le x (L ++ R) = L ++ insert le x R.
  Proof.
    induction L as [|y L IH]; intros R H; [reflexivity|]. cbn [app insert]. unfold le at 1. assert (key x <=? key y = false) as ->. { pose proof (H y (or_introl eq_refl)). lia. }
    f_equal. apply IH. intros z Hz. apply H. now right.
  Qed.
  Lemma insert_before x L : (forall y, In y L -> key x <= key y) -> insert le x L = x :: L.
  Proof. destruct L as [|y L]; intros H; [reflexivity|]. cbn [insert]. unfold le. assert (key x <=? key y = true) as -> by (specialize (H y (or_introl eq_refl)); lia). reflexivity. Qed.
  Lemma grouped_skip ks x l : ~ In (key x) ks -> grouped ks (x :: l) = grouped ks l.
  Proof.
    induction ks as [|k ks IH]; intros H; [reflexivity|]. cbn [grouped flat_map]. fold (grouped ks (x :: l)) (grouped ks l). cbn in H. rewrite IH by tauto. f_equal.
    cbn [filter]. assert (key x =? k = false) as -> by (apply Z.eqb_neq; intros E; apply H; left; congruence). reflexivity.
  Qed.
  Lemma in_grouped ks y l : In y (grouped ks l) <-> In (key y) ks /\ In y l.
  Proof.
    unfold grouped. rewrite in_flat_map. split.
    - intros (k & Hk & Hy). apply filter_In in Hy as [Hy E]. apply Z.eqb_eq in E. subst k. auto.
    - intros [Hk Hy]. exists (key y). split; auto. apply filter_In. split; auto. apply Z.eqb_refl.
  Qed.
  Lemma insert_grouped x l : forall ks, StronglySorted Z.lt ks -> In (key x) ks -> insert le x (grouped ks l) = grouped ks (x :: l).
  Proof.
    induction ks as [|k ks IH]; intros S HI; [destruct HI|]. inversion S as [|? ? S' F]; subst.
    cbn [grouped flat_map]. fold (grouped ks (x :: l)) (grouped ks l). destruct (Z.eq_dec (key x) k) as [E|N].
    - assert (~ In (key x) ks) as NI. { intros H. rewrite Forall_forall in F. specialize (F _ H). lia. }
      rewrite (grouped_skip ks) by auto. cbn [filter]. assert (key x =? k = true) as -> by lia. cbn [app].
      apply insert_before. intros y Hy. apply in_app_iff in Hy as [Hy|Hy].
      + apply filter_In in Hy as [_ Hy]. lia.
      + apply in_grouped in Hy as [Hy _]. rewrite Forall_forall in F. specialize (F _ Hy). lia.
    - destruct HI as [HI|HI]; [congruence|]. cbn [filter]. assert (key x =? k = false) as -> by lia.
      rewrite insert_after; [now rewrite IH|]. intros y Hy. apply filter_In in Hy as [_ Hy]. rewrite Forall_forall in F. specialize (F _ HI). lia.
  Qed.
  Lemma sort_grouped ks : StronglySorted Z.lt ks -> forall l, (forall x, In x l -> In (key x) ks) -> sort_by key l = grouped ks l.
  Proof.
    intros S. induction l as [|x l IH]; intros H.
    - unfold sort_by, sort, grouped. cbn. clear. induction ks; auto.
    - unfold sort_by, sort in *. cbn [fold_right]. rewrite IH by (intros y Hy; apply H; now right). apply insert_grouped; auto. apply H. now left.
  Qed.
End Group.
Lemma insert_perm {A} (le : A -> A -> bool) x l : Permutation (x :: l) (insert le x l).
Proof. induction l as [|y l IH]; cbn [insert]; auto. destruct (le x y); auto. rewrite perm_swap. now constructor. Qed.
Lemma sort_perm {A} (le : A -> A -> bool) l : Permutation l (sort le l).
Proof. induction l as [|x l IH]; auto. unfold sort in *. cbn [fold_right]. rewrite <- insert_perm. now constructor. Qed.

Lemma list_same {A} : forall a b : list A, (forall i, nth_error a i = nth_error b i) -> a = b.
Proof.
  induction a as [|x a IH]; intros [|y b] H; auto; try (specialize (H O); discriminate). f_equal.
  - specialize (H O). cbn in H. congruence.
  - apply IH. intros i. apply (H (S i)).
Qed.

(** * Names and their places *)
Lemma index_of_nth n : forall l i, index_of n l = Some i -> nth_error l i = Some n.
Proof.
  induction l as [|m l IH]; intros i H; [discriminate|]. cbn in H. destruct (eqb_str n m) eqn:E.
  - injection H as <-. apply eqb_str_spec in E. now subst.
  - destruct (index_of n l) as [j|]; [|discriminate]. injection H as <-. cbn. auto.
Qed.
Lemma index_of_in n : forall l, In n l -> exists i, index_of n l = Some i.
Proof.
  induction l as [|m l IH]; intros H; [destruct H|]. cbn. destruct (eqb_str n m) eqn:E; [eauto|]. destruct H as [->|H]; [rewrite eqb_str_refl in E; discriminate|].
  destruct (IH H) as [i ->]. cbn. eauto.
Qed.
Lemma first_index_nth names n : In n names -> nth_error names (first_index names n) = Some n.
Proof. intros H. destruct (index_of_in n names H) as [i E]. unfold first_index. rewrite E. now apply index_of_nth. Qed.
Lemma eqb_names_eq : forall a b, eqb_names a b = true <-> a = b.
Proof.
  induction a as [|x a IH]; intros [|y b]; cbn; split; intros H; try discriminate; auto.
  - apply andb_true_iff in H as [H1 H2]. apply eqb_str_spec in H1. apply IH in H2. now subst.
  - injection H as -> ->. apply andb_true_iff. split; [apply eqb_str_refl|]. now apply IH.
Qed.
Lemma distinct_nodup l : NoDup l -> distinct l = true.
Proof.
  induction 1 as [|x l H HN IH]; [reflexivity|]. cbn. rewrite IH, andb_true_r, negb_true_iff. destruct (existsb (Nat.eqb x) l) eqn:E; auto.
  apply existsb_exists in E as (y & Hy & E). apply Nat.eqb_eq in E. subst. contradiction.
Qed.
Lemma find_nat_nth k : forall l, In k l -> nth_error l (find_nat k l) = Some k.
Proof.
  induction l as [|m l IH]; intros H; [destruct H|]. cbn. destruct (Nat.eqb k m) eqn:E; [apply Nat.eqb_eq in E; now subst|]. cbn.
  apply IH. destruct H as [->|H]; auto. rewrite Nat.eqb_refl in E. discriminate.
Qed.

(** * Spec *)
(** the order of axes: the known ones, then the others as they were *)
Definition known : list pystr := map str ["Z"; "Y"; "X"; "Time"; "Angle"; "Wavelength"]%string.
Definition is_known (n : pystr) : bool := existsb (eqb_str n) known.
Definition ordered (names : list pystr) : list pystr := flat_map (fun k => filter (eqb_str k) names) known ++ filter (fun n => negb (is_known n)) names.

Lemma eqb_str_comm a b : eqb_str a b = eqb_str b a.
Proof.
  destruct (eqb_str a b) eqn:E.
  - apply eqb_str_spec in E. subst. now rewrite eqb_str_refl.
  - destruct (eqb_str b a) eqn:F; auto. apply eqb_str_spec in F. subst. rewrite eqb_str_refl in E. discriminate.
Qed.
Lemma rank_cases n : (is_known n = true /\ exists i, nth_error known i = Some n /\ rank n = Z.of_nat i) \/ (is_known n = false /\ rank n = 7).
Proof.
  unfold rank. change axes_order with known. destruct (index_of n known) as [i|] eqn:E; [left|right].
  - apply index_of_nth in E. split; [|eauto]. unfold is_known. apply existsb_exists. exists n. split; [eapply nth_error_In; eauto|apply eqb_str_refl].
  - split; [|reflexivity]. destruct (is_known n) eqn:K; auto. apply existsb_exists in K as (m & Hm & K). apply eqb_str_spec in K. subst m. apply index_of_in in Hm as [i Hi]. congruence.
Qed.
Lemma rank_known n i k : nth_error known i = Some k -> (rank n =? Z.of_nat i) = eqb_str k n.
Proof.
  intros H. assert (i < 6)%nat as L by (apply (nth_error_Some known); congruence).
  destruct (eqb_str k n) eqn:E.
  - apply eqb_str_spec in E. subst n. do 6 (destruct i as [|i]; [injection H as <-; reflexivity|]). lia.
  - destruct (rank_cases n) as [(_ & j & Hj & ->)|[_ ->]]; [|lia]. apply Z.eqb_neq. intros F. apply Nat2Z.inj in F. subst j. rewrite Hj in H. injection H as ->. rewrite eqb_str_refl in E. discriminate.
Qed.
Lemma sort_ordered names : sort_by rank names = ordered names.
Proof.
  rewrite (sort_grouped rank [0; 1; 2; 3; 4; 5; 7]).
  - unfold grouped, ordered, known. cbn [flat_map map]. rewrite !app_nil_r, <- !app_assoc.
    repeat (f_equal; [apply filter_ext; intros n; match goal with |- (rank n =? ?i) = eqb_str ?k n => apply (rank_known n (Z.to_nat i) k); reflexivity end|]).
    apply filter_ext. intros n. destruct (rank_cases n) as [(-> & j & Hj & ->)|[-> ->]]; cbn; [|reflexivity]. assert (j < 6)%nat as L by (apply (nth_error_Some known); congruence). lia.
  - repeat constructor; lia.
  - intros n _. destruct (rank_cases n) as [(_ & j & Hj & ->)|[_ ->]]; [|cbn; tauto]. assert (j < 6)%nat as L by (apply (nth_error_Some known); congruence). cbn. lia.
Qed.

(** * Squeezing *)
(** dimensions of more than one position *)
Definition wide (s : signal) : list (axis * Z) := filter (fun p => negb (snd p =? 1)) (combine (s_axes s) (a_shape (s_data s))).
Definition fits (s : signal) : Prop := List.length (s_axes s) = List.length (a_shape (s_data s)) /\ Z.of_nat (List.length (a_flat (s_data s))) = prodZ (a_shape (s_data s)).

Lemma squeeze_wide : forall shape axes, List.length axes = List.length shape ->
  squeeze shape axes = (map snd (filter (fun p : axis * Z => negb (snd p =? 1)) (combine axes shape)), map fst (filter (fun p : axis * Z => negb (snd p =? 1)) (combine axes shape))).
Proof.
  induction shape as [|n shape IH]; intros [|x axes] H; try discriminate; [reflexivity|]. cbn [squeeze combine filter snd fst]. rewrite IH by (cbn in H; lia).
  destruct (n =? 1); reflexivity.
Qed.
Lemma squeeze_row (f : axis -> Z) : forall shape axes, List.length axes = List.length shape ->
  let l := filter (fun p : axis * Z => negb (snd p =? 1)) (combine axes shape) in
  row_major shape (map (fun p : axis * Z => if snd p =? 1 then 0 else f (fst p)) (combine axes shape)) = row_major (map snd l) (map f (map fst l)) /\ prodZ (map snd l) = prodZ shape.
Proof.
  induction shape as [|n shape IH]; intros [|x axes] H; try discriminate; [now split|]. cbn zeta in *. cbn [combine map filter snd fst]. destruct (IH axes ltac:(cbn in H; lia)) as [I1 I2].
  destruct (n =? 1) eqn:E; cbn [negb row_major map snd fst prodZ fold_right]; unfold prodZ in *; rewrite I1, I2.
  - split; lia.
  - now split.
Qed.

(** * C111 *)
Definition by_name (f : pystr -> Z) (axes : list axis) : list Z := map (fun x => f (x_name x)) axes.

Lemma perm_order names : NoDup names -> let sorted := sort_by rank names in let order := map (first_index names) sorted in
  Permutation order (seq 0 (List.length names)) /\ map (fun k => nth_error names k) order = map Some sorted /\ NoDup order.
Proof.
  intros ND sorted order. assert (Permutation names sorted) as P by apply sort_perm.
  assert (map (first_index names) names = seq 0 (List.length names)) as E.
  { apply list_same. intros i. rewrite nth_error_map. destruct (nth_error names i) as [n|] eqn:Hi.
    - cbn. assert (i < List.length names)%nat as L by (apply nth_error_Some; congruence).
      pose proof (first_index_nth names n (nth_error_In _ _ Hi)) as F.
      assert (first_index names n = i) as ->. { eapply NoDup_nth_error; eauto. - apply nth_error_Some. congruence. - congruence. }
      symmetry. rewrite nth_error_nth' with (d := O) by (rewrite seq_length; lia). now rewrite seq_nth by lia.
    - cbn. symmetry. apply nth_error_None. rewrite seq_length. now apply nth_error_None in Hi. }
  assert (Permutation order (seq 0 (List.length names))) as PO. { rewrite <- E. unfold order. apply Permutation_map. now symmetry. }
  repeat split; auto.
  - unfold order. rewrite map_map. apply map_ext_in. intros n Hn. apply first_index_nth. eapply Permutation_in; [symmetry; apply P|apply Hn].
  - eapply Permutation_NoDup; [symmetry; apply PO|apply seq_NoDup].
Qed.
Lemma nth_shape a order i : in_shape (map (fun k => nth k (a_shape a) 0) order) i -> element (moveaxis a order) i = element a (old_index order i).
Proof.
  intros H. unfold moveaxis at 1. unfold element at 1. cbn [a_shape a_flat].
  set (sh := map _ order) in *. rewrite nth_indep with (d' := element a (old_index order [])).
  - rewrite (map_nth (fun i => element a (old_index order i))). f_equal. f_equal. apply nth_error_nth. now apply box_nth.
  - rewrite map_length. apply nth_error_Some. rewrite box_nth by auto. discriminate.
Qed.

Theorem C111_order : forall s, fits s -> NoDup (map (fun p => x_name (fst p)) (wide s)) -> Forall (fun p => 0 <= snd p) (wide s) ->
  exists s', reordered (squeezed s) = Ok s' /\ fits s' /\
    (* the same axes, with the sizes they had, but for those of one position *)
    Permutation (combine (s_axes s') (a_shape (s_data s'))) (wide s) /\
    (* in the order of the display *)
    map x_name (s_axes s') = ordered (map (fun p => x_name (fst p)) (wide s)) /\
    (* every element is where it was, seen by the names of the axes *)
    (forall f, (forall p, In p (wide s) -> 0 <= f (x_name (fst p)) < snd p) ->
      element (s_data s') (by_name f (s_axes s')) = element (s_data s) (map (fun p => if snd p =? 1 then 0 else f (x_name (fst p))) (combine (s_axes s) (a_shape (s_data s))))) /\
    (s_title s', s_type s', s_polarization s', s_when s', s_om s', s_acq s') = (s_title s, s_type s, s_polarization s, s_when s, s_om s, s_acq s).
Proof.
  intros s [HL HF] ND HN.
  pose proof (squeeze_wide (a_shape (s_data s)) (s_axes s) HL) as SQ. fold (wide s) in SQ.
  assert (forall f, row_major (a_shape (s_data s)) (map (fun p : axis * Z => if snd p =? 1 then 0 else f (x_name (fst p))) (combine (s_axes s) (a_shape (s_data s)))) =
    row_major (map snd (wide s)) (by_name f (map fst (wide s)))) as RM.
  { intros f. apply (squeeze_row (fun x => f (x_name x)) (a_shape (s_data s)) (s_axes s) HL). }
  assert (prodZ (map snd (wide s)) = prodZ (a_shape (s_data s))) as PR by apply (squeeze_row (fun _ => 0) (a_shape (s_data s)) (s_axes s) HL).
  unfold squeezed. rewrite SQ. set (W := wide s) in *. clearbody W. unfold reordered. cbn [s_axes s_data].
  set (names := map x_name (map fst W)) in *.
  assert (map (fun p => x_name (fst p)) W = names) as EN by (unfold names; now rewrite map_map). rewrite EN in *.
  assert (forall T U (l : list (T * U)), combine (map fst l) (map snd l) = l) as CB. { intros T U. induction l as [|[x n] l IH]; [reflexivity|]. cbn. now rewrite IH. }
  destruct (eqb_names (sort_by rank names) names) eqn:E.
  - apply eqb_names_eq in E. rewrite sort_ordered in E. eexists. split; [reflexivity|]. cbn [s_axes s_data a_shape a_flat s_title s_type s_polarization s_when s_om s_acq].
    split; [|split; [|split; [|split; [|reflexivity]]]].
    + split; cbn [s_axes s_data a_shape a_flat]; [now rewrite !map_length|]. now rewrite PR.
    + now rewrite CB.
    + rewrite E. reflexivity.
    + intros f Hf. unfold element at 1. cbn [a_shape a_flat]. rewrite <- RM. reflexivity.
  - clear E. destruct (perm_order names ND) as (PO & NO & NDO). rewrite sort_ordered in *. set (sorted := ordered names) in *. set (order := map (first_index names) sorted) in *. clearbody order.
    rewrite distinct_nodup by auto. cbn [negb]. eexists. split; [reflexivity|]. cbn [s_axes s_data a_shape a_flat s_title s_type s_polarization s_when s_om s_acq].
    set (d := {| x_name := []; x_content := Bare |}).
    assert (List.length names = List.length W) as LN by (unfold names; now rewrite !map_length).
    assert (forall k, In k order -> (k < List.length W)%nat) as OB. { intros k Hk. eapply Permutation_in in Hk; [|apply PO]. apply in_seq in Hk. lia. }
    assert (combine (map (fun k => nth k (map fst W) d) order) (map (fun k => nth k (map snd W) 0) order) = map (fun k => nth k W (d, 0)) order) as CO.
    { clear - order W OB. induction order as [|k order IH]; [reflexivity|]. cbn [map combine]. rewrite IH by (intros j Hj; apply OB; now right). f_equal.
      rewrite (map_nth fst W (d, 0)). rewrite (map_nth snd W (d, 0)). now destruct (nth k W (d, 0)). }
    assert (Permutation (map (fun k => nth k W (d, 0)) order) W) as PW.
    { rewrite PO, LN. clear. assert (map (fun k => nth k W (d, 0)) (seq 0 (List.length W)) = W) as ->; [|reflexivity].
      apply list_same. intros i. rewrite nth_error_map. destruct (nth_error W i) eqn:Hi.
      - assert (i < List.length W)%nat as L by (apply nth_error_Some; congruence). rewrite (nth_error_nth' (seq 0 _) O) by (rewrite seq_length; lia). rewrite seq_nth by lia. cbn. f_equal. now apply nth_error_nth.
      - apply nth_error_None in Hi. assert (nth_error (seq 0 (List.length W)) i = None) as -> by (apply nth_error_None; rewrite seq_length; lia). reflexivity. }
    assert (Permutation (map snd (map (fun k => nth k W (d, 0)) order)) (map snd W)) as PS by now apply Permutation_map.
    assert (map snd (map (fun k => nth k W (d, 0)) order) = map (fun k => nth k (map snd W) 0) order) as ES.
    { rewrite map_map. apply map_ext. intros k. now rewrite (map_nth snd W (d, 0)). }
    assert (map (fun x => x_name x) (map (fun k => nth k (map fst W) d) order) = sorted) as NM.
    { rewrite map_map. clear - NO OB. clearbody sorted. revert sorted NO. induction order as [|k order IH]; intros [|n sorted] NO; try discriminate; [reflexivity|]. cbn [map] in *. injection NO as N1 N2.
      f_equal; [|apply IH; auto; intros j Hj; apply OB; now right]. unfold names in N1. apply (nth_error_nth _ _ (x_name d)) in N1. now rewrite (map_nth x_name) in N1. }
    split; [|split; [|split; [|split; [|reflexivity]]]].
    + split; cbn [s_axes s_data a_shape a_flat moveaxis]; rewrite !map_length; [reflexivity|]. apply box_length. rewrite <- ES.
      apply Forall_forall. intros n Hn. eapply Permutation_in in Hn; [|apply PS]. apply in_map_iff in Hn as (p & <- & Hp). rewrite Forall_forall in HN. now apply HN.
    + cbn [moveaxis a_shape]. rewrite CO. exact PW.
    + exact NM.
    + intros f Hf. rewrite nth_shape.
      * unfold element at 1. cbn [a_shape a_flat]. unfold element. rewrite RM. f_equal. f_equal. f_equal.
        unfold old_index, by_name. assert (List.length order = List.length W) as LO by (rewrite (Permutation_length PO), seq_length; exact LN).
        apply list_same. intros i. rewrite !nth_error_map. destruct (nth_error W i) as [p|] eqn:Hi.
        -- assert (i < List.length W)%nat as L by (apply nth_error_Some; congruence).
           rewrite (nth_error_nth' (seq 0 _) O) by (rewrite seq_length; lia). rewrite seq_nth by lia. cbn [plus option_map]. f_equal.
           assert (In i order) as Io. { eapply Permutation_in; [symmetry; apply PO|]. apply in_seq. lia. }
           apply find_nat_nth in Io. apply nth_error_nth. rewrite map_map. rewrite nth_error_map, Io. cbn [option_map]. f_equal. f_equal. f_equal.
           apply nth_error_nth. now rewrite nth_error_map, Hi.
        -- apply nth_error_None in Hi. assert (nth_error (seq 0 (List.length order)) i = None) as -> by (apply nth_error_None; rewrite seq_length; lia). reflexivity.
      * unfold in_shape, by_name. rewrite map_map. cbn [a_shape]. clear - OB Hf. induction order as [|k order IH]; cbn [map]; constructor.
        -- pose proof (OB k (or_introl eq_refl)) as L. rewrite (map_nth snd W (d, 0)). rewrite (map_nth fst W (d, 0)). apply Hf. now apply nth_In.
        -- apply IH. intros j Hj. apply OB. now right.
Qed.

(** * Examples *)
Definition xax (n : string) : axis := {| x_name := str n; x_content := Bare |}.
Definition xom : original := {| o_values := []; o_date := 0%Q; o_group := []; o_svi := [] |}.
Definition xsig (names : list string) (shape : list Z) (flat : list Z) : signal :=
  {| s_data := {| a_shape := shape; a_flat := flat |}; s_axes := map xax names; s_title := []; s_type := []; s_polarization := None; s_when := None; s_om := xom; s_acq := Spectrum |}.
(** a spectrum image of two wavelengths, one time, one plane, two lines and three columns *)
Definition xspectrum := xsig ["Wavelength"; "Time"; "Z"; "Y"; "X"]%string [2; 1; 1; 2; 3] (zseq 0 12).
Example c111_hypotheses : fits xspectrum /\ NoDup (map (fun p => x_name (fst p)) (wide xspectrum)) /\ Forall (fun p => 0 <= snd p) (wide xspectrum).
Proof.
  split; [now split|]. split; [|repeat constructor; cbn; lia].
  cbn. repeat (constructor; [cbn; intuition discriminate|]). constructor.
Qed.
Example c111_spectrum : reordered (squeezed xspectrum) = Ok (xsig ["Y"; "X"; "Wavelength"]%string [2; 3; 2] [0; 6; 1; 7; 2; 8; 3; 9; 4; 10; 5; 11]).
Proof. now vm_compute. Qed.
Example c111_ordered : ordered (map str ["Wavelength"; "Angle A"; "X"; "?"; "Y"]%string) = map str ["Y"; "X"; "Wavelength"; "Angle A"; "?"]%string.
Proof. now vm_compute. Qed.

Print Assumptions C111_order.
