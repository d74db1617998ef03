(** Row-major order: where an element of an array is in the flat list of its elements. *)
From Verif Require Import Base DistModel.

Definition prodZ (sh : list Z) : Z := fold_right Z.mul 1 sh.

(** Offset of an index in C order. *)
Fixpoint row_major (sh idx : list Z) : Z :=
  match sh, idx with
  | _ :: sh', i :: idx' => i * prodZ sh' + row_major sh' idx'
  | _, _ => 0
  end.

Definition in_shape (sh idx : list Z) : Prop := Forall2 (fun n i => 0 <= i < n) sh idx.

Lemma prodZ_nonneg : forall sh, Forall (fun n => 0 <= n) sh -> 0 <= prodZ sh.
Proof. induction 1; cbn; [lia|]. unfold prodZ in *. nia. Qed.

Lemma flat_map_len : forall A B (f : A -> list B) l k, (forall x, In x l -> List.length (f x) = k) ->
  List.length (flat_map f l) = (List.length l * k)%nat.
Proof.
  induction l as [|x l IH]; intros k H; [reflexivity|]. cbn [flat_map List.length]. rewrite app_length, (IH k), H; [lia|left; auto|].
  intros y Hy. apply H. right. exact Hy.
Qed.

Lemma box_length : forall sh, Forall (fun n => 0 <= n) sh -> Z.of_nat (List.length (box_indices sh)) = prodZ sh.
Proof.
  induction 1 as [|n sh Hn _ IH]; [reflexivity|]. cbn [box_indices].
  rewrite (flat_map_len _ _ _ _ (List.length (box_indices sh))) by (intros; apply map_length).
  rewrite zseq_length. unfold prodZ in *. cbn [fold_right]. rewrite <- IH. lia.
Qed.

Lemma row_major_range : forall sh idx, in_shape sh idx -> 0 <= row_major sh idx < prodZ sh.
Proof.
  induction 1 as [|n i sh idx Hi _ IH]; cbn; [lia|]. unfold prodZ in *. cbn [fold_right]. nia.
Qed.

Lemma nth_error_flat_map : forall A B (f : A -> list B) l k i j x, (forall x, In x l -> List.length (f x) = k) ->
  nth_error l i = Some x -> (j < k)%nat -> nth_error (flat_map f l) (i * k + j) = nth_error (f x) j.
Proof.
  induction l as [|y l IH]; intros k i j x H Hi Hj; [destruct i; discriminate|].
  cbn [flat_map]. assert (Hy : List.length (f y) = k) by (apply H; left; reflexivity).
  destruct i as [|i].
  - injection Hi as ->. cbn. rewrite nth_error_app1 by lia. reflexivity.
  - cbn [nth_error] in Hi. rewrite nth_error_app2 by (cbn; lia). rewrite Hy.
    replace (S i * k + j - k)%nat with (i * k + j)%nat by (cbn; lia).
    eapply IH; eauto. intros z Hz. apply H. right. exact Hz.
Qed.

Lemma nth_error_zseq : forall n a i, (i < n)%nat -> nth_error (zseq a n) i = Some (a + Z.of_nat i).
Proof.
  intros n a i H. rewrite (nth_error_nth' _ 0) by (rewrite zseq_length; exact H). rewrite nth_zseq by exact H. reflexivity.
Qed.

Lemma box_nth : forall sh idx, in_shape sh idx -> nth_error (box_indices sh) (Z.to_nat (row_major sh idx)) = Some idx.
Proof.
  intros sh idx H. induction H as [|n i sh idx Hi H IH]; [reflexivity|].
  cbn [box_indices row_major].
  assert (Hnn : Forall (fun n => 0 <= n) sh).
  { clear - H. induction H; constructor; [lia|assumption]. }
  pose proof (row_major_range _ _ H) as R. pose proof (box_length sh Hnn) as L.
  replace (Z.to_nat (i * prodZ sh + row_major sh idx)) with (Z.to_nat i * List.length (box_indices sh) + Z.to_nat (row_major sh idx))%nat by nia.
  rewrite (nth_error_flat_map _ _ _ _ (List.length (box_indices sh)) _ _ i).
  - rewrite nth_error_map, IH. reflexivity.
  - intros; apply map_length.
  - rewrite nth_error_zseq by lia. f_equal. lia.
  - lia.
Qed.

Lemma in_box : forall sh idx, In idx (box_indices sh) -> in_shape sh idx.
Proof.
  induction sh as [|n sh IH]; intros idx H; cbn [box_indices] in H.
  - destruct H as [<-|[]]. constructor.
  - apply in_flat_map in H. destruct H as [i [Hi H]]. apply in_map_iff in H. destruct H as [idx' [<- H]].
    apply in_zseq in Hi. constructor; [lia|]. apply IH. exact H.
Qed.

(** Dropping axes of size one does not change the number of elements. *)
Lemma prodZ_squeeze : forall sh, Forall (fun n => 1 <= n) sh -> prodZ (filter (fun n => 1 <? n) sh) = prodZ sh.
Proof.
  induction 1 as [|n sh Hn _ IH]; [reflexivity|]. cbn [filter]. unfold prodZ in *. destruct (1 <? n) eqn:E; cbn [fold_right]; rewrite IH; [lia|]. replace n with 1 by lia. lia.
Qed.

Lemma in_shape_length : forall sh idx, in_shape sh idx -> List.length sh = List.length idx.
Proof. induction 1; cbn; congruence. Qed.
