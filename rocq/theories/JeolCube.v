(** Property C67: all frames of a JEOL pts stream. *)
From Coq Require Import Sorted.
From Verif Require Import Base Bytes SfsModel SfsProps BcfUnpack JeolModel JeolProps.
Ltac ok_inj H := match type of H with Ok ?a = Ok ?b => assert (a = b) by congruence; clear H; rename H0 into H end.

(** * Specification *)
(** The frames of a stream *)
Record frames_of (raw : list Z) (fs : list (list Z)) : Prop := {
  f_raw : raw = List.concat fs;
  f_words : Forall word raw;
  f_ne : Forall (fun f => f <> []) fs;
  f_one : Forall one_frame fs;
  f_ends : forall a f b, fs = a ++ f :: b -> ends f (List.concat b);
  f_columns : Forall (fun f => last_val 8 f <> None) fs
}.
Definition start (fs : list (list Z)) (k : nat) : Z := zlen (List.concat (firstn k fs)).
(** Known starts of frames are right; negative ones are not known *)
Definition right (fs : list (list Z)) (fsi : list Z) : Prop :=
  nth_error fsi 0 = Some 0 /\ forall k p, nth_error fsi k = Some p -> p < 0 \/ p = start fs k.
Definition frame (fs : list (list Z)) (i : nat) : list Z := nth i fs [].
(** The frames that are used: up to the first that is missing or incomplete *)
Inductive used (ok : nat -> Prop) : list nat -> list nat -> Prop :=
| used_nil : used ok [] []
| used_yes : forall i l r, ok i -> used ok l r -> used ok (i :: l) (i :: r)
| used_no : forall i l, ~ ok i -> used ok (i :: l) [].
Definition usable (o : options) (g : geom) (sh : nat -> shift) (fs : list (list Z)) (i : nat) : Prop :=
  (i < List.length fs)%nat /\ (only_valid o = false \/ complete g (sh i) (frame fs i)).
Definition sum (f : nat -> Z) (l : list nat) : Z := fold_right Z.add 0 (map f l).

Lemma skipn_concat : forall (fs : list (list Z)) k, skipn (List.length (List.concat (firstn k fs))) (List.concat fs) = List.concat (skipn k fs).
Proof.
  intros fs k. rewrite <- (firstn_skipn k fs) at 2. rewrite concat_app, skipn_app, skipn_all, Nat.sub_diag. reflexivity.
Qed.
Lemma at_start : forall raw fs k, frames_of raw fs -> skipz (start fs k) raw = List.concat (skipn k fs).
Proof. intros raw fs k F. rewrite (f_raw _ _ F), skipz_skipn. unfold start, zlen. rewrite Nat2Z.id. apply skipn_concat. Qed.
Lemma frame_at : forall (fs : list (list Z)) k, (k < List.length fs)%nat -> skipn k fs = frame fs k :: skipn (S k) fs.
Proof.
  intros fs k H. unfold frame. revert k H. induction fs as [|f fs IH]; intros [|k] H; cbn [List.length] in H; try lia; [reflexivity|]. cbn [skipn nth]. rewrite IH by lia. reflexivity.
Qed.
Lemma skip_run_frame : forall ws a rest n, Forall word ws -> Forall word rest -> one_frame (a ++ ws) -> ends (a ++ ws) rest ->
  skip_run (match last_val 9 a with None => 0 | Some v => v end) n (ws ++ rest) = n + zlen ws.
Proof.
  induction ws as [|w ws IH]; intros a rest n W Wr F E.
  - rewrite app_nil_r in E. cbn [app]. change (zlen (@nil Z)) with 0. destruct E as [->|[w [r [v [-> [E1 [E2 E3]]]]]]]; [cbn; lia|]. cbn [skip_run]. inversion Wr as [|? ? Ww ?]; subst.
    pose proof (kind_is w 9 Ww) as K. cbn [Z.mul Pos.mul Pos.add] in K. rewrite K, E1, payload_val, E2. replace (val w <? v) with true by lia. lia.
  - inversion W as [|? ? Ww W']; subst. cbn [app skip_run]. pose proof (kind_is w 9 Ww) as K. cbn [Z.mul Pos.mul Pos.add] in K. rewrite K, payload_val.
    replace (a ++ w :: ws) with ((a ++ [w]) ++ ws) in * by (rewrite <- app_assoc; reflexivity).
    assert (Ez : zlen (w :: ws) = 1 + zlen ws) by (unfold zlen; cbn [List.length]; lia). rewrite Ez.
    pose proof (IH (a ++ [w]) rest (n + 1) W' Wr F E) as R. rewrite last_val_snoc in R. destruct (is 9 w) eqn:E9; [|rewrite R; lia].
    replace (val w <? match last_val 9 a with Some v => v | None => 0 end) with false; [rewrite R; lia|]. symmetry. apply Z.ltb_ge. destruct (last_val 9 a) as [v|] eqn:L; [|pose proof (val_range w); lia].
    unfold one_frame in F. rewrite vals_app in F. apply sorted_app_l in F. rewrite vals_app in F. unfold vals at 2 in F. cbn [filter] in F. rewrite E9 in F. cbn [map] in F. apply (sorted_snoc _ _ v F (last_val_in _ _ _ L)).
Qed.
Lemma skip_frame_ok : forall ws rest, Forall word (ws ++ rest) -> one_frame ws -> ends ws rest -> skip_frame (ws ++ rest) = zlen ws.
Proof. intros ws rest W F E. apply Forall_app in W. destruct W as [W1 W2]. apply (skip_run_frame ws [] rest 0 W1 W2 F E). Qed.
Lemma words_skip : forall raw fs k, frames_of raw fs -> Forall word (List.concat (skipn k fs)).
Proof. intros raw fs k F. pose proof (f_words _ _ F) as W. rewrite (f_raw _ _ F) in W. rewrite <- (firstn_skipn k fs), concat_app in W. apply Forall_app in W. apply W. Qed.
Lemma frame_props : forall raw fs k, frames_of raw fs -> (k < List.length fs)%nat ->
  frame fs k <> [] /\ one_frame (frame fs k) /\ ends (frame fs k) (List.concat (skipn (S k) fs)) /\ last_val 8 (frame fs k) <> None /\
  Forall word (frame fs k ++ List.concat (skipn (S k) fs)) /\ List.concat (skipn k fs) = frame fs k ++ List.concat (skipn (S k) fs).
Proof.
  intros raw fs k F Hk. assert (I : In (frame fs k) fs) by (apply nth_In; exact Hk). pose proof (frame_at fs k Hk) as E.
  split; [pose proof (f_ne _ _ F) as P; rewrite Forall_forall in P; apply P, I|]. split; [pose proof (f_one _ _ F) as P; rewrite Forall_forall in P; apply P, I|].
  split; [apply (f_ends _ _ F (firstn k fs)); rewrite <- E; symmetry; apply firstn_skipn|]. split; [pose proof (f_columns _ _ F) as P; rewrite Forall_forall in P; apply P, I|].
  assert (E2 : List.concat (skipn k fs) = frame fs k ++ List.concat (skipn (S k) fs)) by (rewrite E; reflexivity). split; [rewrite <- E2; eapply words_skip; exact F|exact E2].
Qed.
Lemma start_S : forall raw fs k, frames_of raw fs -> start fs (S k) = start fs k + zlen (frame fs k).
Proof.
  intros raw fs k F. unfold start. destruct (Nat.lt_ge_cases k (List.length fs)) as [H|H].
  - replace (firstn (S k) fs) with (firstn k fs ++ [frame fs k]); [rewrite concat_app; cbn [List.concat]; rewrite app_nil_r; unfold zlen; rewrite app_length; lia|].
    unfold frame. clear F. revert k H. induction fs as [|f fs IH]; intros [|k] H; cbn [List.length] in H; try lia; [reflexivity|]. cbn [firstn nth app]. rewrite IH by lia. reflexivity.
  - unfold frame. rewrite nth_overflow by lia. rewrite !firstn_all2 by lia. unfold zlen. cbn. lia.
Qed.
Lemma skip_start : forall raw fs k, frames_of raw fs -> skip_frame (skipz (start fs k) raw) = zlen (frame fs k).
Proof.
  intros raw fs k F. rewrite (at_start raw fs k F). destruct (Nat.lt_ge_cases k (List.length fs)) as [H|H].
  - destruct (frame_props raw fs k F H) as [_ [P1 [P2 [_ [P3 P4]]]]]. rewrite P4. apply skip_frame_ok; assumption.
  - rewrite skipn_all2 by lia. unfold frame. rewrite nth_overflow by lia. reflexivity.
Qed.
(** * Starts of frames *)
Lemma set_start_nth : forall fsi i p k, (i < List.length fsi)%nat -> nth_error (set_start fsi i p) k = if Nat.eqb k i then Some p else nth_error fsi k.
Proof.
  intros fsi i p k H. unfold set_start. destruct (skipn i fsi) as [|x r] eqn:E.
  - assert (L : List.length (skipn i fsi) = O) by (rewrite E; reflexivity). rewrite skipn_length in L. lia.
  - assert (Ln : List.length (firstn i fsi) = i) by (rewrite firstn_length; lia). destruct (Nat.eqb k i) eqn:Q.
    + apply Nat.eqb_eq in Q. subst k. rewrite nth_error_app2 by lia. rewrite Ln, Nat.sub_diag. reflexivity.
    + apply Nat.eqb_neq in Q. rewrite <- (firstn_skipn i fsi) at 2. rewrite E. destruct (Nat.lt_ge_cases k i) as [L|L].
      * rewrite !nth_error_app1 by lia. reflexivity.
      * rewrite !nth_error_app2 by lia. rewrite Ln. destruct (k - i)%nat eqn:D; [lia|]. reflexivity.
Qed.
Lemma set_start_length : forall fsi i p, List.length (set_start fsi i p) = List.length fsi.
Proof.
  intros fsi i p. unfold set_start. rewrite <- (firstn_skipn i fsi) at 3. rewrite !app_length. f_equal. destruct (skipn i fsi); reflexivity.
Qed.
Lemma right_set : forall fs fsi i, right fs fsi -> (i < List.length fsi)%nat -> right fs (set_start fsi i (start fs i)).
Proof.
  intros fs fsi i [R0 R] H. split.
  - rewrite set_start_nth by exact H. destruct (Nat.eqb 0 i) eqn:Q; [apply Nat.eqb_eq in Q; subst i; reflexivity|exact R0].
  - intros k p K. rewrite set_start_nth in K by exact H. destruct (Nat.eqb k i) eqn:Q; [|apply R; exact K]. apply Nat.eqb_eq in Q. subst k. injection K as <-. right. reflexivity.
Qed.
Lemma known_ok : forall fs fsi i, right fs fsi -> (i < List.length fsi)%nat -> exists j, (j <= i)%nat /\ known fsi i = Ok (j, start fs j).
Proof.
  intros fs fsi i [R0 R]. induction i as [|i IH]; intro H.
  - exists O. split; [lia|]. unfold known, start_of. rewrite R0. reflexivity.
  - cbn [known]. unfold start_of at 1. destruct (nth_error fsi (S i)) as [p|] eqn:E; [|apply nth_error_None in E; lia]. cbn [bind]. destruct (p <? 0) eqn:Q.
    + destruct (IH ltac:(lia)) as [j [J1 J2]]. exists j. split; [lia|exact J2].
    + exists (S i). split; [lia|]. destruct (R _ _ E) as [K|K]; [lia|]. rewrite K. reflexivity.
Qed.
Lemma skip_to_ok : forall raw fs n fsi i, frames_of raw fs -> right fs fsi -> (i + n < List.length fsi)%nat ->
  exists fsi', skip_to raw fsi i (start fs i) n = Ok (fsi', start fs (i + n)) /\ right fs fsi' /\ List.length fsi' = List.length fsi.
Proof.
  intros raw fs n. induction n as [|n IH]; intros fsi i F R H.
  - exists fsi. rewrite Nat.add_0_r. split; [reflexivity|]. split; [exact R|reflexivity].
  - cbn [skip_to]. rewrite (skip_start raw fs i F), <- (start_S raw fs i F). unfold start_of. destruct (nth_error fsi (S i)) eqn:E; [|apply nth_error_None in E; lia]. cbn [bind].
    destruct (IH (set_start fsi (S i) (start fs (S i))) (S i) F) as [fsi' [S1 [S2 S3]]]; [apply right_set; [exact R|lia]|rewrite set_start_length; lia|].
    exists fsi'. split; [rewrite S1; do 2 f_equal; f_equal; lia|]. split; [exact S2|rewrite S3; apply set_start_length].
Qed.
Lemma find_frame_ok : forall raw fs fsi i, frames_of raw fs -> right fs fsi -> (i < List.length fsi)%nat ->
  exists fsi', find_frame raw fsi i = Ok (fsi', start fs i) /\ right fs fsi' /\ List.length fsi' = List.length fsi.
Proof.
  intros raw fs fsi i F R H. unfold find_frame. destruct (known_ok fs fsi i R H) as [j [J1 J2]]. rewrite J2. cbn [bind].
  destruct (skip_to_ok raw fs (i - j) fsi j F R ltac:(lia)) as [fsi' [S1 [S2 S3]]]. exists fsi'. replace (j + (i - j))%nat with i in S1 by lia. split; [exact S1|]. split; assumption.
Qed.
(** * Reading frame i *)
Lemma stream_at : forall raw fs i, frames_of raw fs ->
  skipz (start fs i) raw = frame fs i ++ List.concat (skipn (S i) fs) /\ Forall word (frame fs i ++ List.concat (skipn (S i) fs)) /\ one_frame (frame fs i) /\ ends (frame fs i) (List.concat (skipn (S i) fs)) /\
  (zlen (frame fs i) = 0 <-> (List.length fs <= i)%nat) /\ ((i < List.length fs)%nat -> last_val 8 (frame fs i) <> None).
Proof.
  intros raw fs i F. rewrite (at_start raw fs i F). destruct (Nat.lt_ge_cases i (List.length fs)) as [H|H].
  - destruct (frame_props raw fs i F H) as [P0 [P1 [P2 [P5 [P3 P4]]]]]. split; [exact P4|]. split; [exact P3|]. split; [exact P1|]. split; [exact P2|]. split; [|intros _; exact P5].
    destruct (frame fs i); [congruence|]. unfold zlen. cbn [List.length]. lia.
  - assert (E : frame fs i = []) by (unfold frame; apply nth_overflow; lia). rewrite E, !skipn_all2 by lia. cbn [List.concat app]. split; [reflexivity|]. split; [constructor|]. split; [constructor|]. split; [left; reflexivity|].
    split; [split; [intros _; exact H|reflexivity]|lia].
Qed.
(** * Frames are added up *)
Theorem C67_sum : forall o g sh raw fs l c c', good g -> hnorm g <= 4096 -> frames_of raw fs -> sum_frames o = true ->
  right fs (starts c) -> Forall (fun i => (i < List.length (starts c))%nat) l -> dense_loop o g sh raw l c = Ok c' ->
  exists r, used (usable o g sh fs) l r /\ right fs (starts c') /\ target c' = target c /\
    (forall k, inside g k -> maps c' (target c) k = maps c (target c) k + sum (fun i => xrays g (sh i) k (frame fs i)) r) /\
    (width g <= stride g -> forall y x, 0 <= y < height g -> 0 <= x < width g ->
      ems c' (target c) (y * stride g + x) = ems c (target c) (y * stride g + x) + sum (fun i => brightness g (sh i) (y, x) (frame fs i)) r).
Proof.
  intros o g sh raw fs l. induction l as [|i l IH]; intros c c' G Hn F Hs R Hl H.
  - cbn [dense_loop] in H. assert (c' = c) by congruence. subst c'. exists []. split; [constructor|]. split; [exact R|]. split; [reflexivity|]. split; intros; unfold sum; cbn; lia.
  - cbn [dense_loop] in H. inversion Hl as [|? ? Hi Hl']; subst.
    destruct (find_frame_ok raw fs (starts c) i F R Hi) as [fsi [FF [R' L']]]. rewrite FF in H. cbn [bind] in H.
    destruct (n_frames o <=? target c); [discriminate|].
    destruct (stream_at raw fs i F) as [E1 [E2 [E3 [E4 [E5 E6]]]]]. rewrite E1 in H.
    destruct (readframe_dense (unset_x o) g (sh i) 1 (max_value o) (maps c (target c)) (ems c (target c)) (frame fs i ++ List.concat (skipn (S i) fs))) as [[[[[n em'] v] h] e]|] eqn:RD; [|discriminate]. cbn [bind] in H.
    destruct (C66_frame _ _ _ _ _ _ _ _ _ _ _ _ _ _ G E2 E3 E4 RD) as [Fn [Fem [Fv [Fh [_ Fe]]]]].
    destruct (n =? 0) eqn:N0.
    { assert (c' = {| maps := set_at (maps c) (target c) h; ems := set_at (ems c) (target c) e; lists := []; target := target c; frame_num := Z.of_nat i; any_em := any_em c || em'; starts := fsi; valid := Some v |}) by congruence. subst c'.
      assert (Fl : frame fs i = []) by (destruct (frame fs i); [reflexivity|unfold zlen in Fn; cbn [List.length] in Fn; lia]).
      exists []. split; [apply used_no; intros [K _]; apply Z.eqb_eq in N0; assert (zlen (frame fs i) = 0) by lia; lia|]. cbn [starts target maps ems]. split; [exact R'|]. split; [reflexivity|].
      unfold set_at. rewrite Z.eqb_refl. rewrite Fl in *. split.
      - intros k Hk. rewrite (Fh k Hk). unfold xrays, sum. rewrite total_nil. cbn [map fold_right]. lia.
      - intros Hst y x Hy Hx. rewrite (Fe Hst y x Hy Hx). unfold brightness, sum. rewrite total_nil. cbn [map fold_right]. lia. }
    assert (Hex : (i < List.length fs)%nat) by (destruct (Nat.lt_ge_cases i (List.length fs)) as [K|K]; [exact K|]; apply E5 in K; lia).
    specialize (Fv (or_introl (E6 Hex)) Hn).
    destruct (v || negb (only_valid o)) eqn:V.
    + assert (U : usable o g sh fs i).
      { split; [exact Hex|]. destruct v; [right; apply Fv; reflexivity|]. left. destruct (only_valid o); [discriminate|reflexivity]. }
      rewrite Hs in H. replace (target c + 0) with (target c) in H by lia.
      set (fsi' := if Z.of_nat i + 1 <? zlen fsi then set_start fsi (Z.to_nat (Z.of_nat i + 1)) (start fs i + n) else fsi) in *.
      assert (R2 : right fs fsi' /\ List.length fsi' = List.length (starts c)).
      { unfold fsi'. destruct (Z.of_nat i + 1 <? zlen fsi) eqn:Q; [|split; assumption]. replace (Z.to_nat (Z.of_nat i + 1)) with (S i) by lia. rewrite Fn, <- (start_S raw fs i F). split; [apply right_set; [exact R'|unfold zlen in Q; lia]|rewrite set_start_length; exact L']. }
      destruct R2 as [R2 L2].
      apply IH in H; [|exact G|exact Hn|exact F|exact Hs|exact R2|cbn [starts]; rewrite L2; exact Hl'].
      destruct H as [r [H1 [H2 [H3 [H4 H5]]]]]. cbn [target maps ems starts] in *. exists (i :: r). split; [apply used_yes; assumption|]. split; [exact H2|]. split; [exact H3|].
      unfold set_at in H4, H5. rewrite Z.eqb_refl in H4, H5. split.
      * intros k Hk. rewrite (H4 k Hk), (Fh k Hk). unfold sum. cbn [map fold_right]. lia.
      * intros Hst y x Hy Hx. rewrite (H5 Hst y x Hy Hx), (Fe Hst y x Hy Hx). unfold sum. cbn [map fold_right]. lia.
    + rewrite Hs in H.
      assert (U : ~ usable o g sh fs i).
      { intros [_ K]. destruct v; [discriminate|]. destruct (only_valid o); [|discriminate]. destruct K as [K|K]; [discriminate|]. apply Fv in K. discriminate. }
      destruct (readframe_dense (unset_x o) g (sh i) (-1) (max_value o) h e (frame fs i ++ List.concat (skipn (S i) fs))) as [[[[[n2 em2] v2] h2] e2]|] eqn:RD2; [|discriminate]. cbn [bind] in H.
      destruct (C66_frame _ _ _ _ _ _ _ _ _ _ _ _ _ _ G E2 E3 E4 RD2) as [_ [_ [_ [Fh2 [_ Fe2]]]]].
      assert (c' = {| maps := set_at (maps c) (target c) h2; ems := set_at (ems c) (target c) e2; lists := []; target := target c; frame_num := Z.of_nat i; any_em := any_em c || em'; starts := fsi; valid := Some v |}) by congruence. subst c'.
      exists []. split; [apply used_no; exact U|]. cbn [target maps ems starts]. split; [exact R'|]. split; [reflexivity|]. unfold set_at. rewrite Z.eqb_refl. split.
      * intros k Hk. rewrite (Fh2 k Hk), (Fh k Hk). unfold sum. cbn [map fold_right]. lia.
      * intros Hst y x Hy Hx. rewrite (Fe2 Hst y x Hy Hx), (Fe Hst y x Hy Hx). unfold sum. cbn [map fold_right]. lia.
Qed.
(** * Frames are kept apart *)
Theorem C67_frames : forall o g sh raw fs l c c', good g -> hnorm g <= 4096 -> frames_of raw fs -> sum_frames o = false ->
  right fs (starts c) -> Forall (fun i => (i < List.length (starts c))%nat) l -> dense_loop o g sh raw l c = Ok c' ->
  exists r, used (usable o g sh fs) l r /\ right fs (starts c') /\ target c' = target c + zlen r /\
    (forall j, j < target c -> maps c' j = maps c j /\ ems c' j = ems c j) /\
    (forall n i, nth_error r n = Some i -> let t := target c + Z.of_nat n in
      (forall k, inside g k -> maps c' t k = maps c t k + xrays g (sh i) k (frame fs i)) /\
      (width g <= stride g -> forall y x, 0 <= y < height g -> 0 <= x < width g ->
        ems c' t (y * stride g + x) = ems c t (y * stride g + x) + brightness g (sh i) (y, x) (frame fs i))).
Proof.
  intros o g sh raw fs l. induction l as [|i l IH]; intros c c' G Hn F Hs R Hl H.
  - cbn [dense_loop] in H. assert (c' = c) by congruence. subst c'. exists []. split; [constructor|]. split; [exact R|]. split; [unfold zlen; cbn; lia|]. split; [intros; split; reflexivity|]. intros [|n] i K; discriminate.
  - cbn [dense_loop] in H. inversion Hl as [|? ? Hi Hl']; subst.
    destruct (find_frame_ok raw fs (starts c) i F R Hi) as [fsi [FF [R' L']]]. rewrite FF in H. cbn [bind] in H.
    destruct (n_frames o <=? target c); [discriminate|].
    destruct (stream_at raw fs i F) as [E1 [E2 [E3 [E4 [E5 E6]]]]]. rewrite E1 in H.
    destruct (readframe_dense (unset_x o) g (sh i) 1 (max_value o) (maps c (target c)) (ems c (target c)) (frame fs i ++ List.concat (skipn (S i) fs))) as [[[[[n em'] v] h] e]|] eqn:RD; [|discriminate]. cbn [bind] in H.
    destruct (C66_frame _ _ _ _ _ _ _ _ _ _ _ _ _ _ G E2 E3 E4 RD) as [Fn [Fem [Fv [Fh [_ Fe]]]]].
    assert (Stop : ~ usable o g sh fs i -> c' = {| maps := set_at (maps c) (target c) h; ems := set_at (ems c) (target c) e; lists := []; target := target c; frame_num := Z.of_nat i; any_em := any_em c || em'; starts := fsi; valid := Some v |} ->
      exists r, used (usable o g sh fs) (i :: l) r /\ right fs (starts c') /\ target c' = target c + zlen r /\ (forall j, j < target c -> maps c' j = maps c j /\ ems c' j = ems c j) /\
      (forall n i, nth_error r n = Some i -> let t := target c + Z.of_nat n in (forall k, inside g k -> maps c' t k = maps c t k + xrays g (sh i) k (frame fs i)) /\
      (width g <= stride g -> forall y x, 0 <= y < height g -> 0 <= x < width g -> ems c' t (y * stride g + x) = ems c t (y * stride g + x) + brightness g (sh i) (y, x) (frame fs i)))).
    { intros U ->. exists []. cbn [starts target maps ems]. split; [apply used_no; exact U|]. split; [exact R'|]. split; [unfold zlen; cbn; lia|]. split; [|intros [|m] j K; discriminate].
      intros j Hj. unfold set_at. replace (target c =? j) with false by lia. split; reflexivity. }
    destruct (n =? 0) eqn:N0.
    { apply Stop; [|congruence]. intros [K _]. assert (zlen (frame fs i) = 0) by lia. lia. }
    assert (Hex : (i < List.length fs)%nat) by (destruct (Nat.lt_ge_cases i (List.length fs)) as [K|K]; [exact K|]; apply E5 in K; lia).
    specialize (Fv (or_introl (E6 Hex)) Hn).
    destruct (v || negb (only_valid o)) eqn:V.
    + assert (U : usable o g sh fs i).
      { split; [exact Hex|]. destruct v; [right; apply Fv; reflexivity|]. left. destruct (only_valid o); [discriminate|reflexivity]. }
      rewrite Hs in H.
      set (fsi' := if Z.of_nat i + 1 <? zlen fsi then set_start fsi (Z.to_nat (Z.of_nat i + 1)) (start fs i + n) else fsi) in *.
      assert (R2 : right fs fsi' /\ List.length fsi' = List.length (starts c)).
      { unfold fsi'. destruct (Z.of_nat i + 1 <? zlen fsi) eqn:Q; [|split; assumption]. replace (Z.to_nat (Z.of_nat i + 1)) with (S i) by lia. rewrite Fn, <- (start_S raw fs i F). split; [apply right_set; [exact R'|unfold zlen in Q; lia]|rewrite set_start_length; exact L']. }
      destruct R2 as [R2 L2].
      apply IH in H; [|exact G|exact Hn|exact F|exact Hs|exact R2|cbn [starts]; rewrite L2; exact Hl'].
      destruct H as [r [H1 [H2 [H3 [H4 H5]]]]]. cbn [target maps ems starts] in *. exists (i :: r). split; [apply used_yes; assumption|]. split; [exact H2|].
      split; [unfold zlen in *; cbn [List.length]; lia|]. split.
      * intros j Hj. destruct (H4 j ltac:(lia)) as [-> ->]. unfold set_at. replace (target c =? j) with false by lia. split; reflexivity.
      * intros m0 j K. remember (target c + Z.of_nat m0) as t eqn:Et. destruct m0 as [|m].
        -- cbn [nth_error] in K. assert (j = i) by congruence. subst j. assert (T : t = target c) by lia. destruct (H4 t ltac:(lia)) as [-> ->]. unfold set_at. rewrite T, Z.eqb_refl. split; [intros k Hk; rewrite (Fh k Hk); lia|intros Hst y x Hy Hx; rewrite (Fe Hst y x Hy Hx); lia].
        -- cbn [nth_error] in K. specialize (H5 m j K). cbv zeta in H5. replace (target c + 1 + Z.of_nat m) with t in H5 by lia. destruct H5 as [H5 H6]. unfold set_at in H5, H6. replace (target c =? t) with false in H5, H6 by lia. split; assumption.
    + rewrite Hs in H.
      assert (U : ~ usable o g sh fs i).
      { intros [_ K]. destruct v; [discriminate|]. destruct (only_valid o); [|discriminate]. destruct K as [K|K]; [discriminate|]. apply Fv in K. discriminate. }
      apply Stop; [exact U|congruence].
Qed.
(** * Reading works if numbers fit *)
Lemma subtract_ok : forall ux g d mx h e ws rest, good g -> Forall word (ws ++ rest) -> one_frame ws -> ends ws rest -> (forall c, inside g c -> h c < mx) ->
  exists r, readframe_dense ux g d (-1) mx h e (ws ++ rest) = Ok r.
Proof.
  intros ux g d mx h e ws rest G W F E Hh. apply Forall_app in W. destruct W as [W1 W2]. unfold readframe_dense.
  destruct (run_frame g d ux (-1) mx h e ws [] _ rest G W1 W2 (inv_start g d ux (-1) h e) F E) as [[s' [S I]]|[S [b [b' [c [E1 [E2 E3]]]]]]]; rewrite S; cbn [bind]; [eexists; reflexivity|].
  exfalso. pose proof (Hh c E2). pose proof (total_nonneg (xray g d c) b (xray_nonneg g d c)). fold (xrays g d c b) in *. lia.
Qed.
Lemma xrays_nonneg : forall g d k ws, 0 <= xrays g d k ws.
Proof. intros. apply total_nonneg, xray_nonneg. Qed.
Lemma sum_nonneg : forall f l, (forall i, 0 <= f i) -> 0 <= sum f l.
Proof. intros f l H. unfold sum. induction l as [|i l IH]; [reflexivity|]. cbn [map fold_right]. pose proof (H i). lia. Qed.
Theorem C67_loads_sum : forall o g sh raw fs l c, good g -> frames_of raw fs -> sum_frames o = true ->
  right fs (starts c) -> Forall (fun i => (i < List.length (starts c))%nat) l -> target c < n_frames o ->
  (forall k, inside g k -> maps c (target c) k + sum (fun i => xrays g (sh i) k (frame fs i)) l < max_value o) ->
  exists c', dense_loop o g sh raw l c = Ok c'.
Proof.
  intros o g sh raw fs l. induction l as [|i l IH]; intros c G F Hs R Hl Ht Hm; [eexists; reflexivity|]. cbn [dense_loop]. inversion Hl as [|? ? Hi Hl']; subst.
  destruct (find_frame_ok raw fs (starts c) i F R Hi) as [fsi [FF [R' L']]]. rewrite FF. cbn [bind]. replace (n_frames o <=? target c) with false by lia.
  destruct (stream_at raw fs i F) as [E1 [E2 [E3 [E4 [E5 E6]]]]]. rewrite E1.
  assert (P : forall k, inside g k -> maps c (target c) k + xrays g (sh i) k (frame fs i) + sum (fun i => xrays g (sh i) k (frame fs i)) l < max_value o).
  { intros k Hk. specialize (Hm k Hk). unfold sum in *. cbn [map fold_right] in Hm. lia. }
  destruct (C66_range (unset_x o) g (sh i) (max_value o) (maps c (target c)) (ems c (target c)) _ _ G E2 E3 E4) as [[_ RG] _].
  { intros k Hk. pose proof (P k Hk). pose proof (xrays_nonneg g (sh i) k (frame fs i)). pose proof (sum_nonneg (fun i => xrays g (sh i) k (frame fs i)) l (fun i => xrays_nonneg g (sh i) k (frame fs i))). lia. }
  destruct RG as [[[[[n em'] v] h] e] RD].
  { intros k Hk. pose proof (P k Hk). pose proof (sum_nonneg (fun i => xrays g (sh i) k (frame fs i)) l (fun i => xrays_nonneg g (sh i) k (frame fs i))). lia. }
  rewrite RD. cbn [bind]. destruct (C66_frame _ _ _ _ _ _ _ _ _ _ _ _ _ _ G E2 E3 E4 RD) as [Fn [_ [_ [Fh _]]]].
  destruct (n =? 0) eqn:N0; [eexists; reflexivity|]. rewrite Hs. destruct (v || negb (only_valid o)).
  - apply IH; cbn [starts target maps]; try assumption.
    + destruct (Z.of_nat i + 1 <? zlen fsi) eqn:Q; [|exact R']. replace (Z.to_nat (Z.of_nat i + 1)) with (S i) by lia. rewrite Fn, <- (start_S raw fs i F). apply right_set; [exact R'|unfold zlen in Q; lia].
    + destruct (Z.of_nat i + 1 <? zlen fsi); [rewrite set_start_length|]; rewrite L'; exact Hl'.
    + lia.
    + intros k Hk. unfold set_at. replace (target c =? target c + 0) with true by lia. rewrite (Fh k Hk). pose proof (P k Hk). lia.
  - destruct (subtract_ok (unset_x o) g (sh i) (max_value o) h e _ _ G E2 E3 E4) as [[[[[n2 em2] v2] h2] e2] RD2].
    { intros k Hk. rewrite (Fh k Hk). pose proof (P k Hk). pose proof (sum_nonneg (fun i => xrays g (sh i) k (frame fs i)) l (fun i => xrays_nonneg g (sh i) k (frame fs i))). lia. }
    rewrite RD2. cbn [bind]. eexists. reflexivity.
Qed.
Theorem C67_loads_frames : forall o g sh raw fs l c, good g -> frames_of raw fs -> sum_frames o = false ->
  right fs (starts c) -> Forall (fun i => (i < List.length (starts c))%nat) l -> target c + zlen l <= n_frames o ->
  (forall j k i, target c <= j -> inside g k -> In i l -> maps c j k + xrays g (sh i) k (frame fs i) < max_value o) ->
  exists c', dense_loop o g sh raw l c = Ok c'.
Proof.
  intros o g sh raw fs l. induction l as [|i l IH]; intros c G F Hs R Hl Ht Hm; [eexists; reflexivity|]. cbn [dense_loop]. inversion Hl as [|? ? Hi Hl']; subst.
  destruct (find_frame_ok raw fs (starts c) i F R Hi) as [fsi [FF [R' L']]]. rewrite FF. cbn [bind]. unfold zlen in Ht. cbn [List.length] in Ht. replace (n_frames o <=? target c) with false by lia.
  destruct (stream_at raw fs i F) as [E1 [E2 [E3 [E4 [E5 E6]]]]]. rewrite E1.
  assert (P : forall k, inside g k -> maps c (target c) k + xrays g (sh i) k (frame fs i) < max_value o) by (intros k Hk; apply Hm; [lia|exact Hk|left; reflexivity]).
  destruct (C66_range (unset_x o) g (sh i) (max_value o) (maps c (target c)) (ems c (target c)) _ _ G E2 E3 E4) as [[_ RG] _].
  { intros k Hk. pose proof (P k Hk). pose proof (xrays_nonneg g (sh i) k (frame fs i)). lia. }
  destruct (RG P) as [[[[[n em'] v] h] e] RD].
  rewrite RD. cbn [bind]. destruct (C66_frame _ _ _ _ _ _ _ _ _ _ _ _ _ _ G E2 E3 E4 RD) as [Fn _].
  destruct (n =? 0) eqn:N0; [eexists; reflexivity|]. rewrite Hs. destruct (v || negb (only_valid o)); [|eexists; reflexivity].
  apply IH; cbn [starts target maps]; try assumption.
  - destruct (Z.of_nat i + 1 <? zlen fsi) eqn:Q; [|exact R']. replace (Z.to_nat (Z.of_nat i + 1)) with (S i) by lia. rewrite Fn, <- (start_S raw fs i F). apply right_set; [exact R'|unfold zlen in Q; lia].
  - destruct (Z.of_nat i + 1 <? zlen fsi); [rewrite set_start_length|]; rewrite L'; exact Hl'.
  - unfold zlen. lia.
  - intros j k i' Hj Hk Hin. unfold set_at. replace (target c =? j) with false by lia. apply Hm; [lia|exact Hk|right; exact Hin].
Qed.
(** * The cube *)
(** The shift of a frame in a result: [shifts] less the origin *)
Definition shift_at (shifts : list shift) (i : nat) : shift := nth i shifts {| dx := 0; dy := 0; dz := 0 |}.
Definition shift_in (r : result) (shifts : list shift) (i : nat) : shift :=
  {| dx := dx (shift_at shifts i) - snd (r_origin r); dy := dy (shift_at shifts i) - fst (r_origin r); dz := dz (shift_at shifts i) |}.
Definition geom_of (r : result) (wn hn rb h : Z) : geom :=
  {| width := r_width r; height := r_height r; channels := r_channels r; wnorm := wn; hnorm := hn; rebin := rb; stride := h |}.
Lemma maxl_spec : forall l, l <> [] -> In (maxl l) l /\ forall a, In a l -> a <= maxl l.
Proof.
  intros [|b l] H; [congruence|]. unfold maxl. assert (P : forall l' x, (fold_right Z.max x l' = x \/ In (fold_right Z.max x l') l') /\ x <= fold_right Z.max x l' /\ forall a, In a l' -> a <= fold_right Z.max x l').
  { induction l' as [|c l' IH]; intro x; [cbn [fold_right]; split; [left; reflexivity|]; split; [lia|intros a []]|]. destruct (IH x) as [A [B C]]. cbn [fold_right]. split.
    - destruct (Z.max_spec c (fold_right Z.max x l')) as [[_ ->]|[_ ->]]; [destruct A; [left; assumption|right; right; assumption]|right; left; reflexivity].
    - split; [lia|]. intros a [->|Ha]; [lia|]. pose proof (C a Ha). lia. }
  destruct (P (b :: l) b) as [A [B C]]. split; [destruct A as [A|A]; [rewrite A; left; reflexivity|exact A]|exact C].
Qed.
Lemma minl_spec : forall l, l <> [] -> In (minl l) l /\ forall a, In a l -> minl l <= a.
Proof.
  intros [|b l] H; [congruence|]. unfold minl. assert (P : forall l' x, (fold_right Z.min x l' = x \/ In (fold_right Z.min x l') l') /\ fold_right Z.min x l' <= x /\ forall a, In a l' -> fold_right Z.min x l' <= a).
  { induction l' as [|c l' IH]; intro x; [cbn [fold_right]; split; [left; reflexivity|]; split; [lia|intros a []]|]. destruct (IH x) as [A [B C]]. cbn [fold_right]. split.
    - destruct (Z.min_spec c (fold_right Z.min x l')) as [[_ ->]|[_ ->]]; [right; left; reflexivity|destruct A; [left; assumption|right; right; assumption]].
    - split; [lia|]. intros a [->|Ha]; [lia|]. pose proof (C a Ha). lia. }
  destruct (P (b :: l) b) as [A [B C]]. split; [destruct A as [A|A]; [rewrite A; left; reflexivity|exact A]|exact C].
Qed.
Lemma readcube_geom : forall lazy o w h ch wn hn rb sweep shifts fsi l raw r, readcube lazy o w h ch wn hn rb sweep shifts fsi l raw = Ok r ->
  r_origin r = (maxl (map (fun i => dy (shift_at shifts i)) l), maxl (map (fun i => dx (shift_at shifts i)) l)) /\ r_channels r = ch /\
  r_width r = w + (minl (map (fun i => dx (shift_at shifts i)) l) - maxl (map (fun i => dx (shift_at shifts i)) l)) /\
  r_height r = h + (minl (map (fun i => dy (shift_at shifts i)) l) - maxl (map (fun i => dy (shift_at shifts i)) l)).
Proof.
  intros lazy o w h ch wn hn rb sweep shifts fsi l raw r H. unfold readcube in H. destruct (existsb _ _); [discriminate|]. destruct l as [|i9 l9]; [discriminate|]. cbv zeta in H. set (l := i9 :: l9) in *. destruct lazy.
  - destruct (lazy_loop _ _ _ _ _ _) as [c|]; [|discriminate]. cbn [bind] in H. destruct (lists c) as [|l0 ls]; [discriminate|].
    destruct (existsb _ _); [discriminate|]. ok_inj H. subst r. cbn [r_origin r_channels r_width r_height width height]. repeat split; reflexivity.
  - destruct (dense_loop _ _ _ _ _ _) as [c|]; [|discriminate]. cbn [bind] in H. ok_inj H. subst r. cbn [r_origin r_channels r_width r_height width height]. repeat split; reflexivity.
Qed.
(** The map covers what all frames cover *)
Theorem C67_overlap : forall lazy o w h ch wn hn rb sweep shifts fsi l raw r, l <> [] -> readcube lazy o w h ch wn hn rb sweep shifts fsi l raw = Ok r ->
  (forall x, 0 <= x < r_width r <-> forall i, In i l -> 0 <= x - dx (shift_in r shifts i) < w) /\
  (forall y, 0 <= y < r_height r <-> forall i, In i l -> 0 <= y - dy (shift_in r shifts i) < h).
Proof.
  intros lazy o w h ch wn hn rb sweep shifts fsi l raw r Hl H. destruct (readcube_geom _ _ _ _ _ _ _ _ _ _ _ _ _ _ H) as [O [_ [W Hh]]]. unfold shift_in. rewrite O, W, Hh. cbn [fst snd dx dy].
  assert (P : forall (f : nat -> Z) size x, 0 <= x < size + (minl (map f l) - maxl (map f l)) <-> (forall i, In i l -> 0 <= x - (f i - maxl (map f l)) < size)).
  { intros f size x. assert (Ne : map f l <> []) by (destruct l; [congruence|discriminate]). destruct (maxl_spec _ Ne) as [A1 A2]. destruct (minl_spec _ Ne) as [B1 B2]. split.
    - intros Hx i Hi. pose proof (A2 (f i) (in_map f l i Hi)). pose proof (B2 (f i) (in_map f l i Hi)). lia.
    - intros K. apply in_map_iff in A1, B1. destruct A1 as [i [Ei Hi]]. destruct B1 as [j [Ej Hj]]. pose proof (K i Hi). pose proof (K j Hj). lia. }
  split; [apply (P (fun i => dx (shift_at shifts i)))|apply (P (fun i => dy (shift_at shifts i)))].
Qed.
Theorem C67_cube : forall o w h ch wn hn rb sweep shifts fsi l raw fs r, good (geom_of r wn hn rb h) -> hn <= 4096 -> frames_of raw fs -> right fs fsi ->
  Forall (fun i => (i < List.length fsi)%nat) l -> readcube false o w h ch wn hn rb sweep shifts fsi l raw = Ok r ->
  let g := geom_of r wn hn rb h in let sh := shift_in r shifts in
  exists u, used (usable o g sh fs) l u /\ right fs (r_starts r) /\ r_frames r = (if sum_frames o then 1 else zlen u) /\
    (forall k, inside g k ->
      (sum_frames o = true -> r_data r 0 k = sum (fun i => xrays g (sh i) k (frame fs i)) u) /\
      (sum_frames o = false -> forall n i, nth_error u n = Some i -> r_data r (Z.of_nat n) k = xrays g (sh i) k (frame fs i))) /\
    (r_width r <= h -> forall y x, 0 <= y < r_height r -> 0 <= x < r_width r ->
      (sum_frames o = true -> r_em r 0 y x = sum (fun i => brightness g (sh i) (y, x) (frame fs i)) u) /\
      (sum_frames o = false -> forall n i, nth_error u n = Some i -> r_em r (Z.of_nat n) y x = brightness g (sh i) (y, x) (frame fs i))).
Proof.
  intros o w h ch wn hn rb sweep shifts fsi l raw fs r G Hn F R Hl H g sh. destruct (readcube_geom _ _ _ _ _ _ _ _ _ _ _ _ _ _ H) as [O [C [W Hh]]].
  unfold readcube in H. destruct (existsb (fun i => Nat.leb (List.length shifts) i) l); [discriminate|]. destruct l as [|i9 l9]; [discriminate|]. set (l := i9 :: l9) in *. cbv zeta in H.
  assert (Eg : g = {| width := w + (minl (map (fun i => dx (shift_at shifts i)) l) - maxl (map (fun i => dx (shift_at shifts i)) l)); height := h + (minl (map (fun i => dy (shift_at shifts i)) l) - maxl (map (fun i => dy (shift_at shifts i)) l)); channels := ch; wnorm := wn; hnorm := hn; rebin := rb; stride := h |}).
  { unfold g, geom_of. rewrite C, W, Hh. reflexivity. }
  assert (Es : sh = fun i => {| dx := dx (shift_at shifts i) - maxl (map (fun i => dx (shift_at shifts i)) l); dy := dy (shift_at shifts i) - maxl (map (fun i => dy (shift_at shifts i)) l); dz := dz (shift_at shifts i) |}).
  { unfold sh, shift_in. rewrite O. reflexivity. }
  unfold shift_at in Eg, Es. rewrite <- Eg, <- Es in H. destruct (dense_loop o g sh raw l (empty_cube fsi)) as [c|] eqn:D; [|discriminate]. cbn [bind] in H. ok_inj H.
  assert (Hg : hnorm g <= 4096) by exact Hn. destruct (sum_frames o) eqn:S.
  - destruct (C67_sum _ _ _ _ _ _ (empty_cube fsi) _ G Hg F S R Hl D) as [u [U1 [U2 [U3 [U4 U5]]]]]. exists u. split; [exact U1|]. rewrite <- H at 1. cbn [r_starts]. split; [exact U2|]. split; [rewrite <- H at 1; reflexivity|].
    cbn [empty_cube target maps ems] in *. split.
    + intros k Hk. split; [|discriminate]. intros _. rewrite <- H at 1. cbn [r_data]. apply (U4 k Hk).
    + intros Hst y x Hy Hx. split; [|discriminate]. intros _. rewrite <- H at 1. cbn [r_em]. apply (U5 Hst y x Hy Hx).
  - destruct (C67_frames _ _ _ _ _ _ (empty_cube fsi) _ G Hg F S R Hl D) as [u [U1 [U2 [U3 [U4 U5]]]]]. exists u. split; [exact U1|]. rewrite <- H at 1. cbn [r_starts]. split; [exact U2|]. split; [rewrite <- H at 1; cbn [r_frames]; exact U3|].
    cbn [empty_cube target maps ems] in *. split.
    + intros k Hk. split; [discriminate|]. intros _ n i Hi. rewrite <- H at 1. cbn [r_data]. apply (proj1 (U5 n i Hi) k Hk).
    + intros Hst y x Hy Hx. split; [discriminate|]. intros _ n i Hi. rewrite <- H at 1. cbn [r_em]. apply (proj2 (U5 n i Hi) Hst y x Hy Hx).
Qed.
(** * The arguments of the reader *)
(** Missing starts are not known; every listed frame has a start and a shift *)
Theorem C67_prepare : forall fl sweep fsi shifts l fsi' sh', prepare fl sweep fsi shifts = Ok (l, fsi', sh') ->
  l <> [] /\ Forall (fun i => (i < List.length fsi')%nat /\ (i < List.length sh')%nat /\ Z.of_nat i <= sweep) l /\
  (forall fs, match fsi with None => True | Some f => right fs f end -> right fs fsi') /\
  (forall i, In i l -> shift_at sh' i = match shifts with None => ex_zero | Some (two, s) => {| dx := dx (shift_at s i); dy := dy (shift_at s i); dz := if two then 0 else dz (shift_at s i) |} end) /\
  (forall i, In i l <-> match fl with None | Some [] => True | Some l0 => In (Z.of_nat i) l0 end /\ Z.of_nat i <= sweep /\ match shifts with None => True | Some (_, s) => (i < List.length s)%nat end).
Proof.
  intros fl sweep fsi shifts l fsi' sh' H. unfold prepare in H. cbv zeta in H. destruct (listed_frames fl sweep shifts) as [|i0 l0] eqn:El; [discriminate|].
  remember (i0 :: l0) as l1. set (n := S (fold_right Nat.max O l1)) in *.
  assert (Hin : forall i, In i l1 <-> match fl with None | Some [] => True | Some l0 => In (Z.of_nat i) l0 end /\ Z.of_nat i <= sweep /\ match shifts with None => True | Some (_, s) => (i < List.length s)%nat end).
  { intro i. rewrite <- El. unfold listed_frames. rewrite in_map_iff. split.
    - intros [z [Ez Hz]]. apply filter_In in Hz. destruct Hz as [Hz Hc]. assert (Z.of_nat i = z) by lia. split; [destruct fl as [[|a fl]|]; [exact Logic.I|rewrite H0; exact Hz|exact Logic.I]|]. split; [lia|].
      destruct shifts as [[b s]|]; [unfold zlen in Hc; lia|exact Logic.I].
    - intros [A [B C]]. exists (Z.of_nat i). split; [lia|]. apply filter_In. split.
      + destruct fl as [[|a fl]|]; [apply in_zseq; lia|exact A|apply in_zseq; lia].
      + destruct shifts as [[b s]|]; [unfold zlen; lia|lia]. }
  assert (Hmax : forall i, In i l1 -> (i < n)%nat).
  { intros i Hi. unfold n. clear - Hi. induction l1 as [|a l IH]; [contradiction|]. cbn [fold_right]. destruct Hi as [->|Hi]; [lia|]. specialize (IH Hi). lia. }
  set (fsi0 := match fsi with None => 0 :: repeat (-1) (n - 1) | Some f => f end) in *.
  set (fsi1 := if Nat.ltb (List.length fsi0) n then fsi0 ++ repeat (-1) (n - List.length fsi0) else fsi0) in *.
  assert (Ls : (n <= List.length fsi1)%nat).
  { unfold fsi1. destruct (Nat.ltb (List.length fsi0) n) eqn:Q; [apply Nat.ltb_lt in Q; rewrite app_length, repeat_length; lia|apply Nat.ltb_ge in Q; exact Q]. }
  assert (Rs : forall fs, match fsi with None => True | Some f => right fs f end -> right fs fsi1).
  { intros fs Hf. assert (R0 : right fs fsi0).
    { unfold fsi0. destruct fsi; [exact Hf|]. split; [reflexivity|]. intros [|k] p Hp; [right; cbn [nth_error] in Hp; assert (p = 0) by congruence; subst p; reflexivity|].
      cbn [nth_error] in Hp. apply nth_error_In, repeat_spec in Hp. left. lia. }
    unfold fsi1. destruct (Nat.ltb (List.length fsi0) n); [|exact R0]. destruct R0 as [A B]. split.
    - rewrite nth_error_app1; [exact A|]. apply nth_error_Some. congruence.
    - intros k p Hp. destruct (Nat.lt_ge_cases k (List.length fsi0)) as [K|K]; [rewrite nth_error_app1 in Hp by exact K; apply B, Hp|]. rewrite nth_error_app2 in Hp by exact K. apply nth_error_In, repeat_spec in Hp. left. lia. }
  assert (Hs : forall sh1, Ok (l1, fsi1, sh1) = Ok (l, fsi', sh') -> (forall i, In i l1 -> (i < List.length sh1)%nat) ->
    (forall i, In i l1 -> shift_at sh1 i = match shifts with None => ex_zero | Some (two, s) => {| dx := dx (shift_at s i); dy := dy (shift_at s i); dz := if two then 0 else dz (shift_at s i) |} end) ->
    l <> [] /\ Forall (fun i => (i < List.length fsi')%nat /\ (i < List.length sh')%nat /\ Z.of_nat i <= sweep) l /\
    (forall fs, match fsi with None => True | Some f => right fs f end -> right fs fsi') /\
    (forall i, In i l -> shift_at sh' i = match shifts with None => ex_zero | Some (two, s) => {| dx := dx (shift_at s i); dy := dy (shift_at s i); dz := if two then 0 else dz (shift_at s i) |} end) /\
    (forall i, In i l <-> match fl with None | Some [] => True | Some l0 => In (Z.of_nat i) l0 end /\ Z.of_nat i <= sweep /\ match shifts with None => True | Some (_, s) => (i < List.length s)%nat end)).
  { intros sh1 E A B. assert (l = l1 /\ fsi' = fsi1 /\ sh' = sh1) as [-> [-> ->]] by (repeat split; congruence). split; [rewrite Heql1; discriminate|]. split; [|split; [exact Rs|split; [exact B|exact Hin]]].
    apply Forall_forall. intros i Hi. split; [pose proof (Hmax i Hi); lia|]. split; [apply A, Hi|]. apply Hin in Hi. apply Hi. }
  clear Rs. destruct shifts as [[[|] s]|].
  - destruct (Nat.ltb n (List.length s)) eqn:Q; [discriminate|]. cbn [bind] in H. apply Nat.ltb_ge in Q. apply (Hs _ H).
    + intros i Hi. rewrite app_length, map_length, repeat_length. pose proof (Hmax i Hi). lia.
    + intros i Hi. pose proof (proj1 (Hin i) Hi) as [_ [_ K]]. unfold shift_at. rewrite app_nth1 by (rewrite map_length; exact K). change {| dx := 0; dy := 0; dz := 0 |} with ((fun d => {| dx := dx d; dy := dy d; dz := 0 |}) {| dx := 0; dy := 0; dz := 0 |}) at 1. rewrite map_nth. reflexivity.
  - cbn [bind] in H. apply (Hs _ H).
    + intros i Hi. apply (proj1 (Hin i) Hi).
    + intros i Hi. destruct (shift_at s i); reflexivity.
  - cbn [bind] in H. apply (Hs _ H).
    + intros i Hi. rewrite repeat_length. apply Hmax, Hi.
    + intros i Hi. unfold shift_at. change {| dx := 0; dy := 0; dz := 0 |} with ex_zero. clear - Hi. generalize n. intro m. revert i Hi. induction m as [|m IH]; intros [|i] Hi; try reflexivity. cbn [repeat nth]. clear. revert i. induction m as [|m IH]; intros [|i]; try reflexivity. cbn [repeat nth]. apply IH.
Qed.
Example C67_example_prepare : prepare (Some [1; 3; 9]) 5 None (Some (true, [{| dx := 1; dy := 2; dz := 9 |}; {| dx := 3; dy := 4; dz := 9 |}])) = Ok ([1%nat], [0; -1], [{| dx := 1; dy := 2; dz := 0 |}; {| dx := 3; dy := 4; dz := 0 |}]).
Proof. reflexivity. Qed.
(** * Examples *)
Definition ex_fs : list (list Z) := [ex_frame 4; ex_frame 5; ex_frame 4; firstn 7 (ex_frame 4)].
Definition ex_shifts : list shift := repeat ex_zero 5.
Definition ex_raw : list Z := List.concat ex_fs.
Definition ex_o (sum valid : bool) : options := {| sum_frames := sum; only_valid := valid; max_value := 65535; unset_x := 77; unset_y := 0; n_frames := 5 |}.
Lemma ex_frames_of : frames_of ex_raw ex_fs.
Proof.
  constructor; [reflexivity| | | | |].
  - unfold ex_raw, ex_fs, List.concat, ex_frame. cbn [firstn app]. repeat (constructor; [unfold word; vm_compute; split; congruence|]). constructor.
  - repeat (constructor; [discriminate|]). constructor.
  - repeat (constructor; [unfold one_frame; vm_compute; repeat constructor; discriminate|]). constructor.
  - intros a f b E. destruct a as [|a0 [|a1 [|a2 [|a3 [|a4 a]]]]]; cbn [app] in E; try discriminate; injection E; intros; subst;
    try (right; eexists 36864, _, 2048; vm_compute; repeat split; fail); left; reflexivity.
  - repeat (constructor; [vm_compute; discriminate|]). constructor.
Qed.
Example C67_example_sum :
  right ex_fs [0; -1; -1; -1; -1] /\
  match readcube false (ex_o true true) 2 2 8 2048 2048 1 5 ex_shifts [0; -1; -1; -1; -1] (seq 0 4) ex_raw with
  | Ok r => r_frames r = 1 /\ r_data r 0 (0, 0, 4) = 4 /\ r_data r 0 (0, 0, 5) = 2 /\ r_data r 0 (0, 1, 5) = 2 /\ r_em r 0 1 1 = 27 /\ r_starts r = [0; 12; 24; 36; -1] /\ r_valid r = Some false
  | Err _ => False
  end.
Proof. split; [split; [reflexivity|]; intros [|[|[|[|[|k]]]]] p H; try (injection H as <-; lia); [injection H as <-; right; reflexivity|destruct k; discriminate]|vm_compute; repeat split]. Qed.
Example C67_example_frames :
  match readcube false (ex_o false false) 2 2 8 2048 2048 1 5 ex_shifts [0; -1; -1; -1; -1] [1; 3]%nat ex_raw with
  | Ok r => r_frames r = 2 /\ r_data r 0 (0, 0, 5) = 2 /\ r_data r 1 (0, 0, 4) = 2 /\ r_data r 1 (1, 0, 3) = 0 /\ r_starts r = [0; 12; 24; 36; 43]
  | Err _ => False
  end.
Proof. vm_compute; repeat split. Qed.
(** Frames shifted by one column: the map is one column narrower *)
Example C67_example_shift :
  match readcube false (ex_o true true) 2 2 8 2048 2048 1 5 [{| dx := 0; dy := 0; dz := 0 |}; {| dx := 1; dy := 0; dz := 0 |}] [0; -1; -1; -1; -1] [0; 1]%nat ex_raw with
  | Ok r => r_width r = 1 /\ r_height r = 2 /\ r_origin r = (0, 1) /\ r_data r 0 (0, 0, 5) = 1 + 2 /\ r_data r 0 (0, 0, 4) = 0
  | Err _ => False
  end.
Proof. vm_compute; repeat split. Qed.
(** * Refuted *)
(** The image of a map that is wider than tall is scrambled: its lines overlap in memory.
    Two pixels of the map are the same place. *)
Theorem C67_image_refuted : exists o ws r, readcube false o 3 2 8 1365 2048 1 5 ex_shifts [0; -1; -1; -1; -1] [0%nat] ws = Ok r /\ frames_of ws [ws] /\
  brightness (geom_of r 1365 2048 1 2) ex_zero (0, 2) ws = 7 /\ brightness (geom_of r 1365 2048 1 2) ex_zero (1, 0) ws = 0 /\ r_em r 0 1 0 = 7.
Proof.
  exists (ex_o true false), [36864; 32768 + 2730; 40967]. eexists. split; [vm_compute; reflexivity|]. split; [|vm_compute; repeat split].
  constructor; [reflexivity| | | | |].
  - repeat (constructor; [unfold word; vm_compute; split; congruence|]). constructor.
  - repeat (constructor; [discriminate|]). constructor.
  - repeat (constructor; [unfold one_frame; vm_compute; repeat constructor; discriminate|]). constructor.
  - intros a f b E. destruct a as [|a0 [|a1 a]]; cbn [app] in E; try discriminate. injection E as <- <-. left. reflexivity.
  - repeat (constructor; [vm_compute; discriminate|]). constructor.
Qed.
(** The frame axis counts up to the last frame, not the frames of the data *)
Theorem C67_frame_axis_refuted : exists o r, sum_frames o = false /\ readcube false o 2 2 8 2048 2048 1 5 ex_shifts [0; -1; -1; -1; -1] [1; 3]%nat ex_raw = Ok r /\
  data_shape o r = [2; 2; 2] /\ map (fun a => snd (fst a)) (map_axes o r) = [4; 2; 2].
Proof. exists (ex_o false false). eexists. split; [reflexivity|]. split; [vm_compute; reflexivity|]. vm_compute. split; reflexivity. Qed.
(** The offset of the x axis is the origin in y, and the other way round *)
Theorem C67_offsets_refuted : exists o shifts r, readcube false o 2 2 8 2048 2048 1 5 shifts [0; -1; -1; -1; -1] [0; 1]%nat ex_raw = Ok r /\
  fst (r_origin r) = maxl (map (fun i => dy (shift_at shifts i)) [0; 1]%nat) /\ snd (r_origin r) = maxl (map (fun i => dx (shift_at shifts i)) [0; 1]%nat) /\
  fst (r_origin r) = 0 /\ snd (r_origin r) = 1 /\ map_axes o r = [("y"%string, 2, 1); ("x"%string, 1, 0)].
Proof.
  exists (ex_o true true), [{| dx := 0; dy := 0; dz := 0 |}; {| dx := 1; dy := 0; dz := 0 |}]. eexists. split; [vm_compute; reflexivity|]. vm_compute. repeat split.
Qed.
Print Assumptions C67_sum.
Print Assumptions C67_frames.
Print Assumptions C67_loads_sum.
Print Assumptions C67_loads_frames.
Print Assumptions C67_overlap.
Print Assumptions C67_cube.
Print Assumptions C67_prepare.
Print Assumptions C67_image_refuted.
Print Assumptions C67_frame_axis_refuted.
Print Assumptions C67_offsets_refuted.
