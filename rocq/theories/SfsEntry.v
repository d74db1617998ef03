(** Claim C34, the entries of the file table of an SFS container. *)
From Verif Require Import Base Text Bytes Utf8 HierModel SfsModel SfsProps.

(** * Specification: the 512 bytes of an entry *)
Record entry := mkEntry { e_ptr : Z; e_size : Z; e_times : list Z; e_perm : Z; e_parent : Z; e_fill1 : list Z; e_dir : bool; e_fill2 : list Z; e_name : pystr; e_fill3 : list Z }.
Definition enc_entry (e : entry) (name : list Z) : list Z :=
  le 4 (e_ptr e) ++ le 8 (e_size e) ++ e_times e ++ le 4 (e_perm e) ++ le 4 (e_parent e) ++ e_fill1 e ++
  [if e_dir e then 1 else 0] ++ e_fill2 e ++ (name ++ repeat 0 (256 - List.length name)) ++ e_fill3 e.
Definition entry_ok (e : entry) : Prop :=
  - 2 ^ 31 <= e_ptr e < 2 ^ 31 /\ 0 <= e_size e < 2 ^ 64 /\ - 2 ^ 31 <= e_parent e < 2 ^ 31 /\
  List.length (e_times e) = 24%nat /\ List.length (e_fill1 e) = 176%nat /\ List.length (e_fill2 e) = 3%nat /\ List.length (e_fill3 e) = 32%nat /\
  Forall (fun c => c <> 0) (e_name e).

Lemma utf8_nonzero : forall s b, utf8_encode s = Ok b -> Forall (fun c => c <> 0) s -> Forall (fun c => c <> 0) b.
Proof.
  intros s b H F. unfold utf8_encode in H. destruct (forallb scalar s) eqn:E; [|discriminate]. assert (b = flat_map utf8_char s) as -> by congruence. clear H.
  induction F as [|c s Hc F IH]; [constructor|]. cbn [forallb] in E. apply andb_true_iff in E. destruct E as [E1 E2]. cbn [flat_map]. apply Forall_app. split; [|apply IH; exact E2].
  unfold utf8_char. unfold scalar in E1. destruct (c <? 128) eqn:A; [|destruct (c <? 2048) eqn:B; [|destruct (c <? 65536) eqn:C]]; repeat constructor; lia.
Qed.
Lemma drop_zeros_id : forall l r, Forall (fun c => c <> 0) l -> l <> [] -> drop_zeros (l ++ r) = l ++ r.
Proof. intros [|x l] r F H; [contradiction|]. inversion F; subst. cbn. destruct x; [lia|reflexivity|reflexivity]. Qed.
Lemma drop_zeros_repeat : forall k r, drop_zeros (repeat 0 k ++ r) = drop_zeros r.
Proof. induction k as [|k IH]; intro r; [reflexivity|]. cbn. apply IH. Qed.
Lemma rev_repeat0 : forall k, rev (repeat 0 k) = repeat 0 k.
Proof. induction k as [|k IH]; [reflexivity|]. cbn [repeat rev]. rewrite IH. symmetry. change [0] with (repeat 0 1). rewrite <- repeat_app. rewrite Nat.add_comm. reflexivity. Qed.
Lemma strip_name : forall l k, Forall (fun c => c <> 0) l -> strip_zeros (l ++ repeat 0 k) = l.
Proof.
  intros l k F. unfold strip_zeros. destruct l as [|x l].
  - cbn [app]. rewrite <- (app_nil_r (repeat 0 k)), drop_zeros_repeat. reflexivity.
  - rewrite drop_zeros_id by (try exact F; discriminate). rewrite rev_app_distr, rev_repeat0, drop_zeros_repeat.
    rewrite <- (app_nil_r (rev (x :: l))), drop_zeros_id, app_nil_r; [apply rev_involutive|apply Forall_rev; exact F|].
    intro E. apply (f_equal (@List.length Z)) in E. rewrite rev_length in E. discriminate.
Qed.

Theorem C34_entry : forall f cs e name, 36 <= cs -> entry_ok e -> utf8_encode (e_name e) = Ok name -> (List.length name <= 256)%nat ->
  zlen (enc_entry e name) = 512 /\
  parse_item f cs (enc_entry e name) =
    (let! ps := (if e_dir e then Ok [] else pointer_table f cs (e_ptr e) (e_size e)) in
     Ok (mkItem (e_size e) (e_parent e) (e_dir e) (e_name e) ps)).
Proof.
  intros f cs e name Hcs [Hp [Hs [Hpa [L1 [L2 [L3 [L4 Hn]]]]]]] En Ln.
  assert (Lpad : List.length (name ++ repeat 0 (256 - List.length name)) = 256%nat) by (rewrite app_length, repeat_length; lia).
  assert (L : zlen (enc_entry e name) = 512).
  { unfold enc_entry, zlen. rewrite !(app_length _ (_ ++ _)), !le_length, L1, L2, L3, (app_length (_ ++ _) (e_fill3 e)), Lpad, L4. reflexivity. }
  split; [exact L|]. unfold parse_item. rewrite L. change (512 =? 512) with true. cbn [negb].
  assert (S0 : slice 0 4 (enc_entry e name) = le 4 (e_ptr e)) by (unfold enc_entry; apply slice_here; apply le_length).
  assert (S1 : slice 4 8 (enc_entry e name) = le 8 (e_size e)) by (unfold enc_entry; apply slice_app; apply le_length).
  assert (S2 : slice 40 4 (enc_entry e name) = le 4 (e_parent e)).
  { unfold enc_entry. rewrite (app_assoc (le 4 (e_ptr e))), (app_assoc _ (e_times e)), (app_assoc _ (le 4 (e_perm e))). apply slice_app; [|apply le_length].
    rewrite !app_length, !le_length, L1. reflexivity. }
  assert (S3 : slice 220 1 (enc_entry e name) = [if e_dir e then 1 else 0]).
  { unfold enc_entry. rewrite (app_assoc (le 4 (e_ptr e))), (app_assoc _ (e_times e)), (app_assoc _ (le 4 (e_perm e))), (app_assoc _ (le 4 (e_parent e))), (app_assoc _ (e_fill1 e)).
    apply slice_app; [|reflexivity]. rewrite !app_length, !le_length, L1, L2. reflexivity. }
  assert (S4 : slice 224 256 (enc_entry e name) = name ++ repeat 0 (256 - List.length name)).
  { unfold enc_entry. rewrite (app_assoc (le 4 (e_ptr e))), (app_assoc _ (e_times e)), (app_assoc _ (le 4 (e_perm e))), (app_assoc _ (le 4 (e_parent e))), (app_assoc _ (e_fill1 e)),
      (app_assoc _ [if e_dir e then 1 else 0]), (app_assoc _ (e_fill2 e)).
    apply slice_app; [|exact Lpad]. rewrite !app_length, !le_length, L1, L2, L3. reflexivity. }
  rewrite S0, S1, S2, S3, S4. rewrite strip_name by (eapply utf8_nonzero; eassumption). rewrite (utf8_round_trip _ _ En). cbn [bind].
  replace (cs - 32 =? 0) with false by lia. rewrite !le_val_le.
  rewrite (Z.mod_small (e_size e)) by (change (256 ^ Z.of_nat 8) with (2 ^ 64); lia).
  rewrite !signed_mod by (try lia; exact Hp || exact Hpa).
  assert (Ed : negb (le_val [if e_dir e then 1 else 0] =? 0) = e_dir e) by (destruct (e_dir e); reflexivity). rewrite Ed. reflexivity.
Qed.
Print Assumptions C34_entry.
Definition ex_entry : entry := mkEntry 3 (2 ^ 33 + 5) (repeat 9 24) 7 (-1) (repeat 8 176) true [1; 2; 3] (str "Ex" ++ [233]) (repeat 6 32).
Example C34_entry_example : entry_ok ex_entry /\ utf8_encode (e_name ex_entry) = Ok (str "Ex" ++ [195; 169]) /\
  parse_item [] 4096 (enc_entry ex_entry (str "Ex" ++ [195; 169])) = Ok (mkItem 8589934597 (-1) true (str "Ex" ++ [233]) []).
Proof.
  split; [|split; vm_compute; reflexivity]. unfold entry_ok. cbn [ex_entry e_ptr e_size e_parent e_times e_fill1 e_fill2 e_fill3 e_name].
  repeat (split; [first [reflexivity|lia]|]). repeat constructor; discriminate.
Qed.
