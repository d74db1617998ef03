(** Metadata storage in hspy and zspy files: C14, C15 and C44. *)
From Coq Require Import Permutation.
From Verif Require Import Base Text HierModel HierSpec HierProof.

(** * C14: storable dictionaries survive storage *)
Theorem C14_metadata_round_trip : forall d,
  NoDup (map fst d) -> Forall (fun p => good_key (fst p)) d -> Forall (fun p => storable (snd p)) d ->
  exists r, store_and_load d = Ok r /\ veq (VDict d) (VDict r).
Proof.
  intros d Hnd Hk Hs.
  destruct (dict_new d) as [a [i [d' [r [E1 [E2 [E3 E4]]]]]]]; [|exact Hk|exact Hnd|].
  - eapply Forall_impl; [|exact Hs]. intros p H. apply storable_good. exact H.
  - exists r. split; [|eapply veq_dict; eassumption].
    unfold store_and_load, empty_group. rewrite E1. cbn [bind]. exact E2.
Qed.
Print Assumptions C14_metadata_round_trip.

(** A dictionary with every kind of value. *)
Definition ex_meta : list (pystr * value) :=
  [(str "title", VStr (str "EDS map"));
   (str "empty", VList []);
   (str "Sample", VDict [(str "elements", VList [VStr (str "Al"); VStr (str "Si")]);
                         (str "weights", VTuple [VFloat 3; VFloat 7])]);
   (str "raw", VBytes [1; 0; 2]);
   (str "n", VInt 12); (str "data", VArr 5);
   (str "mixed", VList [VNone; VInt 4; VList [VStr (str "x"); VNone]; VDict [(str "k", VBool true)]])].

Ltac solve_good_key :=
  split; [intros ? Hp; cbn in Hp; intuition subst; cbn; congruence
         |split; [cbn; intuition lia
                 |intros [ds [r [E [Hne Hd]]]]; destruct ds as [|c ds]; [congruence|];
                  cbn in E; injection E as E _; inversion Hd as [|? ? D _]; subst; cbn in D; discriminate]].
Ltac solve_keys := repeat (apply Forall_cons; [cbn [fst]; solve_good_key|]); apply Forall_nil.
Ltac solve_nodup := repeat (apply NoDup_cons; [cbn; intuition discriminate|]); apply NoDup_nil.

Example C14_example : exists r, store_and_load ex_meta = Ok r /\ veq (VDict ex_meta) (VDict r).
Proof.
  apply C14_metadata_round_trip.
  - cbn [map fst ex_meta]. solve_nodup.
  - unfold ex_meta. solve_keys.
  - unfold ex_meta. repeat apply Forall_cons; cbn [snd]; [| | | | | | |apply Forall_nil].
    + apply s_str; [cbn; intuition lia|cbn; discriminate].
    + apply s_list_nil.
    + apply s_dict; [cbn [map fst]; solve_nodup|solve_keys|].
      apply Forall_cons; [|apply Forall_cons; [|apply Forall_nil]]; cbn [snd].
      * apply s_list_scalars. split; [discriminate|]. right. right. right.
        repeat apply Forall_cons; [| |apply Forall_nil]; eexists; (split; [reflexivity|cbn; intuition lia]).
      * apply s_tuple_scalars. split; [discriminate|]. right. right. left.
        repeat apply Forall_cons; [| |apply Forall_nil]; eexists; reflexivity.
    + apply s_bytes. cbn. tauto.
    + apply s_int. lia.
    + apply s_arr.
    + apply s_list.
      * intro H. inversion H as [|? ? H1 _]; subst. exact H1.
      * cbn. lia.
      * repeat apply Forall_cons; [| | | |apply Forall_nil].
        -- apply s_none.
        -- apply s_int. lia.
        -- apply s_list.
           ++ intro H. inversion H as [|? ? _ H2]; subst. inversion H2 as [|? ? H3 _]; subst. exact H3.
           ++ cbn. lia.
           ++ repeat apply Forall_cons; [| |apply Forall_nil]; [apply s_str; [cbn; intuition lia|cbn; discriminate]|apply s_none].
        -- apply s_dict; [cbn [map fst]; solve_nodup|solve_keys|].
           apply Forall_cons; [apply s_bool|apply Forall_nil].
Qed.

(** The values that the guard excludes are really changed or lost. *)
Definition one (v : value) : list (pystr * value) := [(str "k", v)].
Theorem C14_none_string_refuted : store_and_load (one (VStr (str "_None_"))) = Ok (one VNone).
Proof. reflexivity. Qed.
Theorem C14_bytes_refuted : store_and_load (one (VBytes (str "abc"))) = Ok (one (VStr (str "abc"))).
Proof. reflexivity. Qed.
Theorem C14_mixed_list_refuted :
  store_and_load (one (VList [VInt 1; VStr (str "a")])) = Ok (one (VList [VStr (str "1"); VStr (str "a")])) /\
  store_and_load (one (VList [VBool true; VInt 2])) = Ok (one (VList [VInt 1; VInt 2])).
Proof. split; reflexivity. Qed.
Theorem C14_big_integer_refuted : store_and_load (one (VInt (2 ^ 64))) = Ok [].
Proof. vm_compute. reflexivity. Qed.
(** A key may be taken for the encoding of another: here the heterogeneous list under "x"
    and the list under "3_x" get the same name, and the first one is lost. *)
Theorem C14_name_clash_refuted :
  store_and_load [(str "x", VList [VNone; VInt 1; VInt 2]); (str "3_x", VList [VInt 7; VInt 8])] =
  Ok [(str "3_x", VList [VInt 7; VInt 8])] /\
  store_and_load [(str "3_x", VList [VInt 7; VInt 8]); (str "x", VList [VNone; VInt 1; VInt 2])] = Err TypeError.
Proof. split; vm_compute; reflexivity. Qed.
Theorem C14_reserved_key_refuted :
  store_and_load [(str "_list_a", VArr 3)] = Err NotImplementedError /\
  store_and_load [(str "_ragged_shapes_a", VArr 3)] = Ok [] /\
  store_and_load [(str "_sig_a", VInt 3)] = Ok [].
Proof. repeat split; vm_compute; reflexivity. Qed.
Print Assumptions C14_none_string_refuted.
Print Assumptions C14_bytes_refuted.
Print Assumptions C14_mixed_list_refuted.
Print Assumptions C14_big_integer_refuted.
Print Assumptions C14_name_clash_refuted.
Print Assumptions C14_reserved_key_refuted.

(** * C15: order of lists stored element by element *)
Theorem C15_short_list_order : forall k l,
  good_key k -> ~ Forall is_scalar l -> (List.length l <= 10)%nat -> Forall storable l ->
  exists l', store_and_load [(k, VList l)] = Ok [(k, VList l')] /\ Forall2 veq l l'.
Proof.
  intros k l G Hns Hlen Hs.
  assert (Hgs : Forall good_store l) by (eapply Forall_impl; [|exact Hs]; apply storable_good).
  assert (Hne : l <> []) by (intros ->; apply Hns; constructor).
  destruct (elements_stored l Hlen Hgs) as [a [i [l' [r [E1 [E2 [E3 E4]]]]]]].
  exists l'. split; [|exact E4].
  unfold store_and_load. cbn [dict2group]. rewrite write_list_eq by exact Hne. unfold write_seq.
  rewrite kind_elements by exact Hns. cbv zeta.
  assert (F : fresh (inr (elements_name (str "_list_") k (List.length l), NGroup a i)) empty_group) by (cbn; tauto).
  rewrite (require_fresh _ (NGroup a i)); [|apply name_no_slash; [cbn; intuition lia|apply G]|exact F].
  cbn [bind]. rewrite E1. cbn [bind]. unfold empty_group. cbn [set_item put]. rewrite group2dict_unfold. cbn [read_attrs bind read_items].
  unfold read_item.
  change (startswith (str "_ragged_shapes_") (elements_name (str "_list_") k (List.length l))) with false.
  change (startswith (str "_sig_") (elements_name (str "_list_") k (List.length l))) with false.
  change (startswith (str "_hspy_AxesManager_") (elements_name (str "_list_") k (List.length l))) with false.
  assert (S : startswith (str "_list_") (elements_name (str "_list_") k (List.length l)) = true) by apply startswith_app.
  rewrite S, E2. cbn [bind]. rewrite E3, (strip_count_name (str "_list_")). reflexivity.
Qed.
Print Assumptions C15_short_list_order.

(** ** Lists of any length *)
Lemma digit_keys_nodup_any : forall l i, 0 <= i -> NoDup (map fst (elem_dict i l)).
Proof.
  assert (L : forall l i k, 0 <= i -> In k (map fst (elem_dict i l)) -> exists j, i <= j /\ k = str_int j).
  { induction l as [|v l IH]; intros i k Hi H; [destruct H|]. destruct H as [H|H].
    - exists i. split; [lia|]. symmetry. exact H.
    - apply IH in H; [|lia]. destruct H as [j [Hj E]]. exists j. split; [lia|exact E]. }
  induction l as [|v l IH]; intros i Hi; cbn; constructor.
  - intro K. apply L in K; [|lia]. destruct K as [j [Hj E]].
    unfold str_int in E. destruct (i <? 0) eqn:E1; [lia|]. destruct (j <? 0) eqn:E2; [lia|].
    apply dec_inj in E; lia.
  - apply IH. lia.
Qed.

Lemma digits_good : forall s, Forall (fun c => is_digit c = true) s -> good_key s.
Proof.
  intros s H. rewrite Forall_forall in H. split; [|split].
  - intros p Hp r ->. assert (K : In 95 (p ++ r)) by (cbn in Hp; intuition subst; cbn; auto).
    specialize (H _ K). discriminate.
  - intro K. specialize (H _ K). discriminate.
  - intros [ds [r [-> _]]]. assert (K : In 95 (ds ++ 95 :: r)) by (apply in_or_app; right; left; reflexivity).
    specialize (H _ K). discriminate.
Qed.

Lemma elem_good_any : forall l i, 0 <= i -> Forall (fun p => good_key (fst p)) (elem_dict i l).
Proof.
  induction l as [|v l IH]; intros i Hi; cbn; constructor.
  - cbn [fst]. apply digits_good. rewrite <- (Z2Nat.id i) by exact Hi. apply str_int_digits.
  - apply IH. lia.
Qed.

Lemma insert_least : forall A (p : pystr * A) l, (forall q, In q l -> leb_str (fst p) (fst q) = true) -> insert_item p l = p :: l.
Proof. intros A p [|q l] H; cbn [insert_item]; [reflexivity|]. rewrite H by (left; reflexivity). reflexivity. Qed.

Lemma insert_in : forall A (p q : pystr * A) l, In q (insert_item p l) -> q = p \/ In q l.
Proof.
  induction l as [|r l IH]; cbn [insert_item]; intros H.
  - destruct H as [H|[]]; auto.
  - destruct (leb_str (fst p) (fst r)).
    + destruct H as [H|H]; auto.
    + destruct H as [H|H]; [right; left; exact H|]. apply IH in H. destruct H; [auto|right; right; assumption].
Qed.
Lemma sort_in : forall A (q : pystr * A) l, In q (sort_items l) -> In q l.
Proof.
  induction l as [|r l IH]; cbn [sort_items]; intros H; [exact H|]. apply insert_in in H. destruct H; [left; auto|right; auto].
Qed.
Lemma insert_perm : forall A (p : pystr * A) l, Permutation (p :: l) (insert_item p l).
Proof.
  induction l as [|r l IH]; cbn [insert_item]; [apply Permutation_refl|].
  destruct (leb_str _ _); [apply Permutation_refl|]. eapply Permutation_trans; [apply perm_swap|]. constructor. exact IH.
Qed.
Lemma sort_is_perm : forall A (l : list (pystr * A)), Permutation l (sort_items l).
Proof.
  induction l as [|p l IH]; cbn [sort_items]; [constructor|].
  eapply Permutation_trans; [constructor; exact IH|]. apply insert_perm.
Qed.

(** First character of a positive number is not "0"; two digits from ten on. *)
Lemma dec_head : forall f n, 0 < n -> n < 2 ^ Z.of_nat f -> exists c s, dec_aux f n = c :: s /\ 49 <= c <= 57 /\ (10 <= n -> s <> []).
Proof.
  induction f as [|f IH]; intros n Hn Hf.
  - cbn in Hf. lia.
  - cbn [dec_aux]. destruct (n <? 10) eqn:E.
    + exists (48 + n), []. split; [reflexivity|]. split; [lia|]. lia.
    + destruct (IH (n / 10)) as [c [s [E1 [E2 _]]]].
      * lia.
      * rewrite Nat2Z.inj_succ, Z.pow_succ_r in Hf by lia. lia.
      * rewrite E1. exists c, (s ++ [48 + n mod 10]). split; [reflexivity|]. split; [exact E2|].
        intros _. destruct s; discriminate.
Qed.

Lemma ten_least : forall n, 2 <= n -> n <> 10 -> leb_str (str_int 10) (str_int n) = true.
Proof.
  intros n Hn Hn10. unfold str_int at 2. destruct (n <? 0) eqn:E; [lia|]. change (str_int 10) with [49; 48].
  destruct (dec_head _ n ltac:(lia) (dec_fuel n ltac:(lia))) as [c [s [E1 [E2 E3]]]].
  fold (dec n) in E1. pose proof (dec_digits n ltac:(lia)) as D. rewrite E1 in D. rewrite E1.
  destruct (Z_lt_le_dec n 10) as [K|K].
  - assert (F : n = 2 \/ n = 3 \/ n = 4 \/ n = 5 \/ n = 6 \/ n = 7 \/ n = 8 \/ n = 9) by lia.
    rewrite <- E1. intuition subst; reflexivity.
  - specialize (E3 K). destruct s as [|c2 s]; [congruence|].
    inversion D as [|? ? _ D2]; subst. inversion D2 as [|? ? D3 _]; subst. unfold is_digit in D3.
    cbn [leb_str]. destruct (49 <? c) eqn:A, (49 =? c) eqn:B, (48 <? c2) eqn:C1, (48 =? c2) eqn:C2; cbn; try reflexivity; lia.
Qed.

Lemma leb_zero : forall n, 0 <= n -> leb_str (str_int 0) (str_int n) = true.
Proof.
  intros n Hn. unfold str_int at 2. destruct (n <? 0) eqn:E; [lia|]. change (str_int 0) with [48].
  pose proof (dec_digits n Hn) as D. pose proof (dec_ne n Hn) as N. destruct (dec n) as [|c s]; [congruence|].
  inversion D as [|? ? D3 _]; subst. unfold is_digit in D3. cbn [leb_str].
  destruct (48 <? c) eqn:A, (48 =? c) eqn:B; cbn; try reflexivity; lia.
Qed.
Lemma leb_one : forall n, 1 <= n -> leb_str (str_int 1) (str_int n) = true.
Proof.
  intros n Hn. unfold str_int at 2. destruct (n <? 0) eqn:E; [lia|]. change (str_int 1) with [49].
  destruct (dec_head _ n ltac:(lia) (dec_fuel n ltac:(lia))) as [c [s [E1 [E2 E3]]]].
  fold (dec n) in E1. rewrite E1. cbn [leb_str].
  destruct (49 <? c) eqn:A, (49 =? c) eqn:B; cbn; try reflexivity; lia.
Qed.

Lemma elem_keys_any : forall l i k, In k (map fst (elem_dict i l)) -> exists j, i <= j /\ k = str_int j.
Proof.
  induction l as [|v l IH]; intros i k H; [destruct H|]. destruct H as [H|H].
  - exists i. split; [lia|]. symmetry. exact H.
  - apply IH in H. destruct H as [j [Hj E]]. exists j. split; [lia|exact E].
Qed.

(** Every list of eleven or more elements stored element by element is read back in a
    wrong order: the third element read is the eleventh one stored.  Nothing is lost. *)
Theorem C15_every_long_list_refuted : forall k l,
  good_key k -> ~ Forall is_scalar l -> (List.length l > 10)%nat -> Forall storable l ->
  exists m l', store_and_load [(k, VList l)] = Ok [(k, VList l')] /\
    Forall2 veq l m /\ Permutation m l' /\ nth_error l' 2 = nth_error m 10.
Proof.
  intros k l G Hns Hlen Hs.
  assert (Hgs : Forall good_store l) by (eapply Forall_impl; [|exact Hs]; apply storable_good).
  assert (Hne : l <> []) by (intros ->; apply Hns; constructor).
  destruct (dict_new (elem_dict 0 l)) as [a [i [d' [r [E1 [E2 [E3 E4]]]]]]].
  { apply Forall_forall. intros p Hp. rewrite Forall_forall in Hgs. apply Hgs.
    rewrite <- (elem_dict_snd l 0). apply in_map. exact Hp. }
  { apply elem_good_any. lia. }
  { apply digit_keys_nodup_any. lia. }
  assert (Kd : map fst d' = map fst (elem_dict 0 l)) by (symmetry; apply forall2_keys; exact E3).
  assert (Nd : NoDup (map fst d')) by (rewrite Kd; apply digit_keys_nodup_any; lia).
  exists (map snd d'), (map snd (sort_items r)). split; [|split; [|split]].
  - unfold store_and_load. cbn [dict2group]. rewrite write_list_eq by exact Hne. unfold write_seq.
    rewrite kind_elements by exact Hns. cbv zeta.
    assert (F : fresh (inr (elements_name (str "_list_") k (List.length l), NGroup a i)) empty_group) by (cbn; tauto).
    rewrite (require_fresh _ (NGroup a i)); [|apply name_no_slash; [cbn; intuition lia|apply G]|exact F].
    cbn [bind]. rewrite E1. cbn [bind]. unfold empty_group. cbn [set_item put]. rewrite group2dict_unfold. cbn [read_attrs bind read_items].
    unfold read_item.
    change (startswith (str "_ragged_shapes_") (elements_name (str "_list_") k (List.length l))) with false.
    change (startswith (str "_sig_") (elements_name (str "_list_") k (List.length l))) with false.
    change (startswith (str "_hspy_AxesManager_") (elements_name (str "_list_") k (List.length l))) with false.
    assert (S : startswith (str "_list_") (elements_name (str "_list_") k (List.length l)) = true) by apply startswith_app.
    rewrite S, E2. cbn [bind]. rewrite (strip_count_name (str "_list_")). reflexivity.
  - rewrite <- (elem_dict_snd l 0). apply forall2_snd. exact E3.
  - apply Permutation_map. eapply Permutation_trans; [exact E4|]. apply sort_is_perm.
  - rewrite <- (sort_perm _ _ _ E4 Nd).
    assert (Ld : (List.length d' > 10)%nat).
    { rewrite <- (map_length fst d'), Kd, map_length, <- (map_length snd), elem_dict_snd. exact Hlen. }
    (* split the read dictionary at its first, second and eleventh entries *)
    do 11 (destruct d' as [|[? ?] d']; [cbn in Ld; lia|]).
    do 11 (destruct l as [|? l]; [cbn in Hlen; lia|]).
    match type of Kd with map fst ?x = map fst (elem_dict 0 ?y) =>
      change (map fst x) with (firstn 11 (map fst x) ++ map fst d') in Kd;
      change (map fst (elem_dict 0 y)) with (map str_int [0;1;2;3;4;5;6;7;8;9;10] ++ map fst (elem_dict 11 l)) in Kd
    end.
    cbn [firstn map fst app] in Kd. injection Kd as -> -> -> -> -> -> -> -> -> -> -> Kd.
    match goal with |- nth_error (map snd (sort_items (?p0 :: ?p1 :: ?p2 :: ?p3 :: ?p4 :: ?p5 :: ?p6 :: ?p7 :: ?p8 :: ?p9 :: ?p10 :: d'))) 2 = _ =>
      assert (Pm : Permutation (p0 :: p1 :: p2 :: p3 :: p4 :: p5 :: p6 :: p7 :: p8 :: p9 :: p10 :: d')
                               (p0 :: p1 :: p10 :: p2 :: p3 :: p4 :: p5 :: p6 :: p7 :: p8 :: p9 :: d'));
      [do 2 constructor; apply Permutation_sym, (Permutation_middle [p2; p3; p4; p5; p6; p7; p8; p9] d' p10)|];
      assert (Hrest : forall q, In q (p2 :: p3 :: p4 :: p5 :: p6 :: p7 :: p8 :: p9 :: d') ->
                 exists j, 2 <= j /\ j <> 10 /\ fst q = str_int j)
    end.
    { intros q Hq. cbn [In] in Hq.
      repeat (destruct Hq as [Hq|Hq]; [subst q; cbn [fst]; eexists; split; [|split; [|reflexivity]]; lia|]).
      assert (Hk : In (fst q) (map fst d')) by (apply in_map; exact Hq).
      rewrite Kd in Hk. apply elem_keys_any in Hk. destruct Hk as [j [Hj E]]. exists j. split; [lia|]. split; [lia|exact E]. }
    rewrite (sort_perm _ _ _ Pm Nd).
    cbn [sort_items].
    match goal with |- context [insert_item (str_int 0, _) (insert_item (str_int 1, _) (insert_item (str_int 10, _) ?rest))] => set (R := rest) end.
    assert (HR : forall q, In q R -> exists j, 2 <= j /\ j <> 10 /\ fst q = str_int j).
    { intros q Hq. apply Hrest. apply sort_in. exact Hq. }
    rewrite (insert_least _ _ R).
    2:{ intros q Hq. destruct (HR q Hq) as [j [H1 [H2 E]]]. rewrite E. cbn [fst]. apply ten_least; assumption. }
    rewrite (insert_least _ _ (_ :: R)).
    2:{ intros q [<-|Hq]; cbn [fst]; [apply leb_one; lia|]. destruct (HR q Hq) as [j [H1 [H2 E]]]. rewrite E. apply leb_one. lia. }
    rewrite insert_least.
    2:{ intros q [<-|[<-|Hq]]; cbn [fst]; [apply leb_zero; lia|apply leb_zero; lia|]. destruct (HR q Hq) as [j [H1 [H2 E]]]. rewrite E. apply leb_zero. lia. }
    reflexivity.
Qed.
Print Assumptions C15_every_long_list_refuted.

(** The fault on a concrete list. *)
Definition eleven : list value := VNone :: map VInt [1; 2; 3; 4; 5; 6; 7; 8; 9; 10].
Example C15_example : store_and_load [(str "k", VList eleven)] =
  Ok [(str "k", VList (VNone :: map VInt [1; 10; 2; 3; 4; 5; 6; 7; 8; 9]))].
Proof. vm_compute. reflexivity. Qed.
Example C15_example_hyps : good_key (str "k") /\ ~ Forall is_scalar eleven /\ (List.length eleven > 10)%nat /\ Forall storable eleven.
Proof.
  split; [solve_good_key|]. split; [intro H; inversion H as [|? ? K _]; exact K|]. split; [cbn; lia|].
  unfold eleven. apply Forall_cons; [apply s_none|]. cbn [map]. repeat (apply Forall_cons; [apply s_int; lia|]). apply Forall_nil.
Qed.

(** * C44: saving again into the same group *)
Definition rewrite_and_load (d1 d2 : list (pystr * value)) : res (list (pystr * value)) :=
  let! g1 := dict2group d1 empty_group in let! g2 := dict2group d2 g1 in group2dict g2 [].

(** A removed key is still there, and a value whose kind of storage changed may be read
    back as the old value. *)
Theorem C44_removed_key_refuted :
  rewrite_and_load [(str "a", VInt 1); (str "b", VInt 2)] [(str "a", VInt 1)] =
  Ok [(str "a", VInt 1); (str "b", VInt 2)].
Proof. reflexivity. Qed.
Theorem C44_changed_kind_refuted :
  rewrite_and_load [(str "a", VList [VInt 1; VInt 2])] [(str "a", VStr (str "new"))] =
  Ok [(str "a", VList [VInt 1; VInt 2])] /\
  rewrite_and_load [(str "a", VList [VNone; VInt 2])] [(str "a", VList [VNone])] =
  Ok [(str "a", VList [VNone])] /\
  rewrite_and_load [(str "a", VList [VNone])] [(str "a", VList [])] =
  Ok [(str "a", VList [VNone])].
Proof. repeat split; vm_compute; reflexivity. Qed.
Print Assumptions C44_removed_key_refuted.
Print Assumptions C44_changed_kind_refuted.

(** For plain scalars the exact effect of saving again: new values win, old keys stay. *)
Definition flat (v : value) : Prop :=
  match v with VNone | VBool _ | VFloat _ => True | VInt z => - 2 ^ 63 <= z < 2 ^ 64
  | VStr s => ~ In 0 s /\ s <> str "_None_" | _ => False end.
Definition attr_of (v : value) : attr :=
  match v with VBool b => ABool b | VInt z => AInt z | VFloat f => AFloat f | VStr s => AStr s | _ => AStr (str "_None_") end.

Lemma flat_write : forall d at_, Forall (fun p => flat (snd p)) d ->
  dict2group d (NGroup at_ []) = Ok (NGroup (fold_left (fun a p => put (fst p) (attr_of (snd p)) a) d at_) []).
Proof.
  induction d as [|[k v] d IH]; intros at_ H; cbn [dict2group fold_left fst snd]; [reflexivity|].
  inversion H as [|? ? H1 H2]; subst. cbn [snd] in H1.
  assert (E : write_entry v k (NGroup at_ []) = Ok (NGroup (put k (attr_of v) at_) [])).
  { destruct v; cbn in H1; try contradiction; cbn [write_entry attr_of]; try reflexivity.
    - assert (Ez : (- 2 ^ 63 <=? z) && (z <? 2 ^ 64) = true) by lia. rewrite Ez. reflexivity.
    - unfold write_str_attr. rewrite has_nul_false by tauto. reflexivity. }
  rewrite E. cbn [bind]. apply IH. exact H2.
Qed.

Lemma attr_of_value : forall v, flat v -> attr_value (attr_of v) = v.
Proof.
  intros v H. destruct v; cbn in H; try contradiction; try reflexivity.
  cbn [attr_of attr_value]. destruct (eqb_str s (str "_None_")) eqn:E; [|reflexivity]. apply eqb_str_spec in E. tauto.
Qed.

Lemma lookup_put : forall A k k' (v : A) l, lookup k (put k' v l) = if eqb_str k k' then Some v else lookup k l.
Proof.
  induction l as [|[k2 v2] l IH]; cbn [put lookup].
  - reflexivity.
  - destruct (eqb_str k' k2) eqn:E; cbn [lookup].
    + apply eqb_str_spec in E. subst k2. destruct (eqb_str k k'); reflexivity.
    + rewrite IH. destruct (eqb_str k k2) eqn:E2, (eqb_str k k') eqn:E3; try reflexivity.
      apply eqb_str_spec in E2, E3. subst. rewrite eqb_str_refl in E. discriminate.
Qed.

Lemma put_keys : forall A k (v : A) l x, In x (map fst (put k v l)) <-> x = k \/ In x (map fst l).
Proof.
  induction l as [|[k2 v2] l IH]; intros x; cbn [put map fst In].
  - intuition.
  - destruct (eqb_str k k2) eqn:E; cbn [map fst In].
    + apply eqb_str_spec in E. subst k2. intuition.
    + rewrite IH. intuition.
Qed.

Lemma put_nodup : forall A k (v : A) l, NoDup (map fst l) -> NoDup (map fst (put k v l)).
Proof.
  induction l as [|[k2 v2] l IH]; intros H; cbn [put map fst].
  - repeat constructor. intros [].
  - inversion H as [|? ? H1 H2]; subst. destruct (eqb_str k k2) eqn:E; cbn [map fst].
    + apply eqb_str_spec in E. subst k2. constructor; assumption.
    + constructor; [|apply IH; exact H2]. intro K. apply put_keys in K. destruct K as [K|K]; [|contradiction].
      subst k2. rewrite eqb_str_refl in E. discriminate.
Qed.

Lemma read_attrs_flat : forall at_ d, Forall (fun p => good_key (fst p)) at_ -> NoDup (map fst d ++ map fst at_) ->
  read_attrs at_ d = Ok (d ++ map (fun p => (fst p, attr_value (snd p))) at_).
Proof.
  induction at_ as [|[k a] at_ IH]; intros d H Hnd; cbn [read_attrs map fst snd].
  - rewrite app_nil_r. reflexivity.
  - inversion H as [|? ? H1 H2]; subst. rewrite read_attr_good by exact H1. cbn [bind].
    cbn [map fst] in Hnd.
    rewrite put_fresh by (apply NoDup_remove_2 in Hnd; intro K; apply Hnd; apply in_or_app; auto).
    rewrite IH; [rewrite <- app_assoc; reflexivity|exact H2|]. rewrite map_app, <- app_assoc. exact Hnd.
Qed.

Lemma lookup_map : forall A B (f : A -> B) k l, lookup k (map (fun p => (fst p, f (snd p))) l) = option_map f (lookup k l).
Proof.
  induction l as [|[k2 v2] l IH]; cbn [map lookup fst snd]; [reflexivity|]. destruct (eqb_str k k2); [reflexivity|exact IH].
Qed.

(** The last value given to a key. *)
Fixpoint last_value (k : pystr) (d : list (pystr * value)) (dflt : option value) : option value :=
  match d with [] => dflt | (k', v) :: d' => last_value k d' (if eqb_str k k' then Some v else dflt) end.

Lemma fold_lookup : forall d at_ k dflt, Forall (fun p => flat (snd p)) d ->
  option_map attr_value (lookup k at_) = dflt ->
  option_map attr_value (lookup k (fold_left (fun a p => put (fst p) (attr_of (snd p)) a) d at_)) = last_value k d dflt.
Proof.
  induction d as [|[k2 v] d IH]; intros at_ k dflt H E; cbn [fold_left last_value fst snd]; [exact E|].
  inversion H as [|? ? H1 H2]; subst. apply IH; [exact H2|]. rewrite lookup_put.
  destruct (eqb_str k k2); [|reflexivity]. cbn [option_map]. rewrite attr_of_value by exact H1. reflexivity.
Qed.

Lemma fold_keys : forall d at_, Forall (fun p => good_key (fst p)) d -> Forall (fun p => good_key (fst p)) at_ ->
  NoDup (map fst at_) ->
  let r := fold_left (fun a (p : pystr * value) => put (fst p) (attr_of (snd p)) a) d at_ in
  Forall (fun p => good_key (fst p)) r /\ NoDup (map fst r).
Proof.
  induction d as [|[k v] d IH]; intros at_ Hd Ha Hn; cbn [fold_left fst snd]; [split; assumption|].
  inversion Hd as [|? ? H1 H2]; subst. apply IH; [exact H2| |apply put_nodup; exact Hn].
  apply Forall_forall. intros [k2 a] Hin. cbn [fst].
  assert (K : In k2 (map fst (put k (attr_of v) at_))) by (apply in_map_iff; exists (k2, a); auto).
  apply put_keys in K. destruct K as [->|K]; [exact H1|].
  rewrite Forall_forall in Ha. apply in_map_iff in K. destruct K as [p [E K]]. rewrite <- E. apply Ha. exact K.
Qed.

(** Value of a key in a dictionary with different keys. *)
Theorem C44_flat_update : forall d1 d2,
  Forall (fun p => good_key (fst p) /\ flat (snd p)) d1 -> Forall (fun p => good_key (fst p) /\ flat (snd p)) d2 ->
  exists r, rewrite_and_load d1 d2 = Ok r /\ NoDup (map fst r) /\
    forall k, lookup k r = last_value k (d1 ++ d2) None.
Proof.
  intros d1 d2 H1 H2.
  assert (A1 : Forall (fun p => good_key (fst p)) (d1 ++ d2)).
  { apply Forall_app. split; eapply Forall_impl; [|exact H1| |exact H2]; cbn; tauto. }
  assert (A2 : Forall (fun p => flat (snd p)) (d1 ++ d2)).
  { apply Forall_app. split; eapply Forall_impl; [|exact H1| |exact H2]; cbn; tauto. }
  assert (F : Forall (fun p => flat (snd p)) d1 /\ Forall (fun p => flat (snd p)) d2) by (apply Forall_app; exact A2).
  destruct F as [F1 F2].
  unfold rewrite_and_load, empty_group. rewrite flat_write by exact F1. cbn [bind]. rewrite flat_write by exact F2. cbn [bind].
  rewrite <- fold_left_app.
  destruct (fold_keys (d1 ++ d2) [] A1 (Forall_nil _) (NoDup_nil _)) as [G N].
  set (at_ := fold_left _ (d1 ++ d2) []) in *.
  rewrite group2dict_unfold, read_attrs_flat; [|exact G|exact N]. cbn [bind read_items app].
  eexists. split; [reflexivity|]. split.
  - rewrite map_map. cbn [fst]. exact N.
  - intros k. rewrite (lookup_map _ _ attr_value). unfold at_. apply fold_lookup; [exact A2|reflexivity].
Qed.
Print Assumptions C44_flat_update.

Example C44_example :
  rewrite_and_load [(str "a", VInt 1); (str "b", VStr (str "x"))] [(str "b", VNone); (str "c", VBool true)] =
  Ok [(str "a", VInt 1); (str "b", VNone); (str "c", VBool true)].
Proof. reflexivity. Qed.
