(** Peak counts from events of Tofwerk files (C115). *)
From Coq Require Import QArith Sorting.Sorted Permutation.
From Verif Require Import Base Text HierModel DistModel RowMajor SfsModel TofModel.
Local Open Scope Z_scope.

(** * Sorting *)
Section Sorting.
  Variable key : nat -> Q.
  (** By key, equal keys in their order *)
  Definition before (i j : nat) : Prop := (key i < key j)%Q \/ (key i == key j)%Q /\ (i < j)%nat.
  Lemma before_trans : forall a b c, before a b -> before b c -> before a c.
  Proof. intros a b c [A|[A A']] [B|[B B']]; unfold before; [left; eapply Qlt_trans; eassumption|left; rewrite <- B; exact A|left; rewrite A; exact B|right; split; [rewrite A; exact B|lia]]. Qed.
  Lemma before_irrefl : forall a, ~ before a a.
  Proof. intros a [A|[_ A]]; [exact (Qlt_irrefl _ A)|lia]. Qed.
  Lemma before_total : forall a b, a <> b -> before a b \/ before b a.
  Proof. intros a b N. destruct (Qlt_le_dec (key a) (key b)) as [A|A]; [left; left; exact A|]. destruct (Qlt_le_dec (key b) (key a)) as [B|B]; [right; left; exact B|]. assert (E : (key a == key b)%Q) by (apply Qle_antisym; assumption). destruct (Nat.lt_ge_cases a b); [left|right]; right; (split; [rewrite E; reflexivity|lia]). Qed.
  Lemma insert_perm : forall i l, Permutation (i :: l) (insert key i l).
  Proof. intros i l. induction l as [|j l IH]; [reflexivity|]. cbn [insert]. destruct (Qle_bool (key j) (key i)); [|reflexivity]. etransitivity; [apply perm_swap|]. constructor. exact IH. Qed.
  Lemma insert_sorted : forall i l, StronglySorted before l -> Forall (fun j => (j < i)%nat) l -> StronglySorted before (insert key i l).
  Proof.
    intros i l. induction l as [|j l IH]; intros S F; [repeat constructor|]. cbn [insert]. inversion S as [|? ? S1 S2]; subst. inversion F as [|? ? F1 F2]; subst. destruct (Qle_bool (key j) (key i)) eqn:E.
    - apply Qle_bool_iff in E. constructor; [apply IH; assumption|]. apply (Permutation_Forall (insert_perm i l)). constructor; [|exact S2]. destruct (Qlt_le_dec (key j) (key i)) as [Q|Q]; [left; exact Q|]. right. split; [apply Qle_antisym; assumption|exact F1].
    - assert (K : (key i < key j)%Q). { apply Qnot_le_lt. intro C. apply Qle_bool_iff in C. congruence. } constructor; [exact S|]. constructor; [left; exact K|]. apply Forall_forall. intros x X. rewrite Forall_forall in S2. apply (before_trans _ j); [left; exact K|apply S2; exact X].
  Qed.
  Lemma argsort_by_spec : forall n, Permutation (seq 0 n) (argsort_by key n) /\ StronglySorted before (argsort_by key n).
  Proof.
    intro n. unfold argsort_by. induction n as [|n IH]; [split; constructor|]. destruct IH as [P S]. rewrite seq_S, fold_left_app. cbn [fold_left plus]. set (l := fold_left (fun acc i => insert key i acc) (seq 0 n) []) in *. split.
    - etransitivity; [apply Permutation_app_comm|]. cbn [app]. etransitivity; [apply perm_skip; exact P|]. apply insert_perm.
    - apply insert_sorted; [exact S|]. apply (Permutation_Forall P). apply Forall_forall. intros x X. apply in_seq in X. lia.
  Qed.
End Sorting.
Lemma sorted_nth : forall A (R : A -> A -> Prop) l i j a b, StronglySorted R l -> nth_error l i = Some a -> nth_error l j = Some b -> (i < j)%nat -> R a b.
Proof.
  intros A R l. induction l as [|x l IH]; intros i j a b S I J L; [destruct i; discriminate I|]. inversion S as [|? ? S1 S2]; subst. destruct j as [|j]; [lia|]. cbn [nth_error] in J. destruct i as [|i]; cbn [nth_error] in I; [injection I as ->; rewrite Forall_forall in S2; apply S2; apply (nth_error_In _ _ J)|]. exact (IH i j a b S1 I J ltac:(lia)).
Qed.
Lemma sorted_seq : forall l s n, StronglySorted lt l -> Permutation l (seq s n) -> l = seq s n.
Proof.
  intros l s n. revert l s. induction n as [|n IH]; intros l s S P; [apply Permutation_sym, Permutation_nil in P; exact P|]. destruct l as [|a l]; [apply Permutation_nil in P; discriminate P|]. inversion S as [|? ? S1 S2]; subst. cbn [seq] in *.
  assert (I : In s (a :: l)) by (apply (Permutation_in _ (Permutation_sym P)); left; reflexivity). assert (J : In a (seq s (Datatypes.S n))) by (apply (Permutation_in _ P); left; reflexivity). apply in_seq in J.
  assert (a = s). { destruct I as [I|I]; [exact I|]. rewrite Forall_forall in S2. specialize (S2 s I). lia. } subst a. apply Permutation_cons_inv in P. rewrite (IH l (Datatypes.S s) S1 P). reflexivity.
Qed.
(** The inverse of a permutation *)
Lemma inverse_nth : forall p, Permutation (seq 0 (List.length p)) p -> forall k, (k < List.length p)%nat -> exists b, nth_error (argsort_nat p) k = Some b /\ nth_error p b = Some k /\ (b < List.length p)%nat.
Proof.
  intros p P k K. unfold argsort_nat. set (key := fun i => inject_Z (Z.of_nat (nth i p O))). destruct (argsort_by_spec key (List.length p)) as [Q S]. set (inv := argsort_by key (List.length p)) in *.
  assert (LI : List.length inv = List.length p) by (rewrite <- (Permutation_length Q), seq_length; reflexivity).
  assert (IN : forall x, In x inv -> (x < List.length p)%nat) by (intros x X; apply (Permutation_in _ (Permutation_sym Q)) in X; apply in_seq in X; lia).
  assert (ND : NoDup p) by (apply (Permutation_NoDup P); apply seq_NoDup).
  assert (M : map (fun i => nth i p O) inv = seq 0 (List.length p)).
  { apply sorted_seq.
    - assert (G : forall l, StronglySorted (before key) l -> (forall x, In x l -> (x < List.length p)%nat) -> StronglySorted lt (map (fun i => nth i p O) l)).
      { induction l as [|x l IH]; intros SS II; [constructor|]. inversion SS as [|? ? S1 S2]; subst. cbn [map]. constructor; [apply IH; [exact S1|intros y Y; apply II; right; exact Y]|]. apply Forall_forall. intros y Y. apply in_map_iff in Y. destruct Y as (z & <- & Z). rewrite Forall_forall in S2. specialize (S2 z Z). destruct S2 as [B|[B B']].
        - unfold key in B. rewrite <- Zlt_Qlt in B. lia.
        - unfold key in B. assert (E : nth x p O = nth z p O) by (unfold inject_Z, Qeq in B; cbn [Qnum Qden] in B; lia). apply (proj1 (NoDup_nth p O) ND) in E; [lia|apply II; left; reflexivity|apply II; right; exact Z]. }
      apply G; [exact S|exact IN].
    - etransitivity; [|apply Permutation_sym; exact P]. etransitivity; [apply Permutation_map; apply Permutation_sym; exact Q|]. clear. induction p as [|a p IH]; [reflexivity|]. cbn [List.length seq map nth]. constructor. rewrite <- seq_shift, map_map. exact IH. }
  destruct (nth_error inv k) as [b|] eqn:B; [|apply nth_error_None in B; lia]. exists b. split; [reflexivity|]. assert (NB : nth b p O = k). { pose proof (map_nth_error (fun i => nth i p O) _ _ B) as E. rewrite M in E. rewrite (nth_error_nth' _ O) in E by (rewrite seq_length; exact K). rewrite seq_nth in E by exact K. cbn [plus] in E. congruence. }
  pose proof (IN b (nth_error_In _ _ B)) as BL. split; [|exact BL]. rewrite (nth_error_nth' _ O) by exact BL. rewrite NB. reflexivity.
Qed.

(** * Counting *)
(** An event belongs to the peak whose window its mass is in; if windows overlap, to the one that begins last (and of two beginning at one mass to the later one), and to none if it is beyond the end of that one *)
Definition peak_at (l : list peak) (k : nat) : peak := nth k l {| p_label := []; p_mass := 0; p_low := 0; p_high := 0 |}.
Definition lowest (l : list peak) (k : nat) : Q := p_low (peak_at l k).
Definition belongs (l : list peak) (m : Q) (k : nat) : Prop :=
  (lowest l k <= m <= p_high (peak_at l k))%Q /\ forall j, (j < List.length l)%nat -> (lowest l k < lowest l j)%Q \/ (lowest l k == lowest l j)%Q /\ (k < j)%nat -> (m < lowest l j)%Q.
Definition mass_of (masses : list Q) (ratio e : Z) (m : Q) : Prop := 0 <= e / ratio < zlen masses /\ nth_error masses (Z.to_nat (e / ratio)) = Some m.
Lemma search_spec : forall l m, (search_right l m <= List.length l)%nat /\ (forall b q, (b < search_right l m)%nat -> nth_error l b = Some q -> (q <= m)%Q) /\ (forall q, nth_error l (search_right l m) = Some q -> (m < q)%Q).
Proof.
  induction l as [|a l IH]; intro m; cbn [search_right List.length]; [split; [lia|split; [intros b q B; lia|discriminate]]|]. destruct (Qle_bool a m) eqn:E.
  - destruct (IH m) as (A & B & C). apply Qle_bool_iff in E. split; [lia|]. split; [|exact C]. intros [|b] q L H; cbn [nth_error] in H; [injection H as <-; exact E|]. apply (B b q); [lia|exact H].
  - split; [lia|]. split; [intros b q B; lia|]. cbn [nth_error]. intros q H. injection H as <-. apply Qnot_le_lt. intro C. apply Qle_bool_iff in C. congruence.
Qed.
Section Order.
  Variable l : list peak.
  Let key := fun i => nth i (map p_low l) 0%Q.
  Let order := argsort (map p_low l).
  Let low := take 0%Q (map p_low l) order.
  Let high := take 0%Q (map p_high l) order.
  Lemma order_perm : Permutation (seq 0 (List.length l)) order.
  Proof. unfold order, argsort. destruct (argsort_by_spec (fun i => nth i (map p_low l) 0%Q) (List.length (map p_low l))) as [P _]. rewrite map_length in *. exact P. Qed.
  Lemma order_sorted : StronglySorted (before key) order.
  Proof. unfold order, argsort. destruct (argsort_by_spec (fun i => nth i (map p_low l) 0%Q) (List.length (map p_low l))) as [_ S]. exact S. Qed.
  Lemma order_length : List.length order = List.length l.
  Proof. rewrite <- (Permutation_length order_perm). apply seq_length. Qed.
  Lemma order_lt : forall b k, nth_error order b = Some k -> (k < List.length l)%nat.
  Proof. intros b k H. apply nth_error_In in H. apply (Permutation_in _ (Permutation_sym order_perm)) in H. apply in_seq in H. lia. Qed.
  Lemma order_has : forall k, (k < List.length l)%nat -> exists b, nth_error order b = Some k.
  Proof. intros k H. apply In_nth_error. apply (Permutation_in _ order_perm). apply in_seq. lia. Qed.
  Lemma order_unique : forall b c k, nth_error order b = Some k -> nth_error order c = Some k -> b = c.
  Proof. intros b c k B C. apply (proj1 (NoDup_nth_error order)); [apply (Permutation_NoDup order_perm); apply seq_NoDup|apply nth_error_Some; rewrite B; discriminate|congruence]. Qed.
  Lemma key_low : forall k, (k < List.length l)%nat -> key k = lowest l k.
  Proof. intros k H. unfold key, lowest, peak_at. rewrite (nth_indep _ 0%Q (p_low {| p_label := []; p_mass := 0; p_low := 0; p_high := 0 |})) by (rewrite map_length; exact H). apply map_nth. Qed.
  Lemma low_nth : forall b k, nth_error order b = Some k -> nth_error low b = Some (lowest l k).
  Proof. intros b k H. unfold low, take. rewrite (map_nth_error _ _ _ H). f_equal. exact (key_low k (order_lt b k H)). Qed.
  Lemma high_nth : forall b k, nth_error order b = Some k -> nth_error high b = Some (p_high (peak_at l k)).
  Proof. intros b k H. unfold high, take. rewrite (map_nth_error _ _ _ H). f_equal. unfold peak_at. rewrite (nth_indep _ 0%Q (p_high {| p_label := []; p_mass := 0; p_low := 0; p_high := 0 |})) by (rewrite map_length; exact (order_lt b k H)). apply map_nth. Qed.
  Lemma low_length : List.length low = List.length l.
  Proof. unfold low, take. rewrite map_length. apply order_length. Qed.
  Lemma bin_belongs : forall m b k, nth_error order b = Some k -> (bin low high m = Some b <-> belongs l m k).
  Proof.
    intros m b k OB. destruct (search_spec low m) as (SL & SB & SA). unfold bin. set (s := search_right low m) in *. rewrite low_length in SL.
    assert (SORT : forall c d i j, nth_error order c = Some i -> nth_error order d = Some j -> (c < d)%nat -> before key i j) by (intros c d i j C D L; exact (sorted_nth _ _ _ _ _ _ _ order_sorted C D L)).
    assert (KL : forall c i, nth_error order c = Some i -> key i = lowest l i) by (intros c i C; apply key_low; exact (order_lt c i C)).
    split.
    - intro H. destruct s as [|s'] eqn:ES; [discriminate H|]. destruct (nth_error high s') as [h|] eqn:NH; [|discriminate H]. destruct (Qle_bool m h) eqn:QH; [|discriminate H]. injection H as ->. apply Qle_bool_iff in QH. rewrite (high_nth b k OB) in NH. injection NH as <-. split.
      + split; [apply (SB b); [lia|apply low_nth; exact OB]|exact QH].
      + intros j J B. destruct (order_has j J) as [c C]. destruct (Nat.lt_ge_cases b c) as [L|L].
        * assert (CL : (c < List.length order)%nat) by (apply nth_error_Some; rewrite C; discriminate). destruct (nth_error order (S b)) as [i|] eqn:OI; [|apply nth_error_None in OI; lia]. pose proof (SA _ (low_nth (S b) i OI)) as MI. destruct (Nat.eq_dec (S b) c) as [E|E]; [subst c; rewrite OI in C; injection C as ->; exact MI|]. pose proof (SORT _ _ _ _ OI C ltac:(lia)) as [K|[K _]]; rewrite (KL _ _ OI), (KL _ _ C) in K; [eapply Qlt_trans; eassumption|rewrite <- K; exact MI].
        * exfalso. destruct (Nat.eq_dec b c) as [E|E]; [subst c; rewrite OB in C; injection C as ->; destruct B as [B|[_ B]]; [exact (Qlt_irrefl _ B)|lia]|]. pose proof (SORT _ _ _ _ C OB ltac:(lia)) as K. apply (before_irrefl key j). apply (before_trans key _ k); [exact K|]. unfold before. rewrite (KL _ _ OB), (KL _ _ C). exact B.
    - intros [[B1 B2] B3]. assert (BL : (b < List.length l)%nat) by (rewrite <- order_length; apply nth_error_Some; rewrite OB; discriminate).
      assert (S1 : (b < s)%nat). { apply Nat.lt_nge. intro C. destruct (nth_error order s) as [i|] eqn:OI; [|apply nth_error_None in OI; rewrite order_length in OI; lia]. pose proof (SA _ (low_nth s i OI)) as MI. destruct (Nat.eq_dec s b) as [E|E]; [rewrite E in OI; rewrite OB in OI; injection OI as ->; apply (Qlt_irrefl m); eapply Qlt_le_trans; eassumption|]. pose proof (SORT _ _ _ _ OI OB ltac:(lia)) as K. apply (Qlt_irrefl m). apply (Qlt_le_trans _ _ _ MI). apply (Qle_trans _ (lowest l k)); [|exact B1]. destruct K as [K|[K _]]; rewrite (KL _ _ OI), (KL _ _ OB) in K; [apply Qlt_le_weak; exact K|rewrite K; apply Qle_refl]. }
      assert (S2 : s = S b). { destruct (Nat.eq_dec s (S b)) as [E|E]; [exact E|]. exfalso. destruct (nth_error order (S b)) as [i|] eqn:OI; [|apply nth_error_None in OI; rewrite order_length in OI; lia]. pose proof (SB (S b) _ ltac:(lia) (low_nth (S b) i OI)) as MI. pose proof (SORT _ _ _ _ OB OI ltac:(lia)) as K. unfold before in K. rewrite (KL _ _ OI), (KL _ _ OB) in K. pose proof (B3 i (order_lt _ _ OI) K) as C. apply (Qlt_irrefl m). eapply Qlt_le_trans; eassumption. }
      rewrite S2, (high_nth b k OB). apply Qle_bool_iff in B2. rewrite B2. reflexivity.
  Qed.
  Lemma event_belongs : forall masses ratio e b k, nth_error order b = Some k -> (event_bin masses (zlen masses) ratio low high e = Some b <-> exists m, mass_of masses ratio e m /\ belongs l m k).
  Proof.
    intros masses ratio e b k OB. unfold event_bin, mass_of. destruct ((e / ratio <? 0) || (zlen masses <=? e / ratio)) eqn:R; [split; [discriminate|intros (m & [M _] & _); lia]|]. destruct (nth_error masses (Z.to_nat (e / ratio))) as [m|] eqn:M.
    - rewrite (bin_belongs m b k OB). split; [intro H; exists m; split; [split; [lia|reflexivity]|exact H]|intros (m' & [_ M'] & H); congruence].
    - split; [discriminate|intros (m & [_ C] & _); discriminate C].
  Qed.
  Lemma event_bin_order : forall masses ratio e b, event_bin masses (zlen masses) ratio low high e = Some b -> exists k, nth_error order b = Some k.
  Proof.
    intros masses ratio e b H. unfold event_bin in H. destruct (_ || _); [discriminate H|]. destruct (nth_error masses _); [|discriminate H]. unfold bin in H. destruct (search_right low q) as [|s]; [discriminate H|]. destruct (nth_error high s) as [h|] eqn:N; [|discriminate H]. destruct (Qle_bool q h); [|discriminate H]. injection H as <-. unfold high, take in N. destruct (nth_error order s) as [k|] eqn:O; [exists k; reflexivity|]. apply nth_error_None in O. assert (nth_error (map (fun i => nth i (map p_high l) 0%Q) order) s = None) by (apply nth_error_None; rewrite map_length; exact O). congruence.
  Qed.
End Order.
Lemma add_one_nth : forall b l k, nth k (add_one b l) 0 = nth k l 0 + (if (Nat.eqb k b) && (Nat.ltb b (List.length l)) then 1 else 0).
Proof.
  induction b as [|b IH]; intros [|c l] k; cbn [add_one List.length].
  - destruct k; cbn; rewrite ?andb_false_r; lia.
  - destruct k; cbn [nth Nat.eqb andb Nat.ltb Nat.leb]; lia.
  - destruct k; cbn; rewrite ?andb_false_r; try lia.
  - destruct k as [|k]; cbn [nth Nat.eqb andb]; [lia|]. rewrite IH. reflexivity.
Qed.
Lemma add_one_length : forall b l, List.length (add_one b l) = List.length l.
Proof. induction b as [|b IH]; intros [|c l]; cbn [add_one List.length]; [reflexivity|reflexivity|reflexivity|rewrite IH; reflexivity]. Qed.
Lemma fold_counts : forall (g : Z -> option nat) evs acc k, (forall e b, g e = Some b -> (b < List.length acc)%nat) ->
  nth k (fold_left (fun acc e => match g e with Some b => add_one b acc | None => acc end) evs acc) 0 = nth k acc 0 + countZ (fun e => match g e with Some b => Nat.eqb k b | None => false end) evs.
Proof.
  intros g evs. induction evs as [|e evs IH]; intros acc k H; cbn [fold_left countZ]; [lia|]. rewrite IH.
  - destruct (g e) as [b|] eqn:G; [|lia]. rewrite add_one_nth. specialize (H e b G). apply Nat.ltb_lt in H. rewrite H, andb_true_r. destruct (Nat.eqb k b); lia.
  - destruct (g e) as [b|] eqn:G; [|exact H]. rewrite add_one_length. exact H.
Qed.
Lemma fold_length : forall (g : Z -> option nat) evs acc, List.length (fold_left (fun acc e => match g e with Some b => add_one b acc | None => acc end) evs acc) = List.length acc.
Proof. intros g evs. induction evs as [|e evs IH]; intro acc; [reflexivity|]. cbn [fold_left]. rewrite IH. destruct (g e); [apply add_one_length|reflexivity]. Qed.
(** Rows of pixels, one after another *)
Lemma cumsum_nth : forall ns a x, (x <= List.length ns)%nat -> nth x (cumsum a ns) O = (a + list_sum (firstn x ns))%nat.
Proof. induction ns as [|n ns IH]; intros a x L; cbn [cumsum]; [cbn in L; assert (x = O) by lia; subst; cbn; lia|]. destruct x as [|x]; [cbn; lia|]. cbn [nth firstn List.length] in *. rewrite IH by lia. change (list_sum (n :: firstn x ns)) with (n + list_sum (firstn x ns))%nat. lia. Qed.
Lemma flatten_slice : forall row x evs, nth_error row x = Some evs -> let '(flat, offsets) := flatten row in firstn (nth (S x) offsets O - nth x offsets O) (skipn (nth x offsets O) flat) = evs.
Proof.
  intros row x evs H. unfold flatten. assert (XL : (x < List.length row)%nat) by (apply nth_error_Some; rewrite H; discriminate). rewrite !cumsum_nth by (rewrite map_length; lia). cbn [plus].
  assert (E1 : list_sum (firstn (S x) (map (@List.length Z) row)) = (list_sum (firstn x (map (@List.length Z) row)) + List.length evs)%nat).
  { clear XL. revert x H. induction row as [|r row IH]; intros x H; [destruct x; discriminate H|]. destruct x as [|x]; cbn [nth_error] in H; [injection H as ->; cbn; lia|]. cbn [map]. change (firstn (S (S x)) (List.length r :: map (@List.length Z) row)) with (List.length r :: firstn (S x) (map (@List.length Z) row)). change (firstn (S x) (List.length r :: map (@List.length Z) row)) with (List.length r :: firstn x (map (@List.length Z) row)). change (list_sum (List.length r :: firstn (S x) (map (@List.length Z) row))) with (List.length r + list_sum (firstn (S x) (map (@List.length Z) row)))%nat. change (list_sum (List.length r :: firstn x (map (@List.length Z) row))) with (List.length r + list_sum (firstn x (map (@List.length Z) row)))%nat. rewrite (IH x H). lia. }
  rewrite E1. replace (list_sum (firstn x (map (@List.length Z) row)) + List.length evs - list_sum (firstn x (map (@List.length Z) row)))%nat with (List.length evs) by lia. clear E1 XL. revert x H. induction row as [|r row IH]; intros x H; [destruct x; discriminate H|]. destruct x as [|x]; cbn [nth_error] in H.
  - injection H as ->. cbn [map firstn list_sum fold_right skipn List.concat]. rewrite firstn_app, firstn_all, Nat.sub_diag. cbn [firstn]. apply app_nil_r.
  - cbn [map]. change (firstn (S x) (List.length r :: map (@List.length Z) row)) with (List.length r :: firstn x (map (@List.length Z) row)). change (list_sum (List.length r :: firstn x (map (@List.length Z) row))) with (List.length r + list_sum (firstn x (map (@List.length Z) row)))%nat. cbn [List.concat]. rewrite skipn_app. rewrite skipn_all2 by lia. cbn [app]. replace (List.length r + list_sum (firstn x (map (@List.length Z) row)) - List.length r)%nat with (list_sum (firstn x (map (@List.length Z) row))) by lia. exact (IH x H).
Qed.
Lemma set_nth_nth : forall i v l k, nth k (set_nth i v l) 0 = if Nat.eqb k i && Nat.ltb i (List.length l) then v else nth k l 0.
Proof.
  induction i as [|i IH]; intros v [|c l] k; cbn [set_nth List.length].
  - destruct k; cbn; rewrite ?andb_false_r; reflexivity.
  - destruct k; reflexivity.
  - destruct k; cbn; rewrite ?andb_false_r; reflexivity.
  - destruct k as [|k]; [reflexivity|]. cbn [nth Nat.eqb]. rewrite IH. reflexivity.
Qed.
Lemma set_nth_length : forall i v l, List.length (set_nth i v l) = List.length l.
Proof. induction i as [|i IH]; intros v [|c l]; cbn [set_nth List.length]; [reflexivity|reflexivity|reflexivity|rewrite IH; reflexivity]. Qed.
Lemma scatter_other : forall idx counts l k, ~ In k idx -> nth k (scatter idx counts l) 0 = nth k l 0.
Proof.
  intros idx. unfold scatter. induction idx as [|i idx IH]; intros [|c counts] l k H; try reflexivity. cbn [combine fold_left fst snd]. cbn [In] in H. rewrite IH by tauto. rewrite set_nth_nth. replace (Nat.eqb k i) with false; [reflexivity|]. symmetry. apply Nat.eqb_neq. intro E. apply H. left. congruence.
Qed.
Lemma scatter_nth : forall idx counts l b k c, NoDup idx -> (forall i, In i idx -> (i < List.length l)%nat) -> nth_error idx b = Some k -> nth_error counts b = Some c -> nth k (scatter idx counts l) 0 = c.
Proof.
  intros idx. unfold scatter. induction idx as [|i idx IH]; intros counts l b k c N L B C; [destruct b; discriminate B|]. destruct counts as [|c0 counts]; [destruct b; discriminate C|]. inversion N as [|? ? N1 N2]; subst. cbn [combine fold_left fst snd]. destruct b as [|b]; cbn [nth_error] in B, C.
  - injection B as ->. injection C as ->. change (nth k (scatter idx counts (set_nth k c l)) 0 = c). rewrite scatter_other by exact N1. rewrite set_nth_nth, Nat.eqb_refl. pose proof (L k (or_introl eq_refl)) as KL. apply Nat.ltb_lt in KL. rewrite KL. reflexivity.
  - apply (IH counts _ b); try assumption. intros j J. rewrite set_nth_length. apply L. right. exact J.
Qed.
(** The number of events of a kind: those chosen by a test that is right *)
Definition number_of (P : Z -> Prop) (evs : list Z) (n : Z) : Prop := exists test, (forall e, test e = true <-> P e) /\ n = countZ test evs.
Lemma counted_nth : forall masses samples ratio low high evs n b, (b < n)%nat -> nth_error (counted masses samples ratio low high evs n) b = Some (countZ (fun e => match event_bin masses samples ratio low high e with Some c => Nat.eqb b c | None => false end) evs).
Proof.
  intros masses samples ratio low high evs n b H. unfold counted. assert (NB : nth_error (seq 0 n) b = Some b) by (rewrite (nth_error_nth' _ O) by (rewrite seq_length; exact H); rewrite seq_nth by exact H; reflexivity). rewrite (map_nth_error _ _ _ NB). f_equal. clear. induction evs as [|e evs IH]; [reflexivity|]. cbn [map filter countZ]. unfold event_bin at 1. destruct ((e / ratio <? 0) || (samples <=? e / ratio)) eqn:R.
  - replace ((0 <=? e / ratio) && (e / ratio <? samples)) with false by lia. exact IH.
  - replace ((0 <=? e / ratio) && (e / ratio <? samples)) with true by lia. cbn [map countZ]. rewrite IH. reflexivity.
Qed.
(** Both paths: the counts of each pixel and peak *)
Theorem C115_counts : forall numba masses ratio peaks row, ratio <> 0 -> exists r, row_counts numba masses (zlen masses) ratio peaks row = Ok r /\ List.length r = List.length row /\
  forall x evs, nth_error row x = Some evs -> exists counts, nth_error r x = Some counts /\ List.length counts = List.length peaks /\
    forall k, (k < List.length peaks)%nat -> number_of (fun e => exists m, mass_of masses ratio e m /\ belongs peaks m k) evs (nth k counts 0).
Proof.
  intros numba masses ratio peaks row R. unfold row_counts. set (order := argsort (map p_low peaks)). set (low := take 0%Q (map p_low peaks) order). set (high := take 0%Q (map p_high peaks) order).
  pose proof (order_perm peaks) as OP. pose proof (order_length peaks) as OL. fold order in OP, OL.
  assert (TEST : forall evs k b, nth_error order b = Some k -> number_of (fun e => exists m, mass_of masses ratio e m /\ belongs peaks m k) evs (countZ (fun e => match event_bin masses (zlen masses) ratio low high e with Some c => Nat.eqb b c | None => false end) evs)).
  { intros evs k b B. exists (fun e => match event_bin masses (zlen masses) ratio low high e with Some c => Nat.eqb b c | None => false end). split; [|reflexivity]. intro e. cbv beta. rewrite <- (event_belongs peaks masses ratio e b k B). fold order low high. destruct (event_bin masses (zlen masses) ratio low high e) as [c|]; [|split; discriminate]. rewrite Nat.eqb_eq. split; congruence. }
  assert (IN : forall e b, event_bin masses (zlen masses) ratio low high e = Some b -> (b < List.length peaks)%nat). { intros e b E. destruct (event_bin_order peaks masses ratio e b E) as [k K]. rewrite <- OL. apply nth_error_Some. fold order in K. rewrite K. discriminate. }
  destruct numba.
  - destruct (flatten row) as [flat offsets] eqn:F. replace (ratio =? 0) with false by lia. cbn [andb]. eexists. split; [reflexivity|]. rewrite map_length, seq_length. split; [reflexivity|]. intros x evs X.
    assert (XL : (x < List.length row)%nat) by (apply nth_error_Some; rewrite X; discriminate). eexists. split; [apply map_nth_error; rewrite (nth_error_nth' _ O) by (rewrite seq_length; exact XL); rewrite seq_nth by exact XL; reflexivity|].
    assert (LI : List.length (argsort_nat order) = List.length order). { unfold argsort_nat. destruct (argsort_by_spec (fun i => inject_Z (Z.of_nat (nth i order 0%nat))) (List.length order)) as [P _]. rewrite <- (Permutation_length P). apply seq_length. }
    split; [unfold take; rewrite map_length, LI, OL; reflexivity|]. intros k K. cbn [plus].
    assert (OP' : Permutation (seq 0 (List.length order)) order) by (rewrite OL; exact OP). destruct (inverse_nth order OP' k ltac:(rewrite OL; exact K)) as (b & B1 & B2 & B3).
    unfold take at 1. rewrite (nth_error_nth _ _ 0 (map_nth_error (fun i => nth i _ 0) _ _ B1)). unfold accumulate. pose proof (flatten_slice row x evs X) as FS. rewrite F in FS. rewrite FS. rewrite fold_counts by (rewrite repeat_length; exact IN). rewrite nth_repeat, Z.add_0_l. apply TEST. exact B2.
  - eexists. split; [reflexivity|]. rewrite map_length. split; [reflexivity|]. intros x evs X. rewrite (map_nth_error _ x row X). eexists. split; [reflexivity|].
    assert (ND : NoDup order) by (apply (Permutation_NoDup OP); apply seq_NoDup). assert (OI : forall i, In i order -> (i < List.length (repeat 0%Z (List.length peaks)))%nat) by (intros i I; rewrite repeat_length; apply (Permutation_in _ (Permutation_sym OP)) in I; apply in_seq in I; lia).
    assert (SL : forall idx counts l, List.length (scatter idx counts l) = List.length l) by (unfold scatter; intros idx; induction idx as [|i idx IH]; intros [|c counts] l; try reflexivity; cbn [combine fold_left fst snd]; rewrite IH; apply set_nth_length).
    split; [destruct evs; [apply repeat_length|rewrite SL; apply repeat_length]|]. intros k K. assert (KB : exists b, nth_error order b = Some k) by (apply In_nth_error; apply (Permutation_in _ OP); apply in_seq; lia). destruct KB as [b B].
    destruct evs as [|e evs]; [rewrite nth_repeat; apply (TEST [] k b B)|]. erewrite scatter_nth; [apply TEST; exact B|exact ND|exact OI|exact B|]. apply counted_nth. rewrite <- OL. apply nth_error_Some. rewrite B. discriminate.
Qed.
(** A number is determined by what is counted *)
Lemma number_unique : forall P evs a b, number_of P evs a -> number_of P evs b -> a = b.
Proof. intros P evs a b (f & F & ->) (g & G & ->). apply countZ_ext. intros e _. destruct (f e) eqn:E1, (g e) eqn:E2; try reflexivity; [apply F in E1; apply G in E1; congruence|apply G in E2; apply F in E2; congruence]. Qed.
(** Both paths give one result *)
Theorem C115_paths : forall masses ratio peaks row a b, ratio <> 0 -> row_counts true masses (zlen masses) ratio peaks row = Ok a -> row_counts false masses (zlen masses) ratio peaks row = Ok b -> a = b.
Proof.
  intros masses ratio peaks row a b R A B. destruct (C115_counts true masses ratio peaks row R) as (r1 & E1 & L1 & H1). destruct (C115_counts false masses ratio peaks row R) as (r2 & E2 & L2 & H2). rewrite A in E1. injection E1 as <-. rewrite B in E2. injection E2 as <-.
  apply (nth_ext _ _ [] []); [congruence|]. intros x X. rewrite L1 in X. destruct (nth_error row x) as [evs|] eqn:E; [|apply nth_error_None in E; lia]. destruct (H1 x evs E) as (c1 & C1 & LC1 & N1). destruct (H2 x evs E) as (c2 & C2 & LC2 & N2). rewrite (nth_error_nth _ _ _ C1), (nth_error_nth _ _ _ C2). apply (nth_ext _ _ 0 0); [congruence|]. intros k K. rewrite LC1 in K. apply (number_unique _ _ _ _ (N1 k K) (N2 k K)).
Qed.
(** Windows that do not overlap: the events with a mass in the window *)
Definition apart (l : list peak) : Prop := forall i j, (i < List.length l)%nat -> (j < List.length l)%nat -> i <> j -> (p_high (peak_at l i) < lowest l j)%Q \/ (p_high (peak_at l j) < lowest l i)%Q.
Definition proper (l : list peak) : Prop := Forall (fun p => (p_low p <= p_high p)%Q) l.
Lemma apart_belongs : forall l m k, apart l -> proper l -> (k < List.length l)%nat -> (belongs l m k <-> (lowest l k <= m <= p_high (peak_at l k))%Q).
Proof.
  intros l m k A P K. unfold belongs. split; [tauto|]. intros [B1 B2]. split; [split; assumption|]. intros j J O. assert (N : k <> j) by (intros ->; destruct O as [O|[_ O]]; [exact (Qlt_irrefl _ O)|lia]).
  destruct (A k j K J N) as [H|H]; [eapply Qle_lt_trans; eassumption|]. exfalso. assert (PJ : (lowest l j <= p_high (peak_at l j))%Q). { unfold lowest, peak_at. unfold proper in P. rewrite Forall_forall in P. apply P. apply nth_In. exact J. }
  assert (LK : (lowest l k <= lowest l j)%Q) by (destruct O as [O|[O _]]; [apply Qlt_le_weak; exact O|rewrite O; apply Qle_refl]). apply (Qlt_irrefl (lowest l k)). eapply Qle_lt_trans; [exact LK|]. eapply Qle_lt_trans; eassumption.
Qed.
Theorem C115_apart : forall numba masses ratio peaks row r x evs k, ratio <> 0 -> apart peaks -> proper peaks -> row_counts numba masses (zlen masses) ratio peaks row = Ok r -> nth_error row x = Some evs -> (k < List.length peaks)%nat ->
  number_of (fun e => exists m, mass_of masses ratio e m /\ (p_low (peak_at peaks k) <= m <= p_high (peak_at peaks k))%Q) evs (nth k (nth x r []) 0).
Proof.
  intros numba masses ratio peaks row r x evs k R A P E X K. destruct (C115_counts numba masses ratio peaks row R) as (r1 & E1 & _ & H). rewrite E in E1. injection E1 as <-. destruct (H x evs X) as (c & C & _ & N). rewrite (nth_error_nth _ _ _ C). destruct (N k K) as (t & T & ->). exists t. split; [|reflexivity]. intro e. rewrite T. split; intros (m & M & B); exists m; (split; [exact M|]); apply (apart_belongs peaks m k A P K) in B || (apply (apart_belongs peaks m k A P K)); exact B.
Qed.
