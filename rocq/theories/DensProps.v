(** Property C94: DENS heater logs. *)
From Coq Require Import QArith Lqa.
From Verif Require Import Base Text Bytes HierModel SfsModel RplModel RenModel QuadModel LogModel.
Local Open Scope Z_scope.

(** * Specification *)
(** How often the clock went back up to a position *)
Fixpoint falls (l : list Q) (i : nat) : Z :=
  match i, l with
  | S i', a :: (b :: _) as l' => (if Qlt_le_dec b a then 1 else 0) + falls l' i'
  | _, _ => 0
  end.
Definition in_day (t : Q) : Prop := (0 <= t < 86400)%Q.
Definition at_pos (l : list Q) (i : nat) (t : Q) : Prop := exists t', nth_error l i = Some t' /\ (t' == t)%Q.

(** * Times *)
Lemma below_lt : forall a b, below b a = true <-> (b < a)%Q.
Proof. intros a b. unfold below. split; intro H; [apply Qnot_le_lt; intro K; apply Qle_bool_iff in K; rewrite K in H; discriminate H|]. destruct (Qle_bool a b) eqn:E; [apply Qle_bool_iff in E; exfalso; exact (Qlt_not_le _ _ H E)|reflexivity]. Qed.
Definition later (l : list Q) (i : nat) : list Q := firstn i l ++ map add_day (skipn i l).
Lemma later_length : forall l i, List.length (later l i) = List.length l.
Proof. intros. unfold later. rewrite app_length, map_length, firstn_length, skipn_length. lia. Qed.
Lemma later_nth : forall l i k, nth_error (later l i) k = option_map (fun t => if (i <=? k)%nat then add_day t else t) (nth_error l k).
Proof.
  intros l i k. unfold later. destruct (Nat.leb_spec i k) as [L|L].
  - destruct (Nat.le_gt_cases (List.length l) i) as [B|B].
    + rewrite skipn_all2 by lia. cbn [map]. rewrite app_nil_r, firstn_all2 by lia. assert (E : nth_error l k = None) by (apply nth_error_None; lia). rewrite E. reflexivity.
    + rewrite nth_error_app2 by (rewrite firstn_length; lia). rewrite firstn_length. replace (k - Nat.min i (List.length l))%nat with (k - i)%nat by lia. rewrite nth_error_map. f_equal. rewrite <- (firstn_skipn i l) at 2. rewrite nth_error_app2 by (rewrite firstn_length; lia). rewrite firstn_length. f_equal. lia.
  - destruct (Nat.le_gt_cases (List.length l) k) as [B|B].
    + assert (E : nth_error l k = None) by (apply nth_error_None; lia). rewrite E. apply nth_error_None. change (List.length (later l i) <= k)%nat. rewrite later_length. lia.
    + rewrite nth_error_app1 by (rewrite firstn_length; lia). rewrite <- (firstn_skipn i l) at 2. rewrite nth_error_app1 by (rewrite firstn_length; lia). destruct (nth_error (firstn i l) k); reflexivity.
Qed.
(** how many of the positions are not after k *)
Fixpoint upto (is : list nat) (k : nat) : Z := match is with [] => 0 | i :: is' => (if (i <=? k)%nat then 1 else 0) + upto is' k end.
Lemma add_all : forall is l k t, nth_error l k = Some t -> exists t', nth_error (fold_left later is l) k = Some t' /\ (t' == t + 86400 * inject_Z (upto is k))%Q.
Proof.
  induction is as [|i is IH]; intros l k t H; cbn [fold_left upto]; [exists t; split; [exact H|change (inject_Z 0) with 0%Q; ring]|].
  destruct (IH (later l i) k (if (i <=? k)%nat then add_day t else t)) as (t' & E & Q); [rewrite later_nth, H; reflexivity|]. exists t'. split; [exact E|]. rewrite Q. rewrite inject_Z_plus. destruct (i <=? k)%nat; unfold add_day; [change (inject_Z 1) with 1%Q|change (inject_Z 0) with 0%Q]; ring.
Qed.
Lemma upto_app : forall a b k, upto (a ++ b) k = upto a k + upto b k.
Proof. induction a as [|i a IH]; intros b k; cbn [app upto]; [reflexivity|]. rewrite IH. lia. Qed.
Lemma upto_drops : forall l j i, upto (drops j l) (j + i)%nat = (if (i <? List.length l)%nat then falls l (S i) else upto (drops j l) (j + i)%nat).
Proof.
  induction l as [|a l IH]; intros j i; [reflexivity|]. destruct (i <? List.length (a :: l))%nat eqn:E; [|reflexivity]. destruct l as [|b l]; [cbn [drops upto falls]; reflexivity|]. 
  change (drops j (a :: b :: l)) with ((if below b a then [j] else []) ++ drops (S j) (b :: l)). rewrite upto_app. change (falls (a :: b :: l) (S i)) with ((if Qlt_le_dec b a then 1 else 0) + falls (b :: l) i).
  assert (X : upto (if below b a then [j] else []) (j + i)%nat = if Qlt_le_dec b a then 1 else 0).
  { destruct (Qlt_le_dec b a) as [L|L]; [apply below_lt in L; rewrite L; cbn [upto]; replace (j <=? j + i)%nat with true by (symmetry; apply Nat.leb_le; lia); reflexivity|]. destruct (below b a) eqn:B; [apply below_lt in B; exfalso; exact (Qlt_not_le _ _ B L)|reflexivity]. }
  rewrite X. f_equal. destruct i as [|i].
  - assert (Z : forall l0 m n, (n < m)%nat -> upto (drops m l0) n = 0).
    { clear. induction l0 as [|x l0 IH]; intros m n L; [reflexivity|]. destruct l0 as [|y l0]; [reflexivity|]. change (drops m (x :: y :: l0)) with ((if below y x then [m] else []) ++ drops (S m) (y :: l0)). rewrite upto_app, (IH (S m) n) by lia. destruct (below y x); cbn [upto]; [|reflexivity]. replace (m <=? n)%nat with false by (symmetry; apply Nat.leb_gt; lia). reflexivity. }
    rewrite Nat.add_0_r. rewrite Z by lia. reflexivity.
  - replace (j + S i)%nat with (S j + i)%nat by lia. rewrite (IH (S j) i). assert (Y : (i <? List.length (b :: l))%nat = true) by (apply Nat.ltb_lt; apply Nat.ltb_lt in E; cbn [List.length] in *; lia). rewrite Y. reflexivity.
Qed.
Lemma falls_beyond : forall l i, (List.length l <= S i)%nat -> falls l (S i) = falls l i.
Proof.
  induction l as [|a l IH]; intros i L; [destruct i; reflexivity|]. destruct l as [|b l]; [destruct i; reflexivity|]. destruct i as [|i]; [cbn [List.length] in L; lia|]. change (falls (a :: b :: l) (S (S i))) with ((if Qlt_le_dec b a then 1 else 0) + falls (b :: l) (S i)). change (falls (a :: b :: l) (S i)) with ((if Qlt_le_dec b a then 1 else 0) + falls (b :: l) i). rewrite IH by (cbn [List.length] in *; lia). reflexivity.
Qed.
Lemma upto_falls : forall l k, (k < List.length l)%nat -> upto (drops 1 l) k = falls l k.
Proof.
  intros l k L. destruct k as [|k].
  - assert (Z : forall l0 m n, (n < m)%nat -> upto (drops m l0) n = 0).
    { clear. induction l0 as [|x l0 IH]; intros m n L; [reflexivity|]. destruct l0 as [|y l0]; [reflexivity|]. change (drops m (x :: y :: l0)) with ((if below y x then [m] else []) ++ drops (S m) (y :: l0)). rewrite upto_app, (IH (S m) n) by lia. destruct (below y x); cbn [upto]; [|reflexivity]. replace (m <=? n)%nat with false by (symmetry; apply Nat.leb_gt; lia). reflexivity. }
    rewrite Z by lia. destruct l; reflexivity.
  - change (S k) with (1 + k)%nat at 1. rewrite upto_drops. replace (k <? List.length l)%nat with true by (symmetry; apply Nat.ltb_lt; lia). reflexivity.
Qed.
Theorem C94_rollover : forall l, List.length (rollover l) = List.length l /\ forall i t, nth_error l i = Some t -> at_pos (rollover l) i (t + 86400 * inject_Z (falls l i)).
Proof.
  intro l. unfold rollover. change (fold_left _ (drops 1 l) l) with (fold_left later (drops 1 l) l). split.
  - generalize (drops 1 l) as is. intro is. revert l. induction is as [|i is IH]; intro l; [reflexivity|]. cbn [fold_left]. rewrite IH. apply later_length.
  - intros i t H. destruct (add_all (drops 1 l) l i t H) as (t' & E & Q). rewrite upto_falls in Q by (apply nth_error_Some; rewrite H; discriminate). exists t'. split; assumption.
Qed.
Lemma falls_step : forall l i a b, nth_error l i = Some a -> nth_error l (S i) = Some b -> falls l (S i) = falls l i + (if Qlt_le_dec b a then 1 else 0).
Proof.
  induction l as [|x l IH]; intros i a b A B; [destruct i; discriminate A|]. destruct l as [|y l]; [destruct i; discriminate B|]. destruct i as [|i].
  - injection A as <-. injection B as <-. cbn [falls]. destruct (Qlt_le_dec y x); destruct l; reflexivity.
  - change (falls (x :: y :: l) (S (S i))) with ((if Qlt_le_dec y x then 1 else 0) + falls (y :: l) (S i)). change (falls (x :: y :: l) (S i)) with ((if Qlt_le_dec y x then 1 else 0) + falls (y :: l) i). rewrite (IH i a b A B). lia.
Qed.
(** Times of a day never go back *)
Theorem C94_forward : forall l i a b, Forall in_day l -> nth_error (rollover l) i = Some a -> nth_error (rollover l) (S i) = Some b -> (a <= b < a + 86400)%Q.
Proof.
  intros l i a b D A B. destruct (C94_rollover l) as [L R]. assert (LI : (S i < List.length l)%nat) by (rewrite <- L; apply nth_error_Some; rewrite B; discriminate).
  destruct (nth_error l i) as [t|] eqn:T; [|apply nth_error_None in T; lia]. destruct (nth_error l (S i)) as [u|] eqn:U; [|apply nth_error_None in U; lia].
  destruct (R _ _ T) as (t' & E & Q). rewrite A in E. injection E as <-. destruct (R _ _ U) as (u' & E & Q'). rewrite B in E. injection E as <-. rewrite (falls_step l i t u T U) in Q'. rewrite Forall_forall in D. pose proof (D t (nth_error_In _ _ T)) as Dt. pose proof (D u (nth_error_In _ _ U)) as Du. unfold in_day in *. rewrite inject_Z_plus in Q'. rewrite Q, Q'.
  destruct (Qlt_le_dec u t); [change (inject_Z 1) with 1%Q|change (inject_Z 0) with 0%Q]; split; lra.
Qed.
(** Times that do not go back are not changed *)
Theorem C94_steady : forall l, (forall i a b, nth_error l i = Some a -> nth_error l (S i) = Some b -> (a <= b)%Q) -> rollover l = l.
Proof.
  intros l H. assert (D : forall j, drops j l = []).
  { induction l as [|a l IH]; intro j; [reflexivity|]. destruct l as [|b l]; [reflexivity|]. change (drops j (a :: b :: l)) with ((if below b a then [j] else []) ++ drops (S j) (b :: l)). rewrite IH by (intros i x y X Y; exact (H (S i) x y X Y)). destruct (below b a) eqn:E; [|reflexivity]. apply below_lt in E. exfalso. exact (Qlt_not_le _ _ E (H 0%nat a b eq_refl eq_refl)). }
  unfold rollover. rewrite D. reflexivity.
Qed.
Example C94_rollover_demo : map Qred (rollover [86398; 86399; 1; 2; 1]%Q) = [86398; 86399; 86401; 86402; 172801]%Q /\ falls [86398; 86399; 1; 2; 1]%Q 4 = 2.
Proof. split; vm_compute; reflexivity. Qed.
Print Assumptions C94_rollover.
Print Assumptions C94_forward.
Print Assumptions C94_steady.
