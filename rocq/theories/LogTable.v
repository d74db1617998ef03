(** Tables and time steps of logs. *)
From Coq Require Import QArith Lqa.
From Verif Require Import Base Text Bytes HierModel SfsModel RplModel RplProps RenModel QuadModel HamText SurQuantity LogModel DensText DensFile LogText.
Local Open Scope Z_scope.

(** * Specification *)
(** Names of columns that are kept as they are *)
Definition special : list Z := map (fun c => c) (str "~!@#$%^&*()-=+\|]}[{';:/?.>,<").
Definition clean_name (s : pystr) : Prop := s <> [] /\ Forall (fun c => ~ In c special /\ is_space c = false) s /\ ~ In s [str "return"; str "file"; str "print"].
(** A line with cells: comments and blanks at its ends are left out *)
Definition is_line (line : pystr) (cells : list pystr) : Prop := exists text, uncommented line text /\ padded text (join_char 44 cells) /\ trimmed (join_char 44 cells) /\ join_char 44 cells <> [] /\ Forall (fun s => ~ In 44 s) cells.
Inductive table : list pystr -> list (list pystr) -> Prop :=
| table_end : table [] []
| table_empty : forall line lines rows, is_empty line -> table lines rows -> table (line :: lines) rows
| table_line : forall line lines r rows, is_line line r -> table lines rows -> table (line :: lines) (r :: rows).
Definition is_column (rows : list (list pystr)) (i : nat) (c : list pystr) : Prop := Forall2 (fun r x => nth_error r i = Some x) rows c.
(** The mean step between the second and the last but one of the times *)
Definition mean_step (ts : list Q) (s : Q) : Prop := exists a b, nth_error ts 1 = Some a /\ nth_error ts (List.length ts - 2) = Some b /\ (s * inject_Z (zlen ts - 3) == b - a)%Q.

(** * Names *)
Lemma has_in : forall c s, has c s = true <-> In c s.
Proof. intros c s. unfold has. rewrite existsb_exists. split; [intros [x [I E]]; apply Z.eqb_eq in E; subst x; exact I|]. intro I. exists c. split; [exact I|apply Z.eqb_refl]. Qed.
Lemma deleted_special : forall c, is_space c = false -> ~ In c special -> has c deleted = false.
Proof.
  intros c S N. destruct (has c deleted) eqn:E; [|reflexivity]. apply has_in in E. exfalso. apply N. clear N. vm_compute in E. assert (C : c <> 32) by (intros ->; discriminate S). vm_compute. intuition auto.
Qed.
Lemma nonspace_trimmed : forall s, Forall (fun c => is_space c = false) s -> trimmed s.
Proof.
  intros s H. destruct s as [|c s]; [exact I|]. split; [inversion H; assumption|]. rewrite Forall_forall in H. apply H. destruct (exists_last (l := c :: s)) as [i [z E]]; [discriminate|]. rewrite E, last_last. apply in_or_app. right. left. reflexivity.
Qed.
Lemma valid_clean : forall s, clean_name s -> valid_name s = s.
Proof.
  intros s (N & F & X). unfold valid_name. rewrite strip_trimmed by (apply nonspace_trimmed; eapply Forall_impl; [|exact F]; cbn; tauto).
  assert (E : filter (fun c => negb (has c deleted)) (map (fun c => if c =? 32 then 95 else c) s) = s).
  { clear N X. induction F as [|c s [C1 C2] F IH]; [reflexivity|]. cbn [map filter]. replace (c =? 32) with false by (destruct (Z.eqb_spec c 32) as [-> | ?]; [discriminate C2|reflexivity]). rewrite (deleted_special c C2 C1). cbn [negb]. rewrite IH. reflexivity. }
  rewrite E. assert (XE : existsb (eqb_str s) excluded = false). { destruct (existsb (eqb_str s) excluded) eqn:K; [|reflexivity]. apply existsb_exists in K. destruct K as [x [I Q]]. apply eqb_str_spec in Q. subst x. contradiction. }
  rewrite XE. reflexivity.
Qed.
Lemma count_none : forall s l, ~ In s l -> count s l = 0.
Proof. intros s l N. induction l as [|x l IH]; [reflexivity|]. cbn [count]. rewrite IH by (intro K; apply N; right; exact K). replace (eqb_str s x) with false; [reflexivity|]. symmetry. apply eqb_str_neq. intros ->. apply N. left. reflexivity. Qed.
Lemma valid_distinct : forall names seen, Forall clean_name names -> NoDup names -> (forall n, In n names -> ~ In n seen) -> valid_names seen names = names.
Proof.
  induction names as [|n names IH]; intros seen C D S; [reflexivity|]. inversion C; subst. inversion D; subst. cbn [valid_names]. rewrite valid_clean by assumption. rewrite count_none by (apply S; left; reflexivity). cbn [Z.eqb]. f_equal. apply IH; [assumption|assumption|]. intros m M [<- | K]; [contradiction|]. exact (S m (or_intror M) K).
Qed.
(** * Rows *)
Lemma line_row : forall line cells, is_line line cells -> table_row line = Some (split_char 44 (join_char 44 cells)).
Proof.
  intros line cells (text & U & P & T & N & F). unfold table_row. rewrite (before_text _ _ U), (strip_inner _ _ T N P). destruct (join_char 44 cells); [congruence|reflexivity].
Qed.
Lemma empty_row : forall line, is_empty line -> table_row line = None.
Proof. intros line (text & U & B). unfold table_row. rewrite (before_text _ _ U), (strip_blank _ B). reflexivity. Qed.
Lemma table_read : forall lines rows, table lines rows -> table_rows lines = rows.
Proof.
  intros lines rows T. induction T as [|line lines rows E T IH|line lines r rows L T IH]; [reflexivity| |]; cbn [table_rows].
  - rewrite empty_row by exact E. exact IH.
  - rewrite (line_row _ _ L), IH. f_equal. destruct L as (text & _ & _ & _ & N & F). apply split_join; [intros ->; apply N; reflexivity|exact F].
Qed.
Lemma column_is : forall rows i n, Forall (fun r : list pystr => List.length r = n) rows -> (i < n)%nat -> is_column rows i (column i rows).
Proof.
  intros rows i n F L. unfold column. induction F as [|r rows R F IH]; cbn [map]; constructor; [|exact IH]. cbn beta in R. apply nth_error_nth'. subst n. exact L.
Qed.
Lemma columns_lookup : forall names k i n rows, NoDup names -> nth_error names i = Some n -> lookup n (columns k names rows) = Some (column (k + i) rows).
Proof.
  induction names as [|m names IH]; intros k i n rows D E; [destruct i; discriminate E|]. inversion D as [|? ? D1 D2]; subst. cbn [columns lookup]. destruct i as [|i].
  - injection E as <-. rewrite eqb_str_refl, Nat.add_0_r. reflexivity.
  - cbn [nth_error] in E. replace (eqb_str n m) with false; [|symmetry; apply eqb_str_neq; intros ->; apply D1; exact (nth_error_In _ _ E)]. rewrite (IH (S k) i n rows D2 E). f_equal. f_equal. lia.
Qed.
Lemma table_columns : forall names lines rows, Forall clean_name names -> NoDup names -> table lines rows -> rows <> [] -> Forall (fun r => List.length r = List.length names) rows ->
  exists data, genfromtxt names lines = Ok data /\ forall i n, nth_error names i = Some n -> get_column data n = Ok (column i rows) /\ is_column rows i (column i rows).
Proof.
  intros names lines rows C D T N F. unfold genfromtxt. rewrite (table_read _ _ T). cbv zeta. replace (zlen rows =? 0) with false by (destruct rows; [congruence|unfold zlen; cbn [List.length]; lia]).
  assert (A : forallb (fun r => (List.length r =? List.length names)%nat) rows = true). { apply forallb_forall. intros r R. rewrite Forall_forall in F. apply Nat.eqb_eq. apply F. exact R. }
  rewrite A. cbn [negb andb]. eexists. split; [reflexivity|]. intros i n E. rewrite valid_distinct by (auto). unfold get_column. rewrite (columns_lookup names 0 i n rows D E). split; [reflexivity|]. apply (column_is rows i (List.length names) F). apply nth_error_Some. rewrite E. discriminate.
Qed.
(** A table without rows, or with a row of another length, is refused *)
Theorem C95_refused_table : forall names lines rows, table lines rows -> rows = [] \/ Exists (fun r => List.length r <> List.length names) rows -> genfromtxt names lines = Err ValueError.
Proof.
  intros names lines rows T H. unfold genfromtxt. rewrite (table_read _ _ T). cbv zeta. destruct H as [->|H]; [reflexivity|]. replace (forallb (fun r => (List.length r =? List.length names)%nat) rows) with false; [rewrite andb_false_r; reflexivity|]. symmetry. apply not_true_iff_false. intro F. rewrite forallb_forall in F. apply Exists_exists in H. destruct H as (r & R & N). apply N. apply Nat.eqb_eq. apply F. exact R.
Qed.
(** * Steps *)
Lemma diffs_sum : forall l a, (qsum (qdiffs (a :: l)) == last (a :: l) a - a)%Q.
Proof.
  induction l as [|b l IH]; intro a; [cbn; ring|]. change (qdiffs (a :: b :: l)) with ((b - a)%Q :: qdiffs (b :: l)). change (qsum ((b - a)%Q :: qdiffs (b :: l))) with ((b - a) + qsum (qdiffs (b :: l)))%Q. rewrite IH. assert (E : last (a :: b :: l) a = last (b :: l) b). { change (last (a :: b :: l) a) with (last (b :: l) a). destruct (exists_last (l := b :: l)) as [i [z Z]]; [discriminate|]. rewrite Z, !last_last. reflexivity. } rewrite E. ring.
Qed.
Lemma diffs_length : forall l, List.length (qdiffs l) = (List.length l - 1)%nat.
Proof. induction l as [|a l IH]; [reflexivity|]. destruct l as [|b l]; [reflexivity|]. change (qdiffs (a :: b :: l)) with ((b - a)%Q :: qdiffs (b :: l)). cbn [List.length] in *. rewrite IH. lia. Qed.
Lemma mean_inner : forall ts, (4 <= List.length ts)%nat -> exists s, qmean (qdiffs (inner ts)) = Some s /\ mean_step ts s.
Proof.
  intros ts L. destruct ts as [|t0 [|t1 [|t2 [|t3 r]]]]; try (cbn [List.length] in L; lia). destruct (exists_last (l := t3 :: r)) as [m [z E]]; [discriminate|]. unfold inner. cbn [tl]. rewrite E.
  assert (I : removelast (t1 :: t2 :: m ++ [z]) = t1 :: t2 :: m). { change (t1 :: t2 :: m ++ [z]) with ((t1 :: t2 :: m) ++ [z]). apply removelast_last. } rewrite I.
  assert (K : List.length (qdiffs (t1 :: t2 :: m)) = S (List.length m)) by (rewrite diffs_length; reflexivity).
  unfold qmean. destruct (qdiffs (t1 :: t2 :: m)) as [|d ds] eqn:D; [discriminate K|]. rewrite <- D. eexists. split; [reflexivity|]. exists t1, (last (t1 :: t2 :: m) t1). split; [reflexivity|]. split.
  - change (t0 :: t1 :: t2 :: m ++ [z]) with ((t0 :: t1 :: t2 :: m) ++ [z]). rewrite app_length. cbn [List.length]. replace (S (S (S (List.length m))) + 1 - 2)%nat with (S (S (List.length m))) by lia. cbn [app nth_error].
    destruct (exists_last (l := t2 :: m)) as [q [y Y]]; [discriminate|]. change (nth_error (t2 :: m ++ [z]) (List.length m)) with (nth_error ((t2 :: m) ++ [z]) (List.length m)). rewrite nth_error_app1 by (cbn [List.length]; lia). change (t1 :: t2 :: m) with (t1 :: (t2 :: m)). rewrite Y. assert (LQ : List.length q = List.length m). { assert (W : List.length (t2 :: m) = List.length (q ++ [y])) by (rewrite Y; reflexivity). rewrite app_length in W. cbn [List.length] in W. lia. } rewrite <- LQ. rewrite nth_error_app2 by lia. rewrite Nat.sub_diag. cbn [nth_error]. change (t1 :: q ++ [y]) with ((t1 :: q) ++ [y]). rewrite last_last. reflexivity.
  - rewrite diffs_sum. assert (Z : zlen (t0 :: t1 :: t2 :: m ++ [z]) - 3 = zlen (qdiffs (t1 :: t2 :: m))). { unfold zlen. rewrite D, K. cbn [List.length]. rewrite app_length. cbn [List.length]. lia. }
    rewrite Z. field. unfold zlen. rewrite D, K. intro Q. unfold Qeq in Q. cbn [Qnum Qden inject_Z] in Q. lia.
Qed.
