(** Further properties of the units of EMD files (C114). *)
From Verif Require Import Base Text HierModel NcemModel NcemProps NcemWrite NcemFile.
Local Open Scope Z_scope.
(** * Specification: units in brackets, to be multiplied *)
Definition bracketed (w : pystr) : pystr := 91 :: w ++ [93].
Definition word_ok (w : pystr) : Prop := w <> [] /\ ~ In 93 w /\ ~ In 10 w.
Fixpoint product (l : list pystr) : pystr := match l with [] => [] | [a] => a | a :: l => a ++ [32; 42; 32] ++ product l end.
Definition without (c : Z) (s : pystr) : pystr := filter (fun x => negb (x =? c)) s.

Lemma close_found : forall w r, ~ In 93 w -> ~ In 10 w -> until_close (w ++ 93 :: r) = Some (w, r).
Proof.
  induction w as [|c w IH]; intros r A B; cbn [app until_close]; [reflexivity|]. cbn [In] in A, B. replace (c =? 93) with false by lia. replace (c =? 10) with false by lia. rewrite IH by tauto. reflexivity.
Qed.
Lemma findall_words : forall ws n, Forall word_ok ws -> (List.length (flat_map bracketed ws) < n)%nat -> findall n (flat_map bracketed ws) = ws.
Proof.
  induction ws as [|w ws IH]; intros n F L; [destruct n; reflexivity|]. inversion F as [|? ? (N & A & B) F']; subst. cbn [flat_map] in *. rewrite app_length in L. unfold bracketed in L at 1. cbn [List.length] in L. rewrite app_length in L. cbn [List.length] in L.
  destruct n as [|n]; [lia|]. unfold bracketed at 1. cbn [app findall]. change (91 =? 91) with true. cbv iota. rewrite <- app_assoc. cbn [app]. destruct w as [|d w]; [contradiction|]. cbn [app]. cbn [In] in A, B. replace (d =? 10) with false by lia.
  rewrite close_found by tauto. f_equal. apply IH; [exact F'|lia].
Qed.
Theorem C114_product : forall pint ws, Forall word_ok ws -> ws <> [] -> parse_units pint (flat_map bracketed ws) = short pint (product (map (without 95) ws)).
Proof.
  intros pint ws F N. unfold parse_units. destruct ws as [|w ws]; [contradiction|].
  assert (X : forall s, s <> [] -> hd 0 s <> 91 -> eqb_str (flat_map bracketed (w :: ws)) s = false). { intros s S H. apply eqb_str_neq. intros <-. apply H. reflexivity. }
  rewrite !X by (vm_compute; discriminate). cbn [orb]. rewrite findall_words by (try exact F; lia). unfold short. cbn [map]. 
  assert (J : forall l, join (str " * ") l = product l). { induction l as [|a l IH]; [reflexivity|]. destruct l as [|b l]; [reflexivity|]. cbn [join product] in *. rewrite <- IH. reflexivity. }
  cbv zeta. rewrite <- J. reflexivity.
Qed.
Example C114_product_demo : Forall word_ok [str "n_m"; str "s"] /\ flat_map bracketed [str "n_m"; str "s"] = str "[n_m][s]" /\ product (map (without 95) [str "n_m"; str "s"]) = str "nm * s".
Proof. split; [|split; reflexivity]. repeat constructor; try discriminate; intro H; vm_compute in H; repeat (destruct H as [H|H]; [discriminate H|]); exact H. Qed.
(** A bracket that is closed on a later line is none *)
Theorem C114_lines : forall pint a b, ~ In 91 a -> ~ In 93 a -> ~ In 91 b -> parse_units pint (91 :: a ++ 10 :: b) = short pint (91 :: a ++ 10 :: b).
Proof.
  intros pint a b A A' B. unfold parse_units. assert (X : forall s, hd 0 s <> 91 -> eqb_str (91 :: a ++ 10 :: b) s = false). { intros s H. apply eqb_str_neq. intros <-. apply H. reflexivity. }
  rewrite !X by (vm_compute; discriminate). cbn [orb]. set (v := 91 :: a ++ 10 :: b). assert (N : findall (S (List.length v)) v = []); [|rewrite N; reflexivity]. subst v. cbn [findall]. change (91 =? 91) with true. cbv iota.
  assert (NI : ~ In 91 (a ++ 10 :: b)) by (rewrite in_app_iff; cbn [In]; intros [Y|[Y|Y]]; [exact (A Y)|discriminate|exact (B Y)]).
  assert (U : forall a, ~ In 93 a -> until_close (a ++ 10 :: b) = None).
  { clear. induction a as [|c a IH]; intro H; cbn [app until_close]; [reflexivity|]. cbn [In] in H. replace (c =? 93) with false by lia. destruct (c =? 10); [reflexivity|]. rewrite IH by tauto. reflexivity. }
  destruct a as [|d a]; cbn [app]; [change (10 =? 10) with true; cbv iota; apply findall_none; exact NI|]. destruct (d =? 10); [apply findall_none; exact NI|]. cbn [In] in A'. rewrite U by tauto. apply findall_none. exact NI.
Qed.
Example C114_lines_demo : ~ In 91 (str "m") /\ ~ In 93 (str "m").
Proof. split; intros [H|H]; try discriminate H; exact H. Qed.
Print Assumptions C114_product.
Print Assumptions C114_lines.
