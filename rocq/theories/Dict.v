(** More lemmas on dictionaries as association lists (lookup and put of HierModel). *)
From Verif Require Import Base Text HierModel HierProof HierProps.

Lemma lookup_none_in : forall A k (l : list (pystr * A)), lookup k l = None -> ~ In k (map fst l).
Proof.
  induction l as [|[k' v] l IH]; intros H; [intros []|]. cbn [lookup map fst] in *.
  destruct (eqb_str k k') eqn:E; [discriminate|]. intros [K|K]; [subst; rewrite eqb_str_refl in E; discriminate|]. apply IH; assumption.
Qed.

Lemma lookup_in : forall A k (v : A) l, NoDup (map fst l) -> In (k, v) l -> lookup k l = Some v.
Proof.
  induction l as [|[k' w] l IH]; intros Hn H; [contradiction|]. cbn [lookup map fst] in *. inversion Hn as [|? ? A1 A2]; subst.
  destruct (eqb_str k k') eqn:E.
  - apply eqb_str_spec in E. subst k'. destruct H as [H|H]; [injection H as ->; reflexivity|].
    exfalso. apply A1. apply in_map_iff. exists (k, v). auto.
  - destruct H as [H|H]; [injection H as -> ->; rewrite eqb_str_refl in E; discriminate|]. apply IH; assumption.
Qed.

Lemma lookup_some_in : forall A k (v : A) l, lookup k l = Some v -> In (k, v) l.
Proof.
  induction l as [|[k' w] l IH]; intros H; [discriminate|]. cbn [lookup] in H. destruct (eqb_str k k') eqn:E.
  - apply eqb_str_spec in E. subst. left. congruence.
  - right. apply IH. exact H.
Qed.

Lemma lookup_app : forall A k (a b : list (pystr * A)), lookup k (a ++ b) = match lookup k a with Some v => Some v | None => lookup k b end.
Proof. induction a as [|[k' v] a IH]; intros b; cbn [app lookup]; [reflexivity|]. destruct (eqb_str k k'); [reflexivity|apply IH]. Qed.
