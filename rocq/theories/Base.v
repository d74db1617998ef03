(** Shared conventions: results with Python exceptions as values, and small
    list and integer helpers.  Nothing here mirrors code in /repo. *)
From Coq Require Export ZArith List Bool Lia String Ascii.
From Coq Require Export ZifyBool ZifyNat ZifyN.
Export ListNotations.
Open Scope Z_scope.

Ltac Zify.zify_post_hook ::= Z.div_mod_to_equations.

(** Python exceptions that the models can raise. *)
Inductive exn :=
| IndexError | KeyError | TypeError | ValueError | ZeroDivisionError
| NameError | AttributeError | IOError | StructError | OverflowError
| NotImplementedError | StopIteration | UnicodeError | OutOfFuel | OtherError.

Inductive res (A : Type) :=
| Ok (a : A)
| Err (e : exn).
Arguments Ok {A} a.
Arguments Err {A} e.

Definition bind {A B} (r : res A) (f : A -> res B) : res B :=
  match r with Ok a => f a | Err e => Err e end.

Notation "'let!' x := a 'in' b" := (bind a (fun x => b))
  (at level 200, x pattern, a at level 100, b at level 200).

Lemma bind_ok : forall A B (r : res A) (f : A -> res B) b,
  bind r f = Ok b <-> exists a, r = Ok a /\ f a = Ok b.
Proof.
  intros A B [a|e] f b; simpl; split; intro H.
  - exists a; auto.
  - destruct H as [a' [E H]]; injection E as ->; exact H.
  - discriminate.
  - destruct H as [a' [E _]]; discriminate.
Qed.

Definition is_ok {A} (r : res A) : bool := match r with Ok _ => true | Err _ => false end.

(** Number of list elements satisfying a test, as an integer. *)
Fixpoint countZ {A} (f : A -> bool) (l : list A) : Z :=
  match l with
  | [] => 0
  | x :: l' => (if f x then 1 else 0) + countZ f l'
  end.

Lemma countZ_nonneg : forall A (f : A -> bool) l, 0 <= countZ f l.
Proof. induction l as [|x l IH]; simpl; [lia|destruct (f x); lia]. Qed.

Lemma countZ_app : forall A (f : A -> bool) l1 l2,
  countZ f (l1 ++ l2) = countZ f l1 + countZ f l2.
Proof. induction l1 as [|x l1 IH]; intros; simpl; [lia|rewrite IH; lia]. Qed.

Lemma countZ_ext : forall A (f g : A -> bool) l,
  (forall x, In x l -> f x = g x) -> countZ f l = countZ g l.
Proof.
  induction l as [|x l IH]; intros H; simpl; [reflexivity|].
  rewrite (H x) by (left; reflexivity).
  rewrite IH by (intros; apply H; right; assumption). reflexivity.
Qed.

Lemma countZ_repeat : forall A (f : A -> bool) x n,
  countZ f (repeat x n) = if f x then Z.of_nat n else 0.
Proof.
  induction n as [|n IH]; cbn [repeat countZ]; [destruct (f x); reflexivity|].
  rewrite IH. destruct (f x); lia.
Qed.

Lemma countZ_zero : forall A (f : A -> bool) l,
  (forall x, In x l -> f x = false) -> countZ f l = 0.
Proof.
  induction l as [|x l IH]; intros H; simpl; [reflexivity|].
  rewrite (H x) by (left; reflexivity).
  rewrite IH by (intros; apply H; right; assumption). reflexivity.
Qed.

Lemma countZ_map : forall A B (f : B -> bool) (g : A -> B) l,
  countZ f (map g l) = countZ (fun x => f (g x)) l.
Proof. induction l as [|x l IH]; simpl; [reflexivity|rewrite IH; reflexivity]. Qed.

(** Sum of integers. *)
Fixpoint sumZ (l : list Z) : Z :=
  match l with [] => 0 | x :: l' => x + sumZ l' end.

Lemma sumZ_app : forall a b, sumZ (a ++ b) = sumZ a + sumZ b.
Proof. induction a as [|x a IH]; intros; simpl; [lia|rewrite IH; lia]. Qed.

(** Integers [a, a+1, ..., a+n-1]. *)
Fixpoint zseq (a : Z) (n : nat) : list Z :=
  match n with O => [] | S n' => a :: zseq (a + 1) n' end.

Lemma zseq_length : forall n a, List.length (zseq a n) = n.
Proof. induction n as [|n IH]; intros; simpl; [reflexivity|rewrite IH; reflexivity]. Qed.

Lemma in_zseq : forall n a x, In x (zseq a n) <-> a <= x < a + Z.of_nat n.
Proof.
  induction n as [|n IH]; intros a x; cbn [zseq In].
  - lia.
  - rewrite IH. lia.
Qed.

Lemma nth_zseq : forall n a i d, (i < n)%nat -> nth i (zseq a n) d = a + Z.of_nat i.
Proof.
  induction n as [|n IH]; intros a i d Hi; [lia|].
  destruct i as [|i]; cbn [zseq nth]; [lia|].
  rewrite IH by lia. lia.
Qed.

Lemma NoDup_zseq : forall n a, NoDup (zseq a n).
Proof.
  induction n as [|n IH]; intros a; cbn [zseq]; constructor.
  - rewrite in_zseq. lia.
  - apply IH.
Qed.

Lemma zseq_app : forall n m a, zseq a (n + m) = zseq a n ++ zseq (a + Z.of_nat n) m.
Proof.
  induction n as [|n IH]; intros m a.
  - cbn [zseq plus app]. f_equal. lia.
  - cbn [zseq plus app]. rewrite IH. f_equal. f_equal. f_equal. lia.
Qed.

Lemma NoDup_map_in : forall A B (f : A -> B) l,
  (forall a b, In a l -> In b l -> f a = f b -> a = b) -> NoDup l -> NoDup (map f l).
Proof.
  induction l as [|x l IH]; intros Hinj H; cbn [map]; constructor.
  - inversion H; subst. intro K. apply in_map_iff in K. destruct K as [y [E Hy]].
    assert (y = x); [|subst; contradiction].
    apply Hinj; [right; exact Hy|left; reflexivity|exact E].
  - inversion H; subst. apply IH; [|assumption]. intros. apply Hinj; [right|right|]; assumption.
Qed.
