(** The axes of Nexus data. *)
From Coq Require Import QArith Qabs Qminmax Lqa.
From Verif Require Import Base Text HierModel DistModel RplModel SfsModel RowMajor HierProps HierProof Dict NxModel.
Local Open Scope Z_scope.

Definition iq (i : nat) : Q := inject_Z (Z.of_nat i).
(** the values o, o + s, o + 2 s, … *)
Definition even (o s : Q) (l : list Q) : Prop := forall i q, nth_error l i = Some q -> (q == o + s * iq i)%Q.

Lemma iq_S : forall i, (iq (S i) == iq i + 1)%Q.
Proof. intros i. unfold iq. rewrite Nat2Z.inj_succ, <- Z.add_1_r, inject_Z_plus. reflexivity. Qed.
Lemma iq_pos : forall i, (0 <= iq i)%Q.
Proof. intros i. unfold iq. change 0%Q with (inject_Z 0). rewrite <- Zle_Qle. lia. Qed.
Lemma even_tail : forall o s q l, even o s (q :: l) -> even (o + s) s l.
Proof. intros o s q l H i p E. rewrite (H (S i) p E), iq_S. ring. Qed.
Lemma diffs_nth : forall l i d, nth_error (diffs l) i = Some d <-> exists a b, nth_error l i = Some a /\ nth_error l (S i) = Some b /\ d = (b - a)%Q.
Proof.
  induction l as [|x l IH]; intros i d.
  - cbn [diffs]. split; [destruct i; discriminate|]. intros (a & b & H & _). destruct i; discriminate.
  - destruct l as [|y l].
    + cbn [diffs]. split; [destruct i; discriminate|]. intros (a & b & _ & H & _). destruct i; discriminate.
    + replace (diffs (x :: y :: l)) with ((y - x)%Q :: diffs (y :: l)) by reflexivity. destruct i as [|i].
      * cbn [nth_error]. split.
        -- intros H. injection H as <-. exists x, y. auto.
        -- intros (a & b & H1 & H2 & ->). injection H1 as <-. injection H2 as <-. reflexivity.
      * cbn [nth_error]. rewrite IH. reflexivity.
Qed.
Lemma close_spec : forall a b, close a b = true <-> (Qabs (a - b) <= (1 # 100000000) + (1 # 100000) * Qabs b)%Q.
Proof. intros a b. unfold close. apply Qle_bool_iff. Qed.
Lemma close_eq : forall a b, (a == b)%Q -> close a b = true.
Proof.
  intros a b H. apply close_spec. setoid_replace (a - b)%Q with 0%Q by (rewrite H; ring). pose proof (Qabs_nonneg b).
  rewrite Qabs_pos by lra. lra.
Qed.
Lemma is_linear_spec : forall l, is_linear l = true <-> forall i s d, nth_error (diffs l) 0 = Some s -> nth_error (diffs l) i = Some d -> close s d = true.
Proof.
  intros l. unfold is_linear. destruct (diffs l) as [|s r] eqn:E.
  - split; [|reflexivity]. intros _ i s d H. discriminate.
  - rewrite forallb_forall. split.
    + intros H i s' d Hs Hd. injection Hs as <-. apply H. eapply nth_error_In. exact Hd.
    + intros H d Hd. destruct (In_nth_error _ _ Hd) as [i Hi]. exact (H i s d eq_refl Hi).
Qed.
Lemma even_linear : forall o s l, even o s l -> is_linear l = true.
Proof.
  intros o s l H. apply is_linear_spec. intros i t d Ht Hd.
  apply diffs_nth in Ht. apply diffs_nth in Hd. destruct Ht as (a & b & A & B & ->). destruct Hd as (a' & b' & A' & B' & ->).
  apply close_eq. rewrite (H _ _ A), (H _ _ B), (H _ _ A'), (H _ _ B'), !iq_S. ring.
Qed.
Lemma last_nth : forall A (l : list A) x d, nth_error (x :: l) (List.length l) = Some (last (x :: l) d).
Proof.
  induction l as [|y l IH]; intros x d; [reflexivity|]. change (last (x :: y :: l) d) with (last (y :: l) d). cbn [List.length nth_error]. apply IH.
Qed.

(** * One axis *)
(** A dataset with a description: its units and its values. *)
Definition stored (items : members) (name u : pystr) (l : list Q) : Prop :=
  exists link a n, lookup name items = Some (link, Data a (CArr [n] l)) /\
    match lookup (str "units") a with None => u = [] | Some c => parse_attr c = MText u end.

Lemma named_spec : forall shape items ax ind named u l r,
  stored items ax u l -> named_axis shape items ax ind named = Ok r ->
  x_index (fst r) = ind /\ x_name (fst r) = Some ax /\ x_nav (fst r) = true /\ remove_int ind named = Ok (snd r) /\
  match l with
  | [] => False
  | [q] => x_size (fst r) = 1 /\ x_scale (fst r) = 1%Q /\ x_offset (fst r) = q /\ x_units (fst r) = Some u
  | p :: q :: _ =>
      nth_error shape (Z.to_nat ind) = Some (x_size (fst r)) /\
      if is_linear l then x_scale (fst r) = Qabs (q - p) /\ x_offset (fst r) = Qmin p (last l p) /\ x_units (fst r) = Some u
      else x_scale (fst r) = 1%Q /\ x_offset (fst r) = 0%Q /\ x_units (fst r) = None
  end.
Proof.
  intros shape items ax ind named u l r (link & a & n & E & U) H. unfold named_axis in H. rewrite E in H. cbn [bind attrs_of] in H.
  assert (U' : match lookup (str "units") a with Some c => parse_attr c | None => MText [] end = MText u).
  { destruct (lookup (str "units") a); [exact U|]. rewrite U. reflexivity. }
  rewrite U' in H. cbn [bind] in H. destruct (remove_int ind named) as [m|] eqn:R; [|discriminate]. cbn [bind] in H.
  unfold at_ in H. destruct (nth_error shape (Z.to_nat ind)) as [k|] eqn:K; [|discriminate]. cbn [bind] in H.
  destruct l as [|p [|q l]]; [discriminate| |].
  - injection H as <-. cbn. repeat split; reflexivity.
  - injection H as <-. cbn [fst snd].
    destruct (is_linear (p :: q :: l)); cbn [x_index x_name x_nav x_size x_scale x_offset x_units]; repeat split; try reflexivity.
Qed.

(** Values at equal steps upwards: the axis gives each value back, with its units. *)
Theorem C118_even : forall shape items ax ind named u l r o s,
  stored items ax u l -> named_axis shape items ax ind named = Ok r ->
  (2 <= List.length l)%nat -> even o s l -> (0 <= s)%Q ->
  (x_scale (fst r) == s)%Q /\ (x_offset (fst r) == o)%Q /\ x_units (fst r) = Some u /\ nth_error shape (Z.to_nat ind) = Some (x_size (fst r)) /\
  (forall i q, nth_error l i = Some q -> (x_offset (fst r) + x_scale (fst r) * iq i == q)%Q).
Proof.
  intros shape items ax ind named u l r o s St H Hl He Hs. pose proof (named_spec _ _ _ _ _ _ _ _ St H) as (_ & _ & _ & _ & A).
  destruct l as [|p [|q l]]; cbn [List.length] in Hl; [lia|lia|]. rewrite (even_linear _ _ _ He) in A. destruct A as (A & B & C & D).
  assert (P : (p == o)%Q) by (rewrite (He 0%nat p eq_refl); unfold iq; cbn; ring).
  assert (Q1 : (q == o + s)%Q) by (rewrite (He 1%nat q eq_refl); unfold iq; cbn; ring).
  assert (S1 : (x_scale (fst r) == s)%Q).
  { rewrite B, P, Q1. setoid_replace (o + s - o)%Q with s by ring. apply Qabs_pos. exact Hs. }
  assert (O1 : (x_offset (fst r) == o)%Q).
  { rewrite C. assert (L : (p <= last (p :: q :: l) p)%Q).
    { rewrite (He _ _ (last_nth _ (q :: l) p p)), P. pose proof (iq_pos (List.length (q :: l))). nra. }
    apply Q.min_l in L. rewrite L. exact P. }
  repeat split; try assumption. intros i v Hv. rewrite S1, O1. symmetry. exact (He i v Hv).
Qed.
(** Values at equal steps downwards come out in the opposite order. *)
Theorem C118_mirror : forall shape items ax ind named u l r o s,
  stored items ax u l -> named_axis shape items ax ind named = Ok r ->
  (2 <= List.length l)%nat -> even o s l -> (s < 0)%Q ->
  (x_scale (fst r) == - s)%Q /\ x_units (fst r) = Some u /\
  (forall i j q, nth_error l j = Some q -> (i + j = List.length l - 1)%nat -> (x_offset (fst r) + x_scale (fst r) * iq i == q)%Q).
Proof.
  intros shape items ax ind named u l r o s St H Hl He Hs. pose proof (named_spec _ _ _ _ _ _ _ _ St H) as (_ & _ & _ & _ & A).
  destruct l as [|p [|q l]]; cbn [List.length] in Hl; [lia|lia|]. rewrite (even_linear _ _ _ He) in A. destruct A as (A & B & C & D).
  assert (P : (p == o)%Q) by (rewrite (He 0%nat p eq_refl); unfold iq; cbn; ring).
  assert (Q1 : (q == o + s)%Q) by (rewrite (He 1%nat q eq_refl); unfold iq; cbn; ring).
  assert (S1 : (x_scale (fst r) == - s)%Q).
  { rewrite B, P, Q1. setoid_replace (o + s - o)%Q with s by ring. apply Qabs_neg. lra. }
  assert (O1 : (x_offset (fst r) == o + s * iq (List.length (q :: l)))%Q).
  { rewrite C. assert (L : (last (p :: q :: l) p == o + s * iq (List.length (q :: l)))%Q) by (apply He, last_nth).
    assert (L' : (last (p :: q :: l) p <= p)%Q) by (rewrite L, P; pose proof (iq_pos (List.length (q :: l))); nra).
    apply Q.min_r in L'. rewrite L'. exact L. }
  repeat split; try assumption. intros i j v Hv Hij. rewrite S1, O1, (He _ _ Hv).
  assert (E : (iq (List.length (q :: l)) == iq i + iq j)%Q).
  { cbn [List.length] in *. unfold iq. rewrite <- inject_Z_plus. replace (Z.of_nat (S (List.length l))) with (Z.of_nat i + Z.of_nat j) by lia. reflexivity. }
  rewrite E. ring.
Qed.
(** Other values: nothing is kept but the name; a step is off when it is not within 10^-8 plus 10^-5 of itself from the first one. *)
Theorem C118_uneven : forall shape items ax ind named u l r i a b c d,
  stored items ax u l -> named_axis shape items ax ind named = Ok r ->
  nth_error l 0 = Some a -> nth_error l 1 = Some b -> nth_error l i = Some c -> nth_error l (S i) = Some d ->
  ((1 # 100000000) + (1 # 100000) * Qabs (d - c) < Qabs ((b - a) - (d - c)))%Q ->
  x_scale (fst r) = 1%Q /\ x_offset (fst r) = 0%Q /\ x_units (fst r) = None /\ x_name (fst r) = Some ax /\ nth_error shape (Z.to_nat ind) = Some (x_size (fst r)).
Proof.
  intros shape items ax ind named u l r i a b c d St H Ha Hb Hc Hd Hfar. pose proof (named_spec _ _ _ _ _ _ _ _ St H) as (_ & N & _ & _ & A).
  assert (F : is_linear l = false).
  { apply not_true_iff_false. intros L. pose proof (proj1 (is_linear_spec l) L i (b - a)%Q (d - c)%Q) as C.
    assert (C' : close (b - a) (d - c) = true) by (apply C; apply diffs_nth; eauto). apply close_spec in C'. lra. }
  destruct l as [|p [|q l]]; [discriminate|discriminate|]. rewrite F in A. destruct A as (A & B & C & D). auto.
Qed.
(** What is taken as equal steps is close to it: the value in place i is off by no more than i times the largest tolerance. *)
Theorem C118_tolerance : forall shape items ax ind named u l r m i q,
  stored items ax u l -> named_axis shape items ax ind named = Ok r -> (2 <= List.length l)%nat ->
  (forall j a b, nth_error l j = Some a -> nth_error l (S j) = Some b -> (a <= b /\ b - a <= m)%Q) ->
  x_units (fst r) <> None -> nth_error l i = Some q ->
  (Qabs (x_offset (fst r) + x_scale (fst r) * iq i - q) <= iq i * ((1 # 100000000) + (1 # 100000) * m))%Q.
Proof.
  intros shape items ax ind named u l r m i q St H Hl Hm Hu Hi. pose proof (named_spec _ _ _ _ _ _ _ _ St H) as (_ & _ & _ & _ & A).
  destruct l as [|p [|p' l]]; cbn [List.length] in Hl; [lia|lia|].
  destruct (is_linear (p :: p' :: l)) eqn:L; [|destruct A as (_ & _ & _ & A); congruence]. destruct A as (_ & B & C & _).
  set (w := p :: p' :: l) in *.
  destruct (Hm 0%nat p p' eq_refl eq_refl) as [M1 _].
  assert (S1 : (x_scale (fst r) == p' - p)%Q) by (rewrite B; apply Qabs_pos; lra).
  assert (Up : forall j v, nth_error w j = Some v -> (p <= v)%Q).
  { induction j as [|j IH]; intros v Hv; [injection Hv as <-; lra|].
    destruct (nth_error w j) as [v'|] eqn:E.
    - specialize (IH v' eq_refl). destruct (Hm j v' v E Hv). lra.
    - apply nth_error_None in E. assert (nth_error w (S j) <> None) by congruence. apply nth_error_Some in H0. lia. }
  assert (O1 : (x_offset (fst r) == p)%Q).
  { rewrite C. pose proof (Up _ _ (last_nth _ (p' :: l) p p)) as U. apply Q.min_l in U. exact U. }
  rewrite S1, O1. revert q Hi. induction i as [|i IH]; intros q Hi.
  - injection Hi as <-. setoid_replace (p + (p' - p) * iq 0 - p)%Q with 0%Q by (unfold iq; cbn; ring). unfold iq. cbn. rewrite Qmult_0_l. apply Qle_refl.
  - destruct (nth_error w i) as [v|] eqn:E.
    2:{ apply nth_error_None in E. assert (nth_error w (S i) <> None) by congruence. apply nth_error_Some in H0. lia. }
    specialize (IH v eq_refl). destruct (Hm i v q E Hi) as [M2 M3].
    assert (Cl : close (p' - p) (q - v) = true).
    { apply (proj1 (is_linear_spec w) L i); apply diffs_nth; [exists p, p'|exists v, q]; auto. }
    apply close_spec in Cl.
    setoid_replace (p + (p' - p) * iq (S i) - q)%Q with ((p + (p' - p) * iq i - v) + ((p' - p) - (q - v)))%Q by (rewrite iq_S; ring).
    rewrite iq_S. eapply Qle_trans; [apply Qabs_triangle|]. rewrite (Qabs_pos (q - v)) in Cl by lra. lra.
Qed.
(** One value: it is the offset. *)
Theorem C118_single : forall shape items ax ind named u q r,
  stored items ax u [q] -> named_axis shape items ax ind named = Ok r ->
  x_size (fst r) = 1 /\ x_scale (fst r) = 1%Q /\ x_offset (fst r) = q /\ x_units (fst r) = Some u.
Proof. intros shape items ax ind named u q r St H. pose proof (named_spec _ _ _ _ _ _ _ _ St H) as (_ & _ & _ & _ & A). exact A. Qed.
(** An axis which is not there, which is a group, a text or a single number is refused; and so is one without values. *)
Theorem C118_refused : forall shape items ax ind named r,
  named_axis shape items ax ind named = Ok r -> exists link a n l, lookup ax items = Some (link, Data a (CArr [n] l)) /\ l <> [].
Proof.
  intros shape items ax ind named r H. unfold named_axis in H. destruct (lookup ax items) as [[link d]|]; [|discriminate]. cbn [bind] in H.
  apply bind_ok in H. destruct H as (u & _ & H). apply bind_ok in H. destruct H as (m & _ & H).
  destruct d as [?|a c]; [discriminate|]. cbn [bind] in H. destruct c as [| | |[|n [|]] l]; try discriminate.
  exists link, a, n, l. split; [reflexivity|]. intros ->. apply bind_ok in H. destruct H as (k & _ & H). discriminate.
Qed.

(** * All axes *)
Lemma named_ok : forall shape items ax ind named u l m k,
  stored items ax u l -> l <> [] -> remove_int ind named = Ok m -> nth_error shape (Z.to_nat ind) = Some k ->
  exists x, named_axis shape items ax ind named = Ok (x, m) /\ x_index x = ind /\ x_name x = Some ax /\ x_nav x = true /\
            x_size x = (if (List.length l =? 1)%nat then 1 else k).
Proof.
  intros shape items ax ind named u l m k (link & a & n & E & U) Hl R K. unfold named_axis. rewrite E. cbn [bind attrs_of].
  assert (U' : match lookup (str "units") a with Some c => parse_attr c | None => MText [] end = MText u).
  { destruct (lookup (str "units") a); [exact U|]. rewrite U. reflexivity. }
  rewrite U', R. unfold at_. rewrite K. cbn [bind].
  destruct l as [|p [|q l]]; [congruence|eexists; repeat split; reflexivity|].
  destruct (is_linear (p :: q :: l)); eexists; repeat split; reflexivity.
Qed.
Lemma remove_head : forall i a b, (forall j, In j a -> j <> i) -> remove_int i (a ++ i :: b) = Ok (a ++ b).
Proof.
  induction a as [|j a IH]; intros b H; cbn [app remove_int].
  - rewrite Z.eqb_refl. reflexivity.
  - destruct (Z.eqb_spec j i) as [->|]; [destruct (H i); cbn; auto|]. rewrite IH by (intros k Hk; apply H; right; exact Hk). reflexivity.
Qed.
Lemma remove_none : forall i l, ~ In i l -> remove_int i l = Err ValueError.
Proof.
  induction l as [|j l IH]; intros H; cbn [remove_int]; [reflexivity|]. destruct (Z.eqb_spec j i) as [->|]; [destruct H; cbn; auto|].
  rewrite IH; [reflexivity|]. intros K. apply H. right. exact K.
Qed.
Lemma remove_ok : forall i l m, remove_int i l = Ok m -> exists a b, l = a ++ i :: b /\ m = a ++ b /\ ~ In i a.
Proof.
  induction l as [|j l IH]; intros m H; [discriminate|]. cbn [remove_int] in H. destruct (Z.eqb_spec j i) as [->|Hne].
  - injection H as <-. exists [], l. auto.
  - apply bind_ok in H. destruct H as (r & Hr & H). injection H as <-. destruct (IH r Hr) as (a & b & -> & -> & Ha).
    exists (j :: a), b. repeat split; try reflexivity. intros [K|K]; auto.
Qed.
Definition dot : pystr := str ".".
Definition no_index (entry : attributes) (ax : pystr) : Prop := lookup (ax ++ str "_indices") entry = None.

(** One after the other: the names are on the dimensions in their order, and a dot is a dimension without description. *)
Lemma loop_order : forall shape entry items names i dots,
  List.length shape = (i + List.length names)%nat ->
  (forall j, In j dots -> 0 <= j < Z.of_nat i) ->
  (forall k ax, nth_error names k = Some ax -> ax <> dot -> index_of entry ax (Z.of_nat (i + k)) = Ok (Z.of_nat (i + k))) ->
  (forall ax, In ax names -> ax <> dot -> exists u l, stored items ax u l /\ l <> []) ->
  exists l, nav_loop shape entry items (List.length shape) (Z.of_nat i) (dots ++ zseq (Z.of_nat i) (List.length names)) (zlen dots) names = Ok l /\
    List.length l = List.length names /\
    forall k ax x, nth_error names k = Some ax -> nth_error l k = Some x ->
      x_index x = Z.of_nat (i + k) /\
      (ax = dot -> x_name x = None /\ x_scale x = 1%Q /\ x_offset x = 0%Q /\ x_units x = Some [] /\ x_nav x = false /\ nth_error shape (i + k) = Some (x_size x)) /\
      (ax <> dot -> exists named m, named_axis shape items ax (Z.of_nat (i + k)) named = Ok (x, m)).
Proof.
  intros shape entry items names. induction names as [|ax names IH]; intros i dots Hn Hd Hi Hs.
  - exists []. split; [reflexivity|]. split; [reflexivity|]. intros [|k] ax x H; discriminate.
  - cbn [List.length] in Hn. assert (Ki : (i < List.length shape)%nat) by lia. apply nth_error_Some in Ki.
    destruct (nth_error shape i) as [n|] eqn:En; [clear Ki|congruence].
    cbn [nav_loop List.length zseq]. destruct (eqb_str ax (str ".")) eqn:Ed.
    + apply eqb_str_spec in Ed. rewrite Nat.eqb_refl. unfold at_ at 1. unfold zlen at 1. rewrite Nat2Z.id, nth_error_app2, Nat.sub_diag by lia.
      cbn [nth_error bind]. unfold at_ at 1. rewrite Nat2Z.id, En. cbn [bind].
      destruct (IH (S i) (dots ++ [Z.of_nat i])) as (l & El & Ll & Pl).
      * lia.
      * intros j Hj. apply in_app_iff in Hj. destruct Hj as [Hj|[<-|[]]]; [apply Hd in Hj|]; lia.
      * intros k a Ha Hne. replace (S i + k)%nat with (i + S k)%nat by lia. apply Hi; assumption.
      * intros a Ha. apply Hs. right. exact Ha.
      * rewrite <- app_assoc in El. cbn [app] in El. rewrite Nat2Z.inj_succ, <- Z.add_1_r in El.
        replace (zlen (dots ++ [Z.of_nat i])) with (zlen dots + 1) in El by (unfold zlen; rewrite app_length; cbn [List.length]; lia).
        rewrite El. cbn [bind]. eexists. split; [reflexivity|]. split; [cbn [List.length]; lia|].
        intros [|k] a x Ha Hx.
        -- injection Ha as <-. injection Hx as <-. cbn [x_index x_name x_scale x_offset x_units x_nav x_size].
           rewrite Nat.add_0_r. repeat split; try reflexivity; [exact En|]. intros N. unfold dot in N. congruence.
        -- replace (i + S k)%nat with (S i + k)%nat by lia. exact (Pl k a x Ha Hx).
    + assert (Hne : ax <> dot) by (intros ->; unfold dot in Ed; rewrite eqb_str_refl in Ed; discriminate).
      pose proof (Hi 0%nat ax eq_refl Hne) as Hix. rewrite Nat.add_0_r in Hix. rewrite Hix. cbn [bind].
      destruct (Hs ax (or_introl eq_refl) Hne) as (u & v & Sv & Nv).
      assert (R : remove_int (Z.of_nat i) (dots ++ Z.of_nat i :: zseq (Z.of_nat i + 1) (List.length names)) = Ok (dots ++ zseq (Z.of_nat i + 1) (List.length names))).
      { apply remove_head. intros j Hj. apply Hd in Hj. lia. }
      destruct (named_ok shape items ax (Z.of_nat i) _ u v _ n Sv Nv R) as (x & Ex & X1 & X2 & X3 & X4); [rewrite Nat2Z.id; exact En|].
      rewrite Ex. cbn [bind fst snd].
      destruct (IH (S i) dots) as (l & El & Ll & Pl).
      * lia.
      * intros j Hj. apply Hd in Hj. lia.
      * intros k a Ha Hna. replace (S i + k)%nat with (i + S k)%nat by lia. apply Hi; assumption.
      * intros a Ha. apply Hs. right. exact Ha.
      * rewrite Nat2Z.inj_succ, <- Z.add_1_r in El. rewrite El. cbn [bind]. eexists. split; [reflexivity|]. split; [cbn [List.length]; lia|].
        intros [|k] a y Ha Hy.
        -- injection Ha as <-. injection Hy as <-. rewrite Nat.add_0_r. split; [exact X1|]. split; [intros N; congruence|]. intros _. eauto.
        -- replace (i + S k)%nat with (S i + k)%nat by lia. exact (Pl k a y Ha Hy).
Qed.
Lemma index_none : forall entry ax i, no_index entry ax -> index_of entry ax i = Ok i.
Proof. intros entry ax i H. unfold index_of. rewrite H. reflexivity. Qed.
(** The names as the attribute has them, with dots for the missing ones. *)
Definition attribute_names (c : content) (n : nat) (names : list pystr) : Prop :=
  match c with
  | CTexts fixed l => exists k, map (text_of fixed) l ++ repeat dot k = names /\ List.length names = n
  | CText fixed s => split_char 44 (text_of fixed s) = names /\ List.length names = n
  | _ => False
  end.
Lemma attribute_ok : forall c n names, attribute_names c n names -> axes_list n c = Ok names /\ List.length names = n.
Proof.
  intros c n names H. destruct c as [f s|f l|q|sh l]; cbn [attribute_names] in H; try contradiction; cbn [axes_list].
  - destruct H as [<- H]. split; [|exact H]. rewrite firstn_all2 by lia. reflexivity.
  - destruct H as (k & <- & H). split; [|exact H]. rewrite app_length, repeat_length, map_length in H.
    rewrite firstn_all2 by (rewrite map_length; lia). do 3 f_equal. rewrite map_length. lia.
Qed.
(** Axes listed by name, with or without their positions: one axis for each dimension, in order. *)
Theorem C118_order : forall shape entry items c names,
  lookup (str "axes") entry = Some c -> attribute_names c (List.length shape) names ->
  (forall k ax, nth_error names k = Some ax -> ax <> dot -> no_index entry ax \/ lookup (ax ++ str "_indices") entry = Some (CNum (inject_Z (Z.of_nat k)))) ->
  (forall ax, In ax names -> ax <> dot -> exists u l, stored items ax u l /\ l <> []) ->
  exists l, nav_list shape entry items = Ok l /\ List.length l = List.length shape /\
    forall k ax x, nth_error names k = Some ax -> nth_error l k = Some x ->
      x_index x = Z.of_nat k /\
      (ax = dot -> x_name x = None /\ x_scale x = 1%Q /\ x_offset x = 0%Q /\ x_units x = Some [] /\ x_nav x = false /\ nth_error shape k = Some (x_size x)) /\
      (ax <> dot -> exists named m, named_axis shape items ax (Z.of_nat k) named = Ok (x, m)).
Proof.
  intros shape entry items c names Hc Ha Hi Hs. destruct (attribute_ok _ _ _ Ha) as [E L]. unfold nav_list. rewrite Hc, E. cbn [bind]. rewrite L.
  assert (Hi' : forall k ax, nth_error names k = Some ax -> ax <> dot -> index_of entry ax (Z.of_nat k) = Ok (Z.of_nat k)).
  { intros k ax Hk Hne. destruct (Hi k ax Hk Hne) as [N|N]; [apply index_none; exact N|]. unfold index_of. rewrite N. unfold to_int, inject_Z. cbn [Qnum Qden].
    rewrite Z.quot_1_r. reflexivity. }
  destruct (loop_order shape entry items names 0 []) as (l & El & Ll & Pl).
  - lia.
  - intros j [].
  - intros k ax Hk Hne. apply Hi'; assumption.
  - exact Hs.
  - exists l. cbn [app] in El. rewrite L in El. split; [exact El|]. split; [lia|]. exact Pl.
Qed.

(** Axes listed by name with any positions: each axis has its own position. *)
Lemma loop_indices : forall shape entry items total names i named l,
  ~ In dot names -> nav_loop shape entry items total i named 0 names = Ok l -> NoDup named ->
  map x_name l = map Some names /\ NoDup (map x_index l) /\ incl (map x_index l) named /\
  (forall k ax x, nth_error names k = Some ax -> nth_error l k = Some x -> index_of entry ax (i + Z.of_nat k) = Ok (x_index x) /\
     exists m r, named_axis shape items ax (x_index x) m = Ok (x, r)).
Proof.
  intros shape entry items total. induction names as [|ax names IH]; intros i named l Hd H Hn.
  - injection H as <-. cbn. repeat split; try constructor; try (intros ? []). all: destruct k; discriminate.
  - cbn [nav_loop] in H. replace (eqb_str ax (str ".")) with false in H by (symmetry; apply eqb_str_neq; intros ->; apply Hd; left; reflexivity).
    apply bind_ok in H. destruct H as (ind & Hind & H). apply bind_ok in H. destruct H as ([x m] & Hx & H). cbn [fst snd] in H.
    apply bind_ok in H. destruct H as (r & Hr & H). injection H as <-.
    destruct (C118_refused _ _ _ _ _ _ Hx) as (link & a & n & v & E & Nv).
    assert (A : x_index x = ind /\ x_name x = Some ax /\ remove_int ind named = Ok m).
    { pose proof Hx as Hx'. unfold named_axis in Hx'. rewrite E in Hx'. cbn [bind attrs_of] in Hx'. apply bind_ok in Hx'. destruct Hx' as (u & Hu & Hx').
      apply bind_ok in Hx'. destruct Hx' as (m' & Hm & Hx'). cbn [bind] in Hx'. apply bind_ok in Hx'. destruct Hx' as (k & _ & Hx').
      destruct v as [|p [|q v]]; [discriminate| |]; injection Hx' as <- <-; [auto|]. destruct (is_linear (p :: q :: v)); auto. }
    destruct A as (A1 & A2 & A3). destruct (remove_ok _ _ _ A3) as (b1 & b2 & -> & -> & Nb).
    destruct (NoDup_remove _ _ _ Hn) as [N1 N2].
    destruct (IH (i + 1) (b1 ++ b2) r) as (I1 & I2 & I3 & I4); [intros K; apply Hd; right; exact K|exact Hr|exact N1|].
    cbn [map]. rewrite A1, A2, I1. repeat split.
    + constructor; [|exact I2]. intros K. apply I3 in K. exact (N2 K).
    + intros j [<-|Hj]; [apply in_app_iff; right; left; reflexivity|]. apply I3 in Hj. apply in_app_iff in Hj. apply in_app_iff.
      destruct Hj; [left|right; right]; assumption.
    + destruct k as [|k].
      * injection H as <-. injection H0 as <-. rewrite Z.add_0_r, A1. exact Hind.
      * cbn [nth_error] in *. replace (i + Z.of_nat (S k)) with (i + 1 + Z.of_nat k) by lia. destruct (I4 _ _ _ H H0) as [J _]. exact J.
    + destruct k as [|k].
      * injection H as <-. injection H0 as <-. rewrite A1. eauto.
      * destruct (I4 _ _ _ H H0) as [_ J]. exact J.
Qed.
Theorem C118_indices : forall shape entry items c names l,
  lookup (str "axes") entry = Some c -> attribute_names c (List.length shape) names -> ~ In dot names ->
  nav_list shape entry items = Ok l ->
  map x_name l = map Some names /\ NoDup (map x_index l) /\ (forall x, In x l -> 0 <= x_index x < zlen shape) /\
  forall k ax x q, nth_error names k = Some ax -> nth_error l k = Some x ->
    (no_index entry ax -> x_index x = Z.of_nat k) /\ (lookup (ax ++ str "_indices") entry = Some (CNum (inject_Z q)) -> x_index x = q) /\
    (forall n, nth_error shape (Z.to_nat (x_index x)) = Some n -> x_size x = n \/ x_size x = 1).
Proof.
  intros shape entry items c names l Hc Ha Hd H. destruct (attribute_ok _ _ _ Ha) as [E L]. unfold nav_list in H. rewrite Hc, E in H. cbn [bind] in H.
  destruct (loop_indices _ _ _ _ _ _ _ _ Hd H (NoDup_zseq _ _)) as (I1 & I2 & I3 & I4). split; [exact I1|]. split; [exact I2|]. split.
  - intros x Hx. assert (K : In (x_index x) (map x_index l)) by (apply in_map; exact Hx). apply I3 in K. apply in_zseq in K. unfold zlen. lia.
  - intros k ax x q Hk Hx. destruct (I4 k ax x Hk Hx) as (J & m & r & Hn). unfold index_of in J. split; [|split].
    + intros N. rewrite N in J. injection J as J. lia.
    + intros N. rewrite N in J. unfold to_int, inject_Z in J. cbn [Qnum Qden] in J. rewrite Z.quot_1_r in J. congruence.
    + intros n Hs. destruct (C118_refused _ _ _ _ _ _ Hn) as (link & a & w & v & Ev & Nv). unfold named_axis in Hn. rewrite Ev in Hn. cbn [bind attrs_of] in Hn.
      apply bind_ok in Hn. destruct Hn as (u & _ & Hn). apply bind_ok in Hn. destruct Hn as (m' & _ & Hn). cbn [bind] in Hn. unfold at_ in Hn. rewrite Hs in Hn. cbn [bind] in Hn.
      destruct v as [|p [|p' v]]; [discriminate| |]; injection Hn as Hn _; rewrite <- Hn; [right; reflexivity|]. left. destruct (is_linear (p :: p' :: v)); reflexivity.
Qed.
(** A position used twice, or beyond the dimensions, is refused. *)
Theorem C118_clash : forall shape items ax ind named u l,
  stored items ax u l -> ~ In ind named -> named_axis shape items ax ind named = Err ValueError.
Proof.
  intros shape items ax ind named u l (link & a & n & E & U) H. unfold named_axis. rewrite E. cbn [bind attrs_of].
  assert (U' : match lookup (str "units") a with Some c => parse_attr c | None => MText [] end = MText u).
  { destruct (lookup (str "units") a); [exact U|]. rewrite U. reflexivity. }
  rewrite U'. cbn [bind]. rewrite (remove_none _ _ H). reflexivity.
Qed.
(** Without the attribute there is no description. *)
Theorem C118_none : forall shape entry items, lookup (str "axes") entry = None -> nav_list shape entry items = Ok [].
Proof. intros shape entry items H. unfold nav_list. rewrite H. reflexivity. Qed.
(** A number where a name should be is refused. *)
Theorem C118_number : forall shape entry items c, lookup (str "axes") entry = Some c -> (exists q, c = CNum q) \/ (exists sh q l, c = CArr sh (q :: l) /\ shape <> []) ->
  exists e, nav_list shape entry items = Err e.
Proof.
  intros shape entry items c Hc H. unfold nav_list. rewrite Hc. destruct H as [(q & ->)|(sh & q & l & -> & Hs)]; cbn [axes_list].
  - destruct (List.length shape =? 0)%nat; eexists; reflexivity.
  - destruct shape; [congruence|]. eexists. reflexivity.
Qed.
Print Assumptions C118_even.
Print Assumptions C118_mirror.
Print Assumptions C118_uneven.
Print Assumptions C118_tolerance.
Print Assumptions C118_single.
Print Assumptions C118_refused.
Print Assumptions C118_order.
Print Assumptions C118_indices.
Print Assumptions C118_clash.
Print Assumptions C118_none.
Print Assumptions C118_number.
