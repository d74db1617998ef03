(** What is read of one dataset of an EMD (Berkeley) file, and of several datasets stacked (C113). *)
From Coq Require Import QArith Qabs.
From Verif Require Import Base Text HierModel Dict DistModel RowMajor RplModel SfsModel ImgModel ImgProps ProtoFile NcemModel.
Local Open Scope Z_scope.

(** The scale of regularly or irregularly spaced values is the mean step: (last - first) / (count - 1) *)
Definition calibrated (v : option (list Q)) (offset : Q) (scale : option Q) : Prop :=
  match v with
  | None => offset = 0%Q /\ scale = Some 1%Q
  | Some [] => False
  | Some [q] => offset = q /\ scale = None
  | Some (q :: l) => offset = q /\ exists s, scale = Some s /\ (s * inject_Z (zlen l) == last l q - q)%Q
  end.
Lemma diffs_len : forall l q, List.length (diffs (q :: l)) = List.length l.
Proof. induction l as [|b l IH]; intro q; [reflexivity|]. change (diffs (q :: b :: l)) with ((b - q)%Q :: diffs (b :: l)). cbn [List.length]. rewrite IH. reflexivity. Qed.
Lemma last_cons : forall (l : list Q) b q, last (b :: l) q = last l b.
Proof. induction l as [|c l IH]; intros b q; [reflexivity|]. change (last (b :: c :: l) q) with (last (c :: l) q). rewrite !IH. reflexivity. Qed.
Lemma diffs_sum : forall l q, (qsum (diffs (q :: l)) == last l q - q)%Q.
Proof.
  induction l as [|b l IH]; intro q; [cbn; ring|]. change (diffs (q :: b :: l)) with ((b - q)%Q :: diffs (b :: l)). change (qsum ((b - q)%Q :: diffs (b :: l))) with (b - q + qsum (diffs (b :: l)))%Q. rewrite IH, last_cons. ring.
Qed.
Lemma parse_axis_ok : forall d, d_values d <> Some [] -> exists o s, parse_axis d = Ok (o, s) /\ calibrated (d_values d) o s.
Proof.
  intros d H. unfold parse_axis. destruct (d_values d) as [[|q l]|]; [congruence| |exists 0%Q, (Some 1%Q); repeat split]. exists q, (mean (diffs (q :: l))). split; [reflexivity|]. destruct l as [|b l]; [split; reflexivity|]. cbn [calibrated]. split; [reflexivity|]. pose proof (diffs_sum (b :: l) q) as S. pose proof (diffs_len (b :: l) q) as L. unfold mean. destruct (diffs (q :: b :: l)) as [|x r] eqn:D; [discriminate L|]. eexists. split; [reflexivity|]. rewrite <- S. unfold zlen. rewrite L. field. cbn [List.length]. intro E. unfold Qeq, inject_Z in E. cbn [Qnum Qden] in E. lia.
Qed.
Lemma parse_axis_inv : forall d o s, parse_axis d = Ok (o, s) -> calibrated (d_values d) o s.
Proof. intros d o s H. destruct (d_values d) as [[|q l]|] eqn:V; [unfold parse_axis in H; rewrite V in H; discriminate H| |]; (destruct (parse_axis_ok d) as (o' & s' & E & C); [rewrite V; discriminate|]; rewrite E in H; injection H as <- <-; rewrite V in C; exact C). Qed.

Section Reading.
  Variable pint : pystr -> option pystr.
  Notation parse_units := (parse_units pint).
  Notation parse_dim := (parse_dim pint).
  Notation read_groups := (read_groups pint).
  (** An axis of a result, from the dataset of a dimension *)
  Definition axis_from (d : dset) (index size : Z) (navigate : bool) (x : axis) : Prop :=
    x_index x = index /\ x_size x = size /\ x_navigate x = navigate /\ x_name x = d_name d /\ x_units x = option_map parse_units (d_units d) /\ calibrated (d_values d) (x_offset x) (x_scale x).
  (** Which dimensions of simulated files are signal dimensions *)
  Definition navigates (f : file) (name : pystr) (k : Z) : bool :=
    is_prismatic f && (if eqb_str name (str "datacube") then negb ((3 <=? k) && (k <=? 4)) else negb ((1 <=? k) && (k <=? 2))).
  Lemma navigates_model : forall f name k, is_prismatic f && negb (if eqb_str name (str "datacube") then (k =? 3) || (k =? 4) else (k =? 1) || (k =? 2)) = navigates f name k.
  Proof. intros f name k. unfold navigates. destruct (eqb_str name (str "datacube")); destruct (is_prismatic f); cbn [andb]; lia. Qed.
  Lemma parse_dim_ok : forall f g name sh a k d, get f (dim_path g k) = Some (Dataset d) -> d_values d <> Some [] ->
    exists x, parse_dim f g name sh (a, k) = Ok x /\ axis_from d a (nth (Z.to_nat a) sh 0) (navigates f name k) x.
  Proof.
    intros f g name sh a k d G V. unfold NcemModel.parse_dim. rewrite G. destruct (parse_axis_ok d V) as (o & s & P & C). rewrite P. cbn [bind fst snd]. eexists. split; [reflexivity|]. unfold axis_from. cbn [x_index x_size x_navigate x_name x_units x_offset x_scale]. rewrite navigates_model. repeat split; try reflexivity. exact C.
  Qed.
  Lemma parse_dim_inv : forall f g name sh a k x, parse_dim f g name sh (a, k) = Ok x -> exists d, get f (dim_path g k) = Some (Dataset d) /\ axis_from d a (nth (Z.to_nat a) sh 0) (navigates f name k) x.
  Proof.
    intros f g name sh a k x H. unfold NcemModel.parse_dim in H. destruct (get f (dim_path g k)) as [[b at_|d]|] eqn:G; try discriminate H. exists d. split; [reflexivity|]. apply bind_ok in H. destruct H as ([o s] & P & H). injection H as <-. apply parse_axis_inv in P. unfold axis_from. cbn [x_index x_size x_navigate x_name x_units x_offset x_scale fst snd]. rewrite navigates_model. repeat split; try reflexivity. exact P.
  Qed.
  Lemma nth_error_combine' : forall A B (l : list A) (m : list B) i a b, nth_error l i = Some a -> nth_error m i = Some b -> nth_error (combine l m) i = Some (a, b).
  Proof. intros A B l. induction l as [|x l IH]; intros m [|i] a b H K; try discriminate H; destruct m as [|y m]; try discriminate K; cbn [combine nth_error] in *; [congruence|]. apply IH; assumption. Qed.
  Lemma nth_error_rev : forall A (l : list A) i, (i < List.length l)%nat -> nth_error (rev l) i = nth_error l (List.length l - 1 - i).
  Proof.
    intros A l i H. destruct (nth_error l (List.length l - 1 - i)) as [x|] eqn:E; [|apply nth_error_None in E; lia]. pose proof (nth_error_nth _ _ x E) as N. rewrite (nth_error_nth' _ x) by (rewrite rev_length; exact H). rewrite rev_nth by exact H. f_equal. etransitivity; [|exact N]. f_equal. lia.
  Qed.
  (** dimension numbers in the order of the axes of the result *)
  Lemma numbers_nth : forall (turned : bool) c n j, (j < n)%nat -> nth_error (if turned then rev (zseq c n) else zseq c n) j = Some (c + Z.of_nat (if turned then n - 1 - j else j)).
  Proof. intros turned c n j H. destruct turned; [|apply nth_error_zseq; exact H]. rewrite nth_error_rev by (rewrite zseq_length; exact H). rewrite zseq_length, nth_error_zseq by lia. f_equal. Qed.
  Lemma mapM_nth : forall A B (f : A -> res B) l r, mapM f l = Ok r -> List.length r = List.length l /\ forall i x, nth_error l i = Some x -> exists y, nth_error r i = Some y /\ f x = Ok y.
  Proof.
    intros A B f l. induction l as [|x l IH]; intros r H; cbn [mapM] in H; [injection H as <-; split; [reflexivity|intros [|i] x; discriminate]|]. apply bind_ok in H. destruct H as (y & Y & H). apply bind_ok in H. destruct H as (ys & YS & H). injection H as <-. destruct (IH _ YS) as [L N]. split; [cbn [List.length]; rewrite L; reflexivity|]. intros [|i] z Z; cbn [nth_error] in *; [injection Z as <-; exists y; split; [reflexivity|exact Y]|exact (N _ _ Z)].
  Qed.
  (** The axes, from the numbers of array axes and of dimensions *)
  Definition described_axes (f : file) (g name : pystr) (sh : list Z) (first dim0 : Z) (turned : bool) (n : nat) (axes : list axis) : Prop :=
    List.length axes = n /\ forall j, (j < n)%nat -> exists x d, nth_error axes j = Some x /\ get f (dim_path g (dim0 + Z.of_nat (if turned then n - 1 - j else j))) = Some (Dataset d) /\
      axis_from d (first + Z.of_nat j) (nth (Z.to_nat (first + Z.of_nat j)) sh 0) (navigates f name (dim0 + Z.of_nat (if turned then n - 1 - j else j))) x.
  Lemma axes_read : forall f g name sh first dim0 (turned : bool) n axes, mapM (parse_dim f g name sh) (combine (zseq first n) (if turned then rev (zseq dim0 n) else zseq dim0 n)) = Ok axes -> described_axes f g name sh first dim0 turned n axes.
  Proof.
    intros f g name sh first dim0 turned n axes H. destruct (mapM_nth _ _ _ _ _ H) as [L N]. assert (LL : List.length (if turned then rev (zseq dim0 n) else zseq dim0 n) = n) by (destruct turned; rewrite ?rev_length; apply zseq_length). rewrite combine_length, zseq_length, LL, Nat.min_id in L. split; [exact L|]. intros j J.
    destruct (N j _ (nth_error_combine' _ _ _ _ _ _ _ (nth_error_zseq n first j J) (numbers_nth turned dim0 n j J))) as (x & X & P). apply parse_dim_inv in P. destruct P as (d & G & A). exists x, d. split; [exact X|]. split; [exact G|exact A].
  Qed.
  Lemma axes_there : forall f g name sh first dim0 (turned : bool) n, (forall m, (m < n)%nat -> exists d, get f (dim_path g (dim0 + Z.of_nat m)) = Some (Dataset d) /\ d_values d <> Some []) ->
    exists axes, mapM (parse_dim f g name sh) (combine (zseq first n) (if turned then rev (zseq dim0 n) else zseq dim0 n)) = Ok axes.
  Proof.
    intros f g name sh first dim0 turned n H. destruct (mapM_ok _ _ (parse_dim f g name sh) (combine (zseq first n) (if turned then rev (zseq dim0 n) else zseq dim0 n))) as (ys & E & _); [|exists ys; exact E]. intros [a k] I. apply in_combine_r in I. assert (K : In k (zseq dim0 n)) by (destruct turned; [apply in_rev; exact I|exact I]). apply in_zseq in K. destruct (H (Z.to_nat (k - dim0))) as (d & G & V); [lia|]. replace (dim0 + Z.of_nat (Z.to_nat (k - dim0))) with k in G by lia. destruct (parse_dim_ok f g name sh a k d G V) as (x & X & _). exists x. exact X.
  Qed.

  (** * One dataset *)
  (** In files with a dimension 0 the dimensions are counted from 0; these, and datacubes, are not turned around. *)
  Definition from_zero (f : file) (g : pystr) : Prop := get f (dim_path g 0) <> None.
  Definition kept_order (f : file) (g name : pystr) : Prop := name = str "datacube" \/ from_zero f g.
  Lemma present_spec : forall f p, present f p = true <-> get f p <> None.
  Proof. intros f p. unfold present. destruct (get f p); split; congruence. Qed.
  Definition counted_from (f : file) (g : pystr) : Z := if present f (dim_path g 0) then 0 else 1.
  Theorem C113_one : forall f g name title om d, get f (g ++ slash ++ name) = Some (Dataset d) ->
    let n := List.length (a_shape (d_array d)) in
    forall turned first, (turned = false <-> kept_order f g name) -> (from_zero f g /\ first = 0 \/ ~ from_zero f g /\ first = 1) ->
    (forall m, (m < n)%nat -> exists dim, get f (dim_path g (first + Z.of_nat m)) = Some (Dataset dim) /\ d_values dim <> Some []) ->
    exists a axes, read_groups f [g] name title om = Ok (a, axes) /\
      (a_shape a = if turned then rev (a_shape (d_array d)) else a_shape (d_array d)) /\ (forall i, a_at a i = a_at (d_array d) (if turned then rev i else i)) /\
      (* the axis of the result which comes from an axis of the stored array is described by the dimension of that axis *)
      List.length axes = n /\ forall j, (j < n)%nat -> let m := if turned then (n - 1 - j)%nat else j in
        exists x dim, nth_error axes j = Some x /\ get f (dim_path g (first + Z.of_nat m)) = Some (Dataset dim) /\ axis_from dim (Z.of_nat j) (nth m (a_shape (d_array d)) 0) (navigates f name (first + Z.of_nat m)) x.
  Proof.
    intros f g name title om d G n turned first T F D. unfold NcemModel.read_groups. cbn [hd]. cbn [mapM]. unfold read_dataset at 1. rewrite G. cbn [bind mapM all_there].
    assert (TM : negb (eqb_str name (str "datacube")) && negb (present f (dim_path g 0)) = turned).
    { destruct (eqb_str name (str "datacube")) eqn:E; [apply eqb_str_spec in E|apply eqb_str_neq in E]; destruct (present f (dim_path g 0)) eqn:P; [apply present_spec in P|apply not_true_iff_false in P; rewrite present_spec in P|apply present_spec in P|apply not_true_iff_false in P; rewrite present_spec in P]; cbn [negb andb]; symmetry.
      - apply T. left. exact E. - apply T. left. exact E. - apply T. right. exact P.
      - destruct turned; [reflexivity|]. destruct (proj1 T eq_refl) as [K|K]; [contradiction|]. exfalso. exact (P K). }
    assert (FM : (if present f (dim_path g 0) then 0 else 1) = first).
    { destruct (present f (dim_path g 0)) eqn:P; [apply present_spec in P|apply not_true_iff_false in P; rewrite present_spec in P]; destruct F as [[A B]|[A B]]; try congruence; exfalso; [exact (A P)|exact (P A)]. }
    rewrite TM, FM. cbn [bind].
    assert (LEN : forall b : array, b = (if turned then transpose (d_array d) else d_array d) -> List.length (a_shape b) = n) by (intros b ->; destruct turned; [unfold transpose; cbn [a_shape]; rewrite rev_length|]; reflexivity).
    assert (SH : (if turned then map transpose [d_array d] else [d_array d]) = [if turned then transpose (d_array d) else d_array d]) by (destruct turned; reflexivity). rewrite SH. clear SH. rewrite (LEN _ eq_refl).
    destruct (axes_there f g name (a_shape (if turned then transpose (d_array d) else d_array d)) 0 first turned n D) as (axes & AX). rewrite AX. cbn [bind]. eexists. exists axes. split; [reflexivity|]. destruct (axes_read _ _ _ _ _ _ _ _ _ AX) as [L N].
    split; [destruct turned; reflexivity|]. split; [intro i; destruct turned; reflexivity|]. split; [exact L|]. intros j J. set (m := if turned then (n - 1 - j)%nat else j). destruct (N j J) as (x & dim & X & GD & A). exists x, dim. split; [exact X|]. split; [exact GD|]. replace (nth m (a_shape (d_array d)) 0) with (nth (Z.to_nat (0 + Z.of_nat j)) (a_shape (if turned then transpose (d_array d) else d_array d)) 0); [exact A|]. replace (Z.to_nat (0 + Z.of_nat j)) with j by lia. unfold m. destruct turned; [|reflexivity]. unfold transpose. cbn [a_shape]. rewrite rev_nth by exact J. f_equal. unfold n. lia.
  Qed.

  (** * Several datasets *)
  Lemma all_there_ok : forall l, all_there (map Some l) = Ok l.
  Proof. induction l as [|a l IH]; [reflexivity|]. cbn [map all_there]. rewrite IH. reflexivity. Qed.
  Lemma datasets_read : forall f name gs ds, Forall2 (fun g d => get f (g ++ slash ++ name) = Some (Dataset d)) gs ds -> mapM (read_dataset f name) gs = Ok (map Some (map d_array ds)).
  Proof. intros f name gs ds H. induction H as [|g d gs ds G H IH]; [reflexivity|]. cbn [mapM map]. unfold read_dataset at 1. rewrite G. cbn [bind]. rewrite IH. reflexivity. Qed.
  Lemma eqb_zs_refl : forall s, eqb_zs s s = true.
  Proof. induction s as [|x s IH]; [reflexivity|]. cbn [eqb_zs]. rewrite Z.eqb_refl, IH. reflexivity. Qed.
  (** Two or more datasets of one shape without axes of size 1, counted from 1: the first axis counts the datasets, every other axis is described by its dimension in the first group *)
  Theorem C113_stack : forall f g gs d ds name title om sh x0, Forall2 (fun g d => get f (g ++ slash ++ name) = Some (Dataset d)) (g :: gs) (d :: ds) -> gs <> [] ->
    Forall (fun d => a_shape (d_array d) = sh) (d :: ds) -> Forall (fun k => k <> 1) sh -> ~ from_zero f g ->
    let n := List.length sh in let count := Z.of_nat (List.length (g :: gs)) in
    stack_axis f count title om = Ok x0 ->
    (forall m, (m < n)%nat -> exists dim, get f (dim_path g (1 + Z.of_nat m)) = Some (Dataset dim) /\ d_values dim <> Some []) ->
    forall turned, (turned = false <-> name = str "datacube") ->
    exists a axes, read_groups f (g :: gs) name title om = Ok (a, x0 :: axes) /\ x_index x0 = 0 /\ x_size x0 = count /\ x_name x0 = Some title /\ x_navigate x0 = true /\
      a_shape a = count :: (if turned then rev sh else sh) /\
      (forall k e, nth_error (d :: ds) k = Some e -> forall i, List.length i = n -> a_at a (Z.of_nat k :: i) = a_at (d_array e) (if turned then rev i else i)) /\
      List.length axes = n /\ forall j, (j < n)%nat -> let m := if turned then (n - 1 - j)%nat else j in
        exists x dim, nth_error axes j = Some x /\ get f (dim_path g (1 + Z.of_nat m)) = Some (Dataset dim) /\ axis_from dim (Z.of_nat (S j)) (nth m sh 0) (navigates f name (1 + Z.of_nat m)) x.
  Proof.
    intros f g gs d ds name title om sh x0 G NE SH NO Z0 n count X0 D turned T. unfold NcemModel.read_groups. cbn [hd].
    assert (P : present f (dim_path g 0) = false) by (apply not_true_iff_false; rewrite present_spec; exact Z0). rewrite P.
    assert (TM : negb (eqb_str name (str "datacube")) && negb false = turned).
    { destruct (eqb_str name (str "datacube")) eqn:E; [apply eqb_str_spec in E|apply eqb_str_neq in E]; cbn [negb andb]; symmetry; [apply T; exact E|]. destruct turned; [reflexivity|]. exfalso. apply E. apply T. reflexivity. }
    rewrite TM, (datasets_read _ _ _ _ G). cbn [bind]. rewrite all_there_ok. cbn [bind].
    pose proof G as LG. apply Forall2_length in LG. destruct ds as [|d2 ds]; [destruct gs; [congruence|discriminate LG]|].
    set (turn := fun a : array => if turned then transpose a else a).
    assert (ML : (if turned then map transpose (map d_array (d :: d2 :: ds)) else map d_array (d :: d2 :: ds)) = map turn (map d_array (d :: d2 :: ds))) by (unfold turn; destruct turned; [reflexivity|rewrite map_id; reflexivity]). rewrite ML. cbn [map].
    set (rest := turn (d_array d2) :: map turn (map d_array ds)).
    assert (TS : forall e, In e (d :: d2 :: ds) -> a_shape (turn (d_array e)) = if turned then rev sh else sh).
    { intros e I. pose proof (proj1 (Forall_forall _ _) SH e I) as S. unfold turn. destruct turned; [unfold transpose; cbn [a_shape]; rewrite S; reflexivity|exact S]. }
    assert (ST : forallb (fun b => eqb_zs (a_shape b) (a_shape (turn (d_array d)))) rest = true).
    { apply forallb_forall. intros b B. unfold rest in B. change (turn (d_array d2) :: map turn (map d_array ds)) with (map turn (map d_array (d2 :: ds))) in B. rewrite map_map in B. apply in_map_iff in B. destruct B as (e & <- & E). rewrite (TS e (or_intror E)), (TS d (or_introl eq_refl)). apply eqb_zs_refl. }
    unfold stack. rewrite ST. cbn [bind].
    assert (ZL : zlen (turn (d_array d) :: rest) = count) by (unfold zlen, rest, count; cbn [List.length]; rewrite !map_length; cbn [List.length] in LG; lia). rewrite ZL, X0. cbn [bind].
    assert (CO : count <> 1) by (unfold count; destruct gs; [congruence|cbn [List.length]; lia]).
    assert (NOT : Forall (fun k => k <> 1) (if turned then rev sh else sh)) by (destruct turned; [apply Forall_rev; exact NO|exact NO]).
    assert (ALL : Forall (fun k => k <> 1) (count :: (if turned then rev sh else sh))) by (constructor; assumption).
    set (big := {| a_shape := count :: a_shape (turn (d_array d)); a_at := fun i => match i with h :: i => a_at (nth (Z.to_nat h) (turn (d_array d) :: rest) none) i | [] => 0 end |}).
    assert (BS : a_shape big = count :: (if turned then rev sh else sh)) by (unfold big; cbn [a_shape]; rewrite (TS d (or_introl eq_refl)); reflexivity).
    assert (SQ : a_shape (NcemModel.squeeze big) = count :: (if turned then rev sh else sh)) by (unfold NcemModel.squeeze; cbn [a_shape]; rewrite BS; apply squeezed_id; exact ALL).
    assert (LN : (List.length (a_shape (NcemModel.squeeze big)) - 1)%nat = n) by (rewrite SQ; cbn [List.length]; destruct turned; rewrite ?rev_length; unfold n; lia).
    rewrite LN. destruct (axes_there f g name (a_shape (NcemModel.squeeze big)) 1 1 turned n D) as (axes & AX). rewrite AX. cbn [bind]. exists (NcemModel.squeeze big), axes. split; [reflexivity|].
    assert (XF : x_index x0 = 0 /\ x_size x0 = count /\ x_name x0 = Some title /\ x_navigate x0 = true).
    { unfold stack_axis in X0. apply bind_ok in X0. destruct X0 as ([[o s] u] & _ & X0). injection X0 as <-. repeat split; reflexivity. }
    destruct XF as (XI & XS & XN & XV). repeat (split; [assumption|]). split.
    { intros k e K i I. unfold NcemModel.squeeze. cbn [a_at]. rewrite BS, expand_id; [|exact ALL|cbn [List.length]; rewrite I; destruct turned; rewrite ?rev_length; reflexivity]. unfold big. cbn [a_at]. rewrite Nat2Z.id. change (turn (d_array d) :: rest) with (map turn (map d_array (d :: d2 :: ds))). rewrite map_map. rewrite (nth_error_nth _ _ none (map_nth_error (fun x => turn (d_array x)) _ _ K)). unfold turn. destruct turned; reflexivity. }
    destruct (axes_read _ _ _ _ _ _ _ _ _ AX) as [L N]. split; [exact L|]. intros j J. set (m := if turned then (n - 1 - j)%nat else j). destruct (N j J) as (x & dim & X & GD & A). exists x, dim. split; [exact X|]. split; [exact GD|]. replace (1 + Z.of_nat j) with (Z.of_nat (S j)) in A by lia. rewrite Nat2Z.id, SQ in A. cbn [nth] in A. replace (nth m sh 0) with (nth j (if turned then rev sh else sh) 0); [exact A|]. unfold m. destruct turned; [|reflexivity]. rewrite rev_nth by exact J. f_equal. unfold n. lia.
  Qed.
End Reading.
