(** Delmic files: metadata, what is returned and how angle-resolved images are merged (C110). *)
From Coq Require Import QArith Lia Permutation Sorted.
From Verif Require Import Base Text HierModel HierProps DistModel RowMajor DmcModel DmcOrder.
Local Open Scope Z_scope.

(** * Metadata *)
(** whether a value is kept *)
Definition kept (name : pystr) (i : item) : option value :=
  if i_dataset i then
    if eqb_str name (str "Title") then None
    else match i_state i, i_value i with States (s :: _), Ok v => if s =? 111 then None else Some v | _, _ => None end
  else None.
Definition has_state (i : item) : Prop := exists s r, i_state i = States (s :: r).

Lemma read_items_ok : forall l md, (forall name i, In (name, i) l -> i_dataset i = true -> name <> str "Title" -> has_state i) -> NoDup (map fst l) ->
  exists md', read_items l md = Ok md' /\
    (forall name, ~ In name (map fst l) -> lookup name md' = lookup name md) /\
    (forall name i, In (name, i) l -> lookup name md' = match kept name i with Some v => Some v | None => lookup name md end).
Proof.
  induction l as [|[name i] l IH]; intros md HS ND; cbn [read_items].
  { exists md. repeat split; auto. intros ? ? []. }
  inversion ND as [|? ? NI ND']; subst. cbn [fst] in NI.
  assert (exists md1, read_item name i md = Ok md1 /\ md1 = match kept name i with Some v => put name v md | None => md end) as (md1 & E1 & E2).
  { unfold read_item, kept. destruct (i_dataset i) eqn:D; cbn [negb]; [|eauto]. destruct (eqb_str name (str "Title")) eqn:T; [eauto|].
    destruct (HS name i (or_introl eq_refl) D) as (s & r & S). { intros ->. rewrite eqb_str_refl in T. discriminate. }
    rewrite S. cbn [bind]. destruct (s =? 111); [destruct (i_value i); eauto|]. destruct (i_value i); eauto. }
  rewrite E1. cbn [bind].
  destruct (IH md1) as (md' & R & L1 & L2); [intros; eapply HS; eauto; now right|auto|]. exists md'. split; [auto|].
  assert (lookup name md1 = match kept name i with Some v => Some v | None => lookup name md end) as K.
  { rewrite E2. destruct (kept name i); [|reflexivity]. rewrite lookup_put. now rewrite eqb_str_refl. }
  assert (forall n, n <> name -> lookup n md1 = lookup n md) as K'.
  { intros n Hn. rewrite E2. destruct (kept name i); [|reflexivity]. rewrite lookup_put. destruct (eqb_str n name) eqn:E; auto. apply eqb_str_spec in E. congruence. }
  split.
  - intros n Hn. cbn in Hn. rewrite L1 by tauto. apply K'. intros ->. tauto.
  - intros n j [H|H].
    + injection H as <- <-. rewrite L1 by auto. exact K.
    + rewrite (L2 n j H). assert (n <> name) as N. { intros ->. apply NI. change name with (fst (name, j)). now apply in_map. } now rewrite K'.
Qed.

(** every value which is valid and readable, and no other, is kept under its name *)
Theorem C110_metadata : forall g l svi date,
  g_physical g = Some l -> g_svi g = Some svi -> lookup (str "TOffset") (g_scales g) = Some [date] -> NoDup (map fst l) ->
  (forall name i, In (name, i) l -> i_dataset i = true -> name <> str "Title" -> has_state i) ->
  exists om, original_metadata g = Ok om /\ o_date om = date /\ o_group om = g_name g /\ lookup (str "AcquisitionDate") (o_values om) = Some (VNum date) /\
    (forall name i, In (name, i) l -> name <> str "AcquisitionDate" -> lookup name (o_values om) = kept name i) /\
    (forall name, ~ In name (map fst l) -> name <> str "AcquisitionDate" -> lookup name (o_values om) = None).
Proof.
  intros g l svi date HP HV HD ND HS. unfold original_metadata. rewrite HP. cbn [bind].
  destruct (read_items_ok l [] HS ND) as (md & -> & L1 & L2). cbn [bind]. rewrite HD. cbn [bind]. rewrite HV. cbn [bind].
  eexists. split; [reflexivity|]. cbn [o_date o_group o_values]. split; [reflexivity|]. split; [reflexivity|].
  split; [rewrite lookup_put, eqb_str_refl; reflexivity|].
  assert (forall n, n <> str "AcquisitionDate" -> lookup n (put (str "AcquisitionDate") (VNum date) md) = lookup n md) as K.
  { intros n Hn. rewrite lookup_put. destruct (eqb_str n (str "AcquisitionDate")) eqn:E; auto. apply eqb_str_spec in E. congruence. }
  split.
  - intros name i HI HN. rewrite K by auto. rewrite (L2 name i HI). destruct (kept name i); reflexivity.
  - intros name HI HN. rewrite K by auto. rewrite L1 by auto. reflexivity.
Qed.

(** * Merging of angle-resolved images *)
Lemma earlier_trans a b c : earlier a b = true -> earlier b c = true -> earlier a c = true.
Proof. unfold earlier. rewrite !Qle_bool_iff. apply Qle_trans. Qed.
Lemma earlier_total a b : earlier a b = false -> earlier b a = true.
Proof. unfold earlier. intros H. apply Qle_bool_iff. apply Qlt_le_weak. apply Qnot_le_lt. intros K. apply Qle_bool_iff in K. congruence. Qed.
Definition by_date (a b : signal) : Prop := (o_date (s_om a) <= o_date (s_om b))%Q.
Lemma insert_dates x : forall l, StronglySorted by_date l -> StronglySorted by_date (insert earlier x l).
Proof.
  induction l as [|y l IH]; intros S; cbn [insert]; [repeat constructor|]. inversion S as [|? ? S' F]; subst. destruct (earlier x y) eqn:E.
  - apply Qle_bool_iff in E. constructor; [auto|]. constructor; [exact E|]. eapply Forall_impl; [|apply F]. intros z Hz. unfold by_date in *. eapply Qle_trans; eauto.
  - apply earlier_total in E. apply Qle_bool_iff in E. constructor; [now apply IH|]. eapply Permutation_Forall; [apply insert_perm|]. now constructor.
Qed.
Lemma sort_dates : forall l, StronglySorted by_date (sort earlier l).
Proof. induction l as [|x l IH]; [constructor|]. unfold sort. cbn [fold_right]. now apply insert_dates. Qed.

Lemma all_same_const sh : forall l, (forall s, In s l -> s = sh) -> all_same l = true.
Proof.
  induction l as [|a l IH]; intros H; [reflexivity|]. destruct l as [|b l]; [reflexivity|]. cbn [all_same] in *.
  rewrite IH by (intros s Hs; apply H; now right). rewrite (H a), (H b) by (cbn; auto). rewrite andb_true_r. clear. induction sh as [|n sh IH]; [reflexivity|]. cbn. now rewrite Z.eqb_refl.
Qed.
Lemma flat_map_const {A B} (f : A -> list B) k d : forall l i j x, (forall x, In x l -> List.length (f x) = k) -> nth_error l i = Some x -> (j < k)%nat -> nth (i * k + j) (flat_map f l) d = nth j (f x) d.
Proof.
  induction l as [|y l IH]; intros i j x HL HI HJ; [destruct i; discriminate|]. cbn [flat_map]. destruct i as [|i].
  - injection HI as ->. cbn. rewrite app_nth1; [reflexivity|]. rewrite HL by (now left). lia.
  - rewrite app_nth2; rewrite HL by (now left); [|nia]. cbn in HI. replace (S i * k + j - k)%nat with (i * k + j)%nat by nia. apply IH; auto. intros z Hz. apply HL. now right.
Qed.

(** Y times X images, each of B by A elements, become one of four dimensions: the image at line y and column x is the one
    acquired (y X + x)-th *)
Theorem C110_merge : forall l se pre y x b a axes ay ax,
  a_shape (s_data se) = pre ++ [y; x] -> s_axes se = axes ++ [ay; ax] -> 0 < y -> 0 < x -> 0 <= b -> 0 <= a ->
  Z.of_nat (List.length l) = y * x ->
  (forall s, In s l -> a_shape (s_data s) = [1; 1; 1; b; a] /\ Z.of_nat (List.length (a_flat (s_data s))) = b * a) ->
  exists m dated first rest, merge_ar l se = Ok m /\ Permutation l dated /\ StronglySorted by_date dated /\ dated = first :: rest /\
    a_shape (s_data m) = [y; x; b; a] /\ fits m /\
    (forall i j u v s, 0 <= i < y -> 0 <= j < x -> 0 <= u < b -> 0 <= v < a -> nth_error dated (Z.to_nat (i * x + j)) = Some s ->
      element (s_data m) [i; j; u; v] = element (s_data s) [0; 0; 0; u; v]) /\
    map x_name (s_axes m) = [x_name ay; x_name ax; str "Angle B"; str "Angle A"] /\ firstn 2 (s_axes m) = [ay; ax] /\
    (s_title m, s_polarization m, s_om m, s_acq m) = (s_title first, s_polarization first, s_om first, s_acq first).
Proof.
  intros l se pre y x b a axes ay ax HSE HAX Hy Hx Hb Ha HL HS.
  assert (forall s, In s (sort earlier l) -> a_shape (s_data s) = [1; 1; 1; b; a] /\ Z.of_nat (List.length (a_flat (s_data s))) = b * a) as HD.
  { intros s H. apply HS. eapply Permutation_in; [symmetry; apply sort_perm|exact H]. }
  assert (List.length (sort earlier l) = List.length l) as LD by (symmetry; apply Permutation_length, sort_perm).
  unfold merge_ar. unfold last2 at 1. rewrite HSE, rev_app_distr. cbn [rev app bind]. rewrite HL. assert (x * y =? y * x = true) as -> by lia. cbn [negb].
  pose proof (sort_dates l) as SD. pose proof (sort_perm earlier l) as SP.
  destruct (sort earlier l) as [|first rest] eqn:E. { cbn in LD. nia. }
  destruct (HD first (or_introl eq_refl)) as [F1 F2]. unfold last2. rewrite F1. cbn [rev app bind].
  rewrite (all_same_const [1; 1; 1; b; a]). 2:{ intros s H. apply in_map_iff in H as (t & <- & Ht). now apply HS. }
  cbn [negb]. assert (prodZ (y * x :: [1; 1; 1; b; a]) =? y * (x * (b * a)) = true) as ->. { unfold prodZ. cbn [fold_right]. apply Z.eqb_eq. ring. }
  cbn [negb]. rewrite HAX, rev_app_distr. cbn [rev app bind].
  eexists _, (first :: rest), first, rest. split; [reflexivity|]. split; [auto|]. split; [auto|]. split; [reflexivity|]. cbn [s_data s_axes a_shape a_flat s_title s_polarization s_om s_acq].
  split; [reflexivity|]. set (dated := first :: rest) in *.
  assert (forall s, In s dated -> List.length (a_flat (s_data s)) = Z.to_nat (b * a)) as HK. { intros s H. destruct (HD s H). lia. }
  split; [|split; [|split; [|split]]]; try reflexivity.
  - split; [reflexivity|]. cbn [s_data a_flat a_shape].
    rewrite (flat_map_len _ _ (fun s => a_flat (s_data s)) dated (Z.to_nat (b * a))) by exact HK. unfold prodZ. cbn [fold_right]. rewrite LD. nia.
  - intros i j u v s Hi Hj Hu Hv Hs. unfold element. cbn [a_shape a_flat row_major prodZ fold_right].
    destruct (HD s (nth_error_In _ _ Hs)) as [S1 _]. rewrite S1. cbn [row_major prodZ fold_right].
    replace (Z.to_nat (i * (x * (b * (a * 1))) + (j * (b * (a * 1)) + (u * (a * 1) + (v * 1 + 0))))) with (Z.to_nat (i * x + j) * Z.to_nat (b * a) + Z.to_nat (u * a + v))%nat.
    2:{ rewrite <- Z2Nat.inj_mul, <- Z2Nat.inj_add by nia. f_equal. ring. }
    rewrite (flat_map_const (fun s => a_flat (s_data s)) (Z.to_nat (b * a)) 0 dated (Z.to_nat (i * x + j)) _ s HK Hs) by nia.
    f_equal. f_equal. ring.
Qed.
(** images which do not fill the scan, or of different sizes, are not merged *)
Theorem C110_not_merged : forall l se, (forall y x, last2 (a_shape (s_data se)) = Ok (y, x) -> x * y <> Z.of_nat (List.length l)) \/
  (exists s t, In s l /\ In t l /\ a_shape (s_data s) <> a_shape (s_data t)) -> forall m, merge_ar l se <> Ok m.
Proof.
  intros l se H m E. unfold merge_ar in E. apply bind_ok in E as ([y x] & EL & E). cbn beta iota in E.
  destruct (x * y =? Z.of_nat (List.length l)) eqn:N; [|discriminate]. cbn [negb] in E. apply Z.eqb_eq in N.
  destruct H as [H|(s & t & Hs & Ht & D)]; [exact (H y x EL N)|].
  destruct (sort earlier l) as [|first rest]; [discriminate|]. apply bind_ok in E as ([b a] & _ & E). cbn beta iota in E.
  destruct (all_same (map (fun s => a_shape (s_data s)) l)) eqn:A; [|discriminate].
  assert (forall L : list (list Z), all_same L = true -> forall u v, In u L -> In v L -> u = v) as K.
  { clear. assert (forall a b, eqb_zs a b = true -> a = b) as EQ. { induction a as [|p a IH]; intros [|q b] H; cbn in H; try discriminate; auto. apply andb_true_iff in H as [H1 H2]. f_equal; [lia|auto]. }
    induction L as [|p L IH]; intros H u v Hu Hv; [destruct Hu|]. destruct L as [|q L]; [destruct Hu as [<-|[]], Hv as [<-|[]]; reflexivity|].
    cbn [all_same] in H. apply andb_true_iff in H as [H1 H2]. apply EQ in H1. subst q.
    destruct Hu as [<-|Hu], Hv as [<-|Hv]; auto; apply IH; auto; cbn; auto. }
  apply D. eapply K; [exact A| |]; [exact (in_map (fun s => a_shape (s_data s)) l s Hs)|exact (in_map (fun s => a_shape (s_data s)) l t Ht)].
Qed.

(** * What is returned *)
Section Reader.
  Variable utc : Q -> res (pystr * pystr).
  Definition readable (file : list (pystr * option group)) : list signal :=
    flat_map (fun p => match conforming p with Some g => match read_acquisition utc g with Ok s => [s] | Err _ => [] end | None => [] end) file.
  (** signals of each kind together, in the order of the kinds, as they came *)
  Definition by_kind (l : list signal) : list signal := flat_map (fun k => filter (fun s => same (s_acq s) k) l) all_types.
  Lemma sort_kind l : sort_by (fun s => position (s_acq s)) l = by_kind l.
  Proof.
    rewrite (sort_grouped _ [0; 1; 2; 3; 4; 5; 6; 7; 8; 9]).
    - reflexivity.
    - repeat constructor; lia.
    - intros s _. destruct (s_acq s); cbn; tauto.
  Qed.
  Definition spec_types (word : pystr) : option (list acq) :=
    lookup word [(str "all", all_types); (str "cl", [PMT; AR; EK1; TempSpec; Temporal; Spectrum]); (str "survey", [Survey]); (str "se", [SE]); (str "anchor", [Anchor])].
  Lemma wanted_spec word : wanted word = match spec_types word with Some l => Ok l | None => Err ValueError end.
  Proof.
    unfold wanted, spec_types. cbn [lookup]. destruct (eqb_str word (str "all")); [reflexivity|]. destruct (eqb_str word (str "cl")); [reflexivity|]. destruct (eqb_str word (str "survey")); [reflexivity|].
    destruct (eqb_str word (str "se")); [reflexivity|]. destruct (eqb_str word (str "anchor")); reflexivity.
  Qed.

  Lemma same_spec a b : same a b = true <-> a = b.
  Proof. destruct a, b; cbn; split; intros H; try reflexivity; discriminate. Qed.
  Lemma same_refl a : same a a = true.
  Proof. now apply same_spec. Qed.
  (** without angle-resolved images *)
  Lemma collect_plain types : forall file f, (forall s, In s (readable file) -> s_acq s <> AR) ->
    exists se, collect utc types file f = Ok {| f_signals := f_signals f ++ filter (fun s => has (s_acq s) types) (readable file); f_ar := f_ar f; f_se := se |}.
  Proof.
    induction file as [|p file IH]; intros f H; cbn [collect readable flat_map].
    { exists (f_se f). rewrite app_nil_r. now destruct f. }
    fold (readable file). cbn [readable flat_map] in H. fold (readable file) in H. destruct (conforming p) as [g|]; [|now apply IH]. destruct (read_acquisition utc g) as [s|]; [|now apply IH].
    assert (s_acq s <> AR) as NA by (apply H; now left). assert (forall t, In t (readable file) -> s_acq t <> AR) as H' by (intros t Ht; apply H; now right).
    assert (exists se, add types f s = Ok {| f_signals := f_signals f ++ (if has (s_acq s) types then [s] else []); f_ar := f_ar f; f_se := se |}) as [se E].
    { unfold add. assert (same (s_acq s) AR = false) as -> by (destruct (same (s_acq s) AR) eqn:E; auto; apply same_spec in E; congruence). rewrite andb_true_r.
      destruct f as [fs fa fse]. destruct (has AR types); cbn [bind].
      - destruct (s_acq s) eqn:K; try congruence; cbn [bind]; destruct (has _ types); cbn [f_signals f_ar f_se]; eexists; rewrite ?app_nil_r; reflexivity.
      - destruct (has (s_acq s) types); cbn [f_signals f_ar f_se]; eexists; rewrite ?app_nil_r; reflexivity. }
    rewrite E. cbn [bind]. match goal with |- context [collect utc types file ?F] => destruct (IH F H') as [se' ->] end. cbn [f_signals f_ar]. exists se'. do 2 f_equal. rewrite <- app_assoc. f_equal.
    cbn [app filter]. destruct (has (s_acq s) types); reflexivity.
  Qed.

  Theorem C110_selection : forall word lazy file,
    (forall s, In s (readable file) -> s_acq s <> AR) ->
    delmic_reader utc word lazy file =
    if lazy then Err NotImplementedError else
    match spec_types word with
    | None => Err ValueError
    | Some types =>
        match filter (fun s => has (s_acq s) types) (readable file) with
        | [] => Err IOError
        | l => match reorder_all l with Ok shown => Ok (by_kind shown) | Err e => Err e end
        end
    end.
  Proof.
    intros word lazy file H. unfold delmic_reader. destruct lazy; [reflexivity|]. rewrite wanted_spec. destruct (spec_types word) as [types|]; [|reflexivity]. cbn [bind].
    destruct (collect_plain types file {| f_signals := []; f_ar := []; f_se := None |} H) as [se ->]. cbn [bind f_signals app merged f_ar].
    destruct (filter (fun s => has (s_acq s) types) (readable file)) as [|s l]; [reflexivity|]. cbv zeta. destruct (reorder_all (s :: l)) as [shown|]; cbn [bind]; [|reflexivity]. now rewrite sort_kind.
  Qed.

  (** with angle-resolved images: those of each polarization together *)
  Definition polar (s : signal) : pystr := match lookup (str "Polarization") (o_values (s_om s)) with Some (VText t) => t | _ => [] end.
  Definition of_polarization (p : pystr) (l : list signal) : list signal := filter (fun s => same (s_acq s) AR && eqb_str (polar s) p) l.
  Definition groups_of (ar : list (pystr * list signal)) (l : list signal) : Prop :=
    NoDup (map fst ar) /\ forall p, lookup p ar = match of_polarization p l with [] => None | g => Some g end.
  Definition text_polarization (s : signal) : Prop := lookup (str "Polarization") (o_values (s_om s)) = None \/ exists t, lookup (str "Polarization") (o_values (s_om s)) = Some (VText t).
  Definition last_se (l : list signal) : option signal := match rev (filter (fun s => same (s_acq s) SE) l) with s :: _ => Some s | [] => None end.
  Lemma last_se_app l s : last_se (l ++ [s]) = if same (s_acq s) SE then Some s else last_se l.
  Proof. unfold last_se. rewrite filter_app. cbn [filter]. destruct (same (s_acq s) SE); [now rewrite rev_app_distr|now rewrite app_nil_r]. Qed.

  Lemma add_ar types f s done : has AR types = true -> (s_acq s = AR -> text_polarization s) -> groups_of (f_ar f) done -> f_se f = last_se done ->
    exists f', add types f s = Ok f' /\ groups_of (f_ar f') (done ++ [s]) /\ f_se f' = last_se (done ++ [s]) /\
      f_signals f' = f_signals f ++ filter (fun s => has (s_acq s) types && negb (same (s_acq s) AR)) [s].
  Proof.
    intros HT HP [GN GL] HS. unfold add. rewrite HT.
    assert (forall p, of_polarization p (done ++ [s]) = of_polarization p done ++ (if same (s_acq s) AR && eqb_str (polar s) p then [s] else [])) as OP.
    { intros p. unfold of_polarization. rewrite filter_app. cbn [filter]. reflexivity. }
    destruct (same (s_acq s) AR) eqn:A.
    - apply same_spec in A. rewrite A. cbn [same].
      assert (polarization s = Ok (polar s)) as -> by (unfold polarization, polar; destruct (HP A) as [->|[t ->]]; reflexivity). cbn [bind].
      rewrite andb_false_r. eexists. split; [reflexivity|]. cbn [f_ar f_se f_signals]. split; [|split].
      + split; [now apply put_nodup|]. intros p. rewrite lookup_put, OP. cbn [andb]. rewrite eqb_str_comm. destruct (eqb_str (polar s) p) eqn:E.
        * apply eqb_str_spec in E. subst p. rewrite GL. destruct (of_polarization (polar s) done); reflexivity.
        * rewrite app_nil_r. apply GL.
      + rewrite last_se_app, A. exact HS.
      + cbn [filter]. rewrite A. cbn. rewrite andb_false_r. now rewrite app_nil_r.
    - assert (forall f1, f_ar f1 = f_ar f -> f_se f1 = last_se (done ++ [s]) -> f_signals f1 = f_signals f ->
        exists f', (if has (s_acq s) types && true then Ok {| f_signals := f_signals f1 ++ [s]; f_ar := f_ar f1; f_se := f_se f1 |} else Ok f1) = Ok f' /\ groups_of (f_ar f') (done ++ [s]) /\ f_se f' = last_se (done ++ [s]) /\
         f_signals f' = f_signals f ++ filter (fun s => has (s_acq s) types && negb (same (s_acq s) AR)) [s]) as K.
      { intros f1 E1 E2 E3. assert (groups_of (f_ar f) (done ++ [s])) as G. { split; auto. intros p. rewrite OP. cbn [andb]. rewrite app_nil_r. apply GL. }
        cbn [filter]. rewrite A. cbn [negb]. rewrite andb_true_r. destruct (has (s_acq s) types); eexists; (split; [reflexivity|]); cbn [f_ar f_se f_signals]; rewrite ?E1, ?E2, ?E3, ?app_nil_r; auto. }
      cbn [negb]. destruct (s_acq s) eqn:Q; try discriminate; cbn [bind]; apply K; cbn [f_ar f_se f_signals]; auto; rewrite last_se_app, Q; auto.
  Qed.
  Lemma collect_ar types : has AR types = true -> forall file f done, (forall s, In s (readable file) -> s_acq s = AR -> text_polarization s) -> groups_of (f_ar f) done -> f_se f = last_se done ->
    exists f', collect utc types file f = Ok f' /\ groups_of (f_ar f') (done ++ readable file) /\ f_se f' = last_se (done ++ readable file) /\
      f_signals f' = f_signals f ++ filter (fun s => has (s_acq s) types && negb (same (s_acq s) AR)) (readable file).
  Proof.
    intros HT. induction file as [|p file IH]; intros f done HP HG HS; cbn [collect].
    { exists f. cbn [readable flat_map filter]. rewrite !app_nil_r. auto. }
    cbn [readable flat_map] in *. fold (readable file) in *. destruct (conforming p) as [g|]; [|now apply IH]. destruct (read_acquisition utc g) as [s|]; [|now apply IH].
    destruct (add_ar types f s done HT) as (f1 & -> & G1 & S1 & L1); auto. { apply HP. now left. }
    cbn [bind]. destruct (IH f1 (done ++ [s])) as (f' & E & G & S & L); auto. { intros t Ht. apply HP. now right. }
    exists f'. split; [exact E|]. rewrite <- app_assoc in G, S. cbn [app] in G, S. split; [exact G|]. split; [exact S|]. rewrite L, L1, <- app_assoc. f_equal. cbn [filter app]. destruct (has (s_acq s) types && negb (same (s_acq s) AR)); reflexivity.
  Qed.

  Theorem C110_angle_resolved : forall word types file se,
    spec_types word = Some types -> In AR types -> (forall s, In s (readable file) -> s_acq s = AR -> text_polarization s) ->
    (exists s, In s (readable file) /\ s_acq s = AR) -> last_se (readable file) = Some se ->
    exists ar, groups_of ar (readable file) /\
      let found := filter (fun s => has (s_acq s) types && negb (same (s_acq s) AR)) (readable file) ++ flat_map (fun p => match merge_ar (snd p) se with Ok m => [m] | Err _ => snd p end) ar in
      delmic_reader utc word false file = match reorder_all found with Ok shown => Ok (by_kind shown) | Err e => Err e end.
  Proof.
    intros word types file se HW HT HP (s & Hs & As) HSE. unfold delmic_reader. rewrite wanted_spec, HW. cbn [bind].
    assert (has AR types = true) as HA. { unfold has. apply existsb_exists. exists AR. now split. }
    destruct (collect_ar types HA file {| f_signals := []; f_ar := []; f_se := None |} []) as (f & -> & G & S & L); auto.
    { split; [constructor|]. intros p. reflexivity. }
    cbn [bind app f_signals] in *. exists (f_ar f). split; [exact G|]. unfold merged. rewrite S, HSE, L.
    destruct G as [GN GL]. pose proof (GL (polar s)) as GS.
    assert (In s (of_polarization (polar s) (readable file))) as HO. { apply filter_In. split; auto. now rewrite As, eqb_str_refl. }
    destruct (of_polarization (polar s) (readable file)) as [|s0 r] eqn:O; [destruct HO|].
    destruct (f_ar f) as [|[p0 l0] ar] eqn:F; [discriminate|]. cbn [bind].
    set (found := _ ++ _). cbv zeta. destruct found as [|x found'] eqn:EF.
    - exfalso. unfold found in EF. apply app_eq_nil in EF as [_ EF]. cbn [flat_map snd] in EF. apply app_eq_nil in EF as [EF _]. destruct (merge_ar l0 se); [discriminate|]. subst l0.
      pose proof (GL p0) as GP. cbn [lookup] in GP. rewrite eqb_str_refl in GP. destruct (of_polarization p0 (readable file)); discriminate.
    - destruct (reorder_all (x :: found')) as [shown|]; cbn [bind]; [|reflexivity]. now rewrite sort_kind.
  Qed.

  (** angle-resolved images without a concurrent one are lost, and everything else with them *)
  Theorem C110_no_concurrent_refuted : forall word types file,
    spec_types word = Some types -> In AR types -> (forall s, In s (readable file) -> s_acq s = AR -> text_polarization s) ->
    (exists s, In s (readable file) /\ s_acq s = AR) -> last_se (readable file) = None ->
    exists e, delmic_reader utc word false file = Err e.
  Proof.
    intros word types file HW HT HP (s & Hs & As) HSE. unfold delmic_reader. rewrite wanted_spec, HW. cbn [bind].
    assert (has AR types = true) as HA. { unfold has. apply existsb_exists. exists AR. now split. }
    destruct (collect_ar types HA file {| f_signals := []; f_ar := []; f_se := None |} []) as (f & -> & G & S & L); auto.
    { split; [constructor|]. intros p. reflexivity. }
    cbn [bind app f_signals] in *. unfold merged. rewrite S, HSE.
    destruct G as [GN GL]. pose proof (GL (polar s)) as GS.
    assert (In s (of_polarization (polar s) (readable file))) as HO. { apply filter_In. split; auto. now rewrite As, eqb_str_refl. }
    destruct (of_polarization (polar s) (readable file)) as [|s0 r] eqn:O; [destruct HO|].
    destruct (f_ar f) as [|[p0 l0] ar] eqn:F; [discriminate|]. destruct (reorder_all (f_signals f)); cbn [bind]; eauto.
  Qed.
  (** an acquisition with one value without a state is left out, whatever else it has *)
  Theorem C110_no_state_refuted : forall g l pre name v post, g_physical g = Some l -> l = pre ++ (name, {| i_dataset := true; i_state := NoState; i_value := v |}) :: post -> name <> str "Title" ->
    readable [(g_name g, Some g)] = [].
  Proof.
    intros g l pre name v post HP -> HN. unfold readable. cbn [flat_map]. rewrite app_nil_r. destruct (conforming _) as [g'|] eqn:C; [|reflexivity].
    assert (g' = g) as ->. { unfold conforming in C. destruct (_ && _ && _ && _); congruence. }
    destruct (read_acquisition utc g) as [s|] eqn:R; [|reflexivity]. exfalso. unfold read_acquisition in R.
    apply bind_ok in R as ([labels a] & _ & R). cbn beta iota zeta in R. apply bind_ok in R as (om & R & _). unfold original_metadata in R. rewrite HP in R. cbn [bind] in R.
    apply bind_ok in R as (md & R & _). revert R. clear HP C. generalize (@nil (pystr * value)). induction pre as [|[n i] pre IH]; intros md0 R; cbn [app read_items] in R; apply bind_ok in R as (md1 & R1 & R2).
    - unfold read_item in R1. cbn [i_dataset negb i_state bind] in R1. destruct (eqb_str name (str "Title")) eqn:T; [apply eqb_str_spec in T; contradiction|discriminate].
    - eapply IH; eauto.
  Qed.
End Reader.

(** * Examples *)
Definition xutc (q : Q) : res (pystr * pystr) := Ok (str "2024-01-01", str "00:00:00").
Definition xval (v : value) : item := {| i_dataset := true; i_state := States [17]; i_value := Ok v |}.
Definition xgroup (name channel : string) (labels : list string) (shape flat : list Z) (more : list (pystr * item)) (date : Q) : pystr * option group :=
  (str name, Some {| g_name := str name; g_svi := Some [(str "Company", Ok (str "Delmic"))];
    g_physical := Some ((str "ChannelDescription", xval (VText (str channel))) :: (str "Gain", {| i_dataset := true; i_state := States [111]; i_value := Ok (VNum 3) |}) :: more);
    g_title := Some (Ok (str channel)); g_image := Some (Some (Dataset (map str labels) {| a_shape := shape; a_flat := flat |}));
    g_scales := [(str "TOffset", [date]); (str "DimensionScaleX", [1 # 1000000]%Q); (str "XOffset", [0]%Q)] |}).
Definition ctzyx : list string := ["C"; "T"; "Z"; "Y"; "X"]%string.
Definition xar (name : string) (flat : list Z) (date : Q) := xgroup name "Angle-resolved" ctzyx [1; 1; 1; 2; 2] flat [(str "PolePosition", xval (VList [1; 2]%Q))] date.
Definition xse : pystr * option group := xgroup "Acquisition1" "Secondary electrons concurrent" ctzyx [1; 1; 1; 2; 1] [7; 8] [] 1%Q.
Definition xfile : list (pystr * option group) :=
  [xgroup "Acquisition0" "Secondary electrons survey" ctzyx [1; 1; 1; 1; 3] [1; 2; 3] [] 0%Q; xse; xar "Acquisition2" [50; 51; 52; 53] 9%Q; xar "Acquisition3" [40; 41; 42; 43] 8%Q; (str "Preview", None);
   xgroup "Acquisition4" "Spectrum" ctzyx [2; 1; 1; 1; 3] [0; 1; 2; 10; 11; 12] [] 3%Q].
Definition view (r : res (list signal)) := match r with Ok l => Ok (map (fun s => (s_acq s, a_shape (s_data s), a_flat (s_data s), map x_name (s_axes s))) l) | Err e => Err e end.
Example c110_cl : view (delmic_reader xutc (str "cl") false xfile) =
  Ok [(AR, [2; 2; 2], [40; 41; 42; 43; 50; 51; 52; 53], map str ["Y"; "Angle B"; "Angle A"]%string); (Spectrum, [3; 2], [0; 10; 1; 11; 2; 12], map str ["X"; "Wavelength"]%string)].
Proof. now vm_compute. Qed.
Example c110_all : match view (delmic_reader xutc (str "all") false xfile) with Ok l => map (fun x => fst (fst (fst x))) l | Err _ => [] end = [AR; Spectrum; SE; Survey].
Proof. now vm_compute. Qed.
Example c110_survey : view (delmic_reader xutc (str "survey") false xfile) = Ok [(Survey, [3], [1; 2; 3], [str "X"])].
Proof. now vm_compute. Qed.
Example c110_hypotheses : last_se (readable xutc xfile) <> None /\ map s_acq (readable xutc xfile) = [Survey; SE; AR; AR; Spectrum] /\
  Forall text_polarization (readable xutc xfile) /\ map (fun s => a_shape (s_data s)) (of_polarization [] (readable xutc xfile)) = [[1; 1; 1; 2; 2]; [1; 1; 1; 2; 2]].
Proof. split; [intros H; vm_compute in H; discriminate|]. split; [now vm_compute|]. split; [|now vm_compute]. repeat constructor. Qed.
Example c110_metadata : match xse with (_, Some g) => match original_metadata g with Ok om => (map fst (o_values om), o_svi om) | Err _ => ([], []) end | _ => ([], []) end =
  ([str "ChannelDescription"; str "AcquisitionDate"], [(str "Company", str "Delmic")]).
Proof. now vm_compute. Qed.
(** images acquired by angle alone, and one value without a state *)
Example c110_no_concurrent : delmic_reader xutc (str "cl") false [xar "Acquisition2" [50; 51; 52; 53] 9%Q] = Err TypeError.
Proof. now vm_compute. Qed.
Example c110_no_state : delmic_reader xutc (str "survey") false [xgroup "Acquisition0" "Secondary electrons survey" ctzyx [1; 1; 1; 1; 3] [1; 2; 3] [(str "Bits", {| i_dataset := true; i_state := NoState; i_value := Ok (VNum 8) |})] 0%Q] = Err IOError.
Proof. now vm_compute. Qed.
(** two dimensions without labels: the axes cannot be ordered, and nothing of the file is read *)
Theorem C111_repeated_refuted : exists file, map s_acq (readable xutc file) = [Survey; Unknown] /\ delmic_reader xutc (str "all") false file = Err ValueError.
Proof.
  exists [xgroup "Acquisition0" "Secondary electrons survey" ctzyx [1; 1; 1; 1; 3] [1; 2; 3] [] 0%Q; xgroup "Acquisition1" "?" [""; ""; "Z"; "Y"; "X"]%string [2; 2; 1; 1; 3] (zseq 0 12) [] 0%Q].
  split; now vm_compute.
Qed.

Print Assumptions C110_metadata.
Print Assumptions C110_merge.
Print Assumptions C110_not_merged.
Print Assumptions C110_selection.
Print Assumptions C110_angle_resolved.
Print Assumptions C110_no_concurrent_refuted.
Print Assumptions C110_no_state_refuted.
Print Assumptions C111_repeated_refuted.
