(** Property C100: metadata of TriVista files. *)
From Coq Require Import QArith Qabs Qminmax.
From Verif Require Import Base Text HierModel HierProof HierProps SfsModel XmlModel RenMeta TvModel TvProps.
Local Open Scope Z_scope.

(** * Names of groups *)
Section Names.
  Context {A : Type}.
  Notation named := (list (pystr * bool * A)).
  Definition digits_only (s : pystr) : Prop := s <> [] /\ Forall (fun c => is_digit c = true) s.
  Definition held (l : named) (j : nat) (n : pystr) : Prop := exists b v, nth_error l j = Some (n, b, v).
  Definition earlier (l : named) (j : nat) (n : pystr) : Prop := exists i, (i < j)%nat /\ held l i n.
  Definition later (l : named) (j : nat) (n : pystr) : Prop := exists i, (j < i)%nat /\ held l i n.
  (** no name is another one with digits, and the names of groups of groups occur once *)
  Definition proper_names (l : named) : Prop :=
    (forall i j n m ds, held l i n -> held l j m -> digits_only ds -> n <> m ++ ds) /\
    (forall i j n v w b, nth_error l i = Some (n, false, v) -> nth_error l j = Some (n, b, w) -> i = j).
  (** the key of the group at position j: its name, with a number if there are several *)
  Inductive shown (l : named) (j : nat) (n : pystr) : pystr -> Prop :=
  | shown_alone : ~ earlier l j n -> ~ later l j n -> shown l j n n
  | shown_first : ~ earlier l j n -> later l j n -> shown l j n (n ++ str "1")
  | shown_other : earlier l j n -> shown l j n (n ++ str_int (Z.of_nat j + 1)).

  Lemma number_digits : forall j, digits_only (str_int (Z.of_nat j + 1)).
  Proof. intro j. replace (Z.of_nat j + 1) with (Z.of_nat (S j)) by lia. split; [apply str_int_ne|apply str_int_digits]. Qed.
  Lemma longer : forall (a : pystr) b c d, a ++ b = c ++ d -> (List.length a < List.length c)%nat -> exists e, c = a ++ e /\ b = e ++ d /\ e <> [].
  Proof.
    induction a as [|x a IH]; intros b c d E L.
    - exists c. split; [reflexivity|]. split; [exact E|]. intros ->. cbn [List.length] in L. lia.
    - destruct c as [|y c]; [cbn [List.length] in L; lia|]. cbn [app] in E. injection E as <- E. cbn [List.length] in L. destruct (IH _ _ _ E) as (e & -> & -> & NE); [lia|]. exists e. split; [reflexivity|]. split; [reflexivity|exact NE].
  Qed.
  Lemma same_split : forall (n m a b : pystr), (forall ds, digits_only ds -> n <> m ++ ds) -> (forall ds, digits_only ds -> m <> n ++ ds) -> digits_only a -> digits_only b -> n ++ a = m ++ b -> n = m /\ a = b.
  Proof.
    intros n m a b H1 H2 [_ DA] [_ DB] E. destruct (lt_eq_lt_dec (List.length n) (List.length m)) as [[L|L]|L].
    - destruct (longer _ _ _ _ E L) as (e & -> & -> & NE). exfalso. apply (H2 e); [split; [exact NE|apply Forall_app in DA; tauto]|reflexivity].
    - assert (n = m). { apply (f_equal (firstn (List.length n))) in E. rewrite firstn_app, Nat.sub_diag, firstn_all in E. rewrite L, firstn_app, Nat.sub_diag, firstn_all in E. cbn [firstn] in E. rewrite !app_nil_r in E. exact E. } subst. split; [reflexivity|]. apply app_inv_head in E. exact E.
    - symmetry in E. destruct (longer _ _ _ _ E L) as (e & -> & -> & NE). exfalso. apply (H1 e); [split; [exact NE|apply Forall_app in DB; tauto]|reflexivity].
  Qed.
  (** keys before the first names are changed *)
  Definition placed (l : named) (k : pystr) (v : A) : Prop :=
    exists j n b, nth_error l j = Some (n, b, v) /\ (~ earlier l j n /\ k = n \/ earlier l j n /\ k = n ++ str_int (Z.of_nat j + 1)).
  Lemma nth_snoc : forall (l : named) x j y, nth_error (l ++ [x]) j = Some y <-> nth_error l j = Some y \/ j = List.length l /\ y = x.
  Proof.
    intros l x j y. destruct (lt_eq_lt_dec j (List.length l)) as [[L| ->]|L].
    - rewrite nth_error_app1 by exact L. split; [left; assumption|intros [H|[-> _]]; [exact H|lia]].
    - rewrite nth_error_app2 by lia. rewrite Nat.sub_diag. cbn [nth_error]. split; [intro H; injection H as <-; right; split; reflexivity|intros [H|[_ ->]]; [|reflexivity]]. assert (nth_error l (List.length l) <> None) by congruence. apply nth_error_Some in H0. lia.
    - rewrite nth_error_app2 by lia. replace (nth_error [x] (j - List.length l)) with (@None (pystr * bool * A)) by (symmetry; apply nth_error_None; cbn [List.length]; lia). split; [discriminate|intros [H|[-> _]]; [|lia]]. assert (nth_error l j <> None) by congruence. apply nth_error_Some in H0. lia.
  Qed.
  Lemma earlier_snoc : forall (l : named) x j n, (j <= List.length l)%nat -> earlier (l ++ [x]) j n <-> earlier l j n.
  Proof.
    intros l x j n L. split.
    - intros (i & I & b & v & E). apply nth_snoc in E. destruct E as [E|[-> _]]; [|lia]. exists i. split; [exact I|]. exists b, v. exact E.
    - intros (i & I & b & v & E). exists i. split; [exact I|]. exists b, v. apply nth_snoc. left. exact E.
  Qed.
  Lemma proper_snoc : forall (l : named) x, proper_names (l ++ [x]) -> proper_names l.
  Proof.
    intros l x [H1 H2]. split.
    - intros i j n m ds (b & v & E) (b' & v' & E') D. apply (H1 i j n m ds); [exists b, v|exists b', v'|exact D]; apply nth_snoc; left; assumption.
    - intros i j n v w b E E'. apply (H2 i j n v w b); apply nth_snoc; left; assumption.
  Qed.
  Definition occurs_in (l : named) (n : pystr) : Prop := earlier l (List.length l) n.
  Lemma held_occurs : forall (l : named) j n, held l j n -> occurs_in l n.
  Proof. intros l j n (b & v & E). exists j. split; [apply nth_error_Some; congruence|]. exists b, v. exact E. Qed.
  Lemma first_held : forall (l : named) n k, occurs_in (firstn k l) n \/ ~ occurs_in (firstn k l) n.
  Proof.
    intros l n k. induction k as [|k IH]; [right; intros (i & I & _); cbn [firstn List.length] in I; lia|].
    destruct IH as [(i & I & b & v & E)|N].
    - left. apply (held_occurs _ i). exists b, v. assert (i < k)%nat by (rewrite firstn_length in I; lia). rewrite <- E. clear E. revert k i I H. induction l as [|y l IHl]; intros k i I H; [rewrite !firstn_nil; reflexivity|]. destruct k; [lia|]. destruct i; [reflexivity|]. cbn [firstn nth_error]. cbn [firstn List.length] in I. apply (IHl k i); lia.
    - destruct (nth_error l k) as [[[m b] v]|] eqn:E.
      + assert (S : firstn (S k) l = firstn k l ++ [(m, b, v)]). { revert E. clear N. revert k. induction l as [|y l IHl]; intros k E; [destruct k; discriminate E|]. destruct k; cbn [nth_error] in E; [injection E as ->; reflexivity|]. cbn [firstn app]. f_equal. apply IHl. exact E. }
        rewrite S. destruct (eqb_str m n) eqn:Q.
        * apply eqb_str_spec in Q. subst m. left. apply (held_occurs _ (List.length (firstn k l))). exists b, v. apply nth_snoc. right. split; reflexivity.
        * right. intros (i & I & b' & v' & E'). apply nth_snoc in E'. destruct E' as [E'|[_ E']]; [apply N, (held_occurs _ i); exists b', v'; exact E'|]. injection E' as -> _ _. rewrite eqb_str_refl in Q. discriminate Q.
      + right. apply nth_error_None in E. intro O. apply N. rewrite firstn_all2 in * by lia. exact O.
  Qed.
  Lemma occurs_dec : forall (l : named) n, occurs_in l n \/ ~ occurs_in l n.
  Proof. intros l n. pose proof (first_held l n (List.length l)) as H. rewrite firstn_all in H. exact H. Qed.
  (** a name of the list is in the dictionary when it occurred *)
  Lemma placed_name : forall (l : named) n x, proper_names (l ++ [x]) -> n = fst (fst x) -> (exists v, placed l n v) <-> occurs_in l n.
  Proof.
    intros l n x [H1 H2] ->. destruct x as [[n b0] v0]. cbn [fst]. split.
    - intros (v & j & m & b & E & [[_ ->]|[_ K]]); [apply (held_occurs _ j); exists b, v; exact E|]. exfalso. apply (H1 (List.length l) j n m (str_int (Z.of_nat j + 1))); [exists b0, v0; apply nth_snoc; right; split; reflexivity|exists b, v; apply nth_snoc; left; exact E|apply number_digits|exact K].
    - intros (i & I & b & v & E). revert b v E. induction i as [i IH] using lt_wf_ind. intros b v E. destruct (first_held l n i) as [(i' & I' & b' & v' & E')|N].
      + assert (L : (i' < i)%nat) by (rewrite firstn_length in I'; lia). apply (IH i' L ltac:(lia) b' v'). rewrite <- E'. clear - L. revert i i' L. induction l as [|y l IHl]; intros i i' L; [rewrite firstn_nil; reflexivity|]. destruct i; [lia|]. destruct i'; [reflexivity|]. cbn [firstn nth_error]. apply IHl. lia.
      + exists v, i, n, b. split; [exact E|]. left. split; [|reflexivity]. intros (i' & L & b' & v' & E'). apply N. apply (held_occurs _ i'). exists b', v'. rewrite <- E'. clear - L. revert i i' L. induction l as [|y l IHl]; intros i i' L; [rewrite firstn_nil; reflexivity|]. destruct i; [lia|]. destruct i'; [reflexivity|]. cbn [firstn nth_error]. apply IHl. lia.
  Qed.
  Lemma placed_snoc : forall (l : named) n b v k w, proper_names (l ++ [(n, b, v)]) ->
    placed (l ++ [(n, b, v)]) k w <-> (placed l k w \/ w = v /\ (~ occurs_in l n /\ k = n \/ occurs_in l n /\ k = n ++ str_int (Z.of_nat (List.length l) + 1))).
  Proof.
    intros l n b v k w P. split.
    - intros (j & m & b' & E & C). apply nth_snoc in E. destruct E as [E|[-> E]].
      + assert (L : (j < List.length l)%nat) by (apply nth_error_Some; congruence). left. exists j, m, b'. split; [exact E|]. rewrite earlier_snoc in C by lia. exact C.
      + injection E as -> -> ->. right. split; [reflexivity|]. rewrite earlier_snoc in C by lia. exact C.
    - intros [(j & m & b' & E & C)|[-> C]].
      + assert (L : (j < List.length l)%nat) by (apply nth_error_Some; congruence). exists j, m, b'. split; [apply nth_snoc; left; exact E|]. rewrite earlier_snoc by lia. exact C.
      + exists (List.length l), n, b. split; [apply nth_snoc; right; split; reflexivity|]. rewrite earlier_snoc by lia. exact C.
  Qed.
  (** the name that is put is new *)
  Lemma fresh_key : forall (l : named) n b v k w, proper_names (l ++ [(n, b, v)]) -> placed l k w -> (~ occurs_in l n -> k <> n) /\ k <> n ++ str_int (Z.of_nat (List.length l) + 1).
  Proof.
    intros l n b v k w [H1 H2] (j & m & b' & E & C). assert (L : (j < List.length l)%nat) by (apply nth_error_Some; congruence).
    assert (HN : held (l ++ [(n, b, v)]) (List.length l) n) by (exists b, v; apply nth_snoc; right; split; reflexivity). assert (HM : held (l ++ [(n, b, v)]) j m) by (exists b', w; apply nth_snoc; left; exact E).
    split.
    - intros N ->. destruct C as [[_ ->]|[_ K]]; [apply N, (held_occurs _ j); exists b', w; exact E|]. exact (H1 _ _ _ _ _ HN HM (number_digits j) K).
    - intros ->. destruct C as [[_ K]|[_ K]]; [exact (H1 _ _ _ _ _ HM HN (number_digits _) (eq_sym K))|].
      apply same_split in K; [|intros ds D; exact (H1 _ _ _ _ ds HN HM D)|intros ds D; exact (H1 _ _ _ _ ds HM HN D)|apply number_digits|apply number_digits]. destruct K as [_ K]. apply number_inj in K. lia.
  Qed.
  Lemma NoDup_rev_snoc : forall (l : list pystr) x, NoDup l -> ~ In x l -> NoDup (l ++ [x]).
  Proof. intros l x N I. induction N as [|y l NI N IH]; [constructor; [exact I|constructor]|]. cbn [app]. constructor; [rewrite in_app_iff; intros [K|[->|[]]]; [contradiction|apply I; left; reflexivity]|apply IH; intro K; apply I; right; exact K]. Qed.
  Definition twice (l : named) (n : pystr) : Prop := exists j, held l j n /\ earlier l j n.
  Lemma gather_spec : forall rest pre d again, proper_names (pre ++ rest) ->
    (forall k v, lookup k d = Some v <-> placed pre k v) -> (forall n, In n again <-> twice pre n) -> NoDup again ->
    let (d', again') := gather (Z.of_nat (List.length pre)) rest d again in
    (forall k v, lookup k d' = Some v <-> placed (pre ++ rest) k v) /\ (forall n, In n again' <-> twice (pre ++ rest) n) /\ NoDup again'.
  Proof.
    induction rest as [|[[n items] v] rest IH]; intros pre d again P D T ND; [cbn [gather]; rewrite app_nil_r; split; [exact D|split; assumption]|].
    assert (P1 : proper_names (pre ++ [(n, items, v)])). { clear - P. replace (pre ++ (n, items, v) :: rest) with ((pre ++ [(n, items, v)]) ++ rest) in P by (rewrite <- app_assoc; reflexivity). set (q := pre ++ [(n, items, v)]) in *. clearbody q. revert q P. induction rest as [|x rest IHr] using rev_ind; intros q P; [rewrite app_nil_r in P; exact P|]. rewrite app_assoc in P. apply proper_snoc in P. apply IHr. exact P. }
    assert (HAS : has n d = true <-> occurs_in pre n). { rewrite <- (placed_name pre n _ P1 eq_refl). unfold has. split; [destruct (lookup n d) as [w|] eqn:L; [intros _; exists w; apply D; exact L|discriminate]|intros [w W]; apply D in W; rewrite W; reflexivity]. }
    replace (pre ++ (n, items, v) :: rest) with ((pre ++ [(n, items, v)]) ++ rest) in * by (rewrite <- app_assoc; reflexivity).
    assert (LEN : Z.of_nat (List.length (pre ++ [(n, items, v)])) = Z.of_nat (List.length pre) + 1) by (rewrite app_length; cbn [List.length]; lia).
    assert (TW : forall m, twice (pre ++ [(n, items, v)]) m <-> twice pre m \/ m = n /\ occurs_in pre n).
    { intro m. split.
      - intros (j & (b & w & E) & R). apply nth_snoc in E. destruct E as [E|[-> E]].
        + assert (L : (j < List.length pre)%nat) by (apply nth_error_Some; congruence). left. exists j. rewrite earlier_snoc in R by lia. split; [exists b, w; exact E|exact R].
        + injection E as -> -> ->. right. split; [reflexivity|]. rewrite earlier_snoc in R by lia. exact R.
      - intros [(j & (b & w & E) & R)|[-> R]].
        + assert (L : (j < List.length pre)%nat) by (apply nth_error_Some; congruence). exists j. split; [exists b, w; apply nth_snoc; left; exact E|apply earlier_snoc; [lia|exact R]].
        + exists (List.length pre). split; [exists items, v; apply nth_snoc; right; split; reflexivity|apply earlier_snoc; [lia|exact R]]. }
    cbn [gather]. destruct (has n d) eqn:H.
    - pose proof (proj1 HAS eq_refl) as O. destruct items.
      + cbn [andb]. specialize (IH (pre ++ [(n, true, v)]) (put (n ++ str_int (Z.of_nat (List.length pre) + 1)) v d) (if existsb (eqb_str n) again then again else again ++ [n])). rewrite LEN in IH. apply IH; [exact P| | |].
        * intros k w. rewrite lookup_put, (placed_snoc _ _ _ _ _ _ P1). destruct (eqb_str k (n ++ str_int (Z.of_nat (List.length pre) + 1))) eqn:EK.
          -- apply eqb_str_spec in EK. subst k. split; [intro Q; injection Q as <-; right; split; [reflexivity|right; split; [exact O|reflexivity]]|]. intros [PL|[-> _]]; [|reflexivity]. destruct (fresh_key _ _ _ _ _ _ P1 PL) as [_ F]. congruence.
          -- rewrite D. split; [left; assumption|]. intros [PL|[-> [[NO _]|[_ ->]]]]; [exact PL|contradiction|]. rewrite eqb_str_refl in EK. discriminate EK.
        * intro m. rewrite TW, <- T. destruct (existsb (eqb_str n) again) eqn:EX.
          -- apply existsb_exists in EX. destruct EX as (y & Y & EY). apply eqb_str_spec in EY. subst y. split; [left; assumption|intros [I|[-> _]]; assumption].
          -- rewrite in_app_iff. cbn [In]. split; [intros [I|[<-|[]]]; [left; exact I|right; split; [reflexivity|exact O]]|intros [I|[-> _]]; [left; exact I|right; left; reflexivity]].
        * destruct (existsb (eqb_str n) again) eqn:EX; [exact ND|]. apply NoDup_rev_snoc; [exact ND|]. intro I. assert (X : existsb (eqb_str n) again = true) by (apply existsb_exists; exists n; split; [exact I|apply eqb_str_refl]). congruence.
      + exfalso. destruct O as (i & I & b & w & E). destruct P1 as [_ P2]. assert (List.length pre = i); [|lia]. apply (P2 _ _ n v w b); [apply nth_snoc; right; split; reflexivity|apply nth_snoc; left; exact E].
    - assert (O : ~ occurs_in pre n) by (intro O; apply HAS in O; discriminate O). rewrite andb_false_r. specialize (IH (pre ++ [(n, items, v)]) (put n v d) again). rewrite LEN in IH. apply IH; [exact P| | |exact ND].
      + intros k w. rewrite lookup_put, (placed_snoc _ _ _ _ _ _ P1). destruct (eqb_str k n) eqn:EK.
        * apply eqb_str_spec in EK. subst k. split; [intro Q; injection Q as <-; right; split; [reflexivity|left; split; [exact O|reflexivity]]|]. intros [PL|[-> _]]; [|reflexivity]. destruct (fresh_key _ _ _ _ _ _ P1 PL) as [F _]. destruct (F O eq_refl).
        * rewrite D. split; [left; assumption|]. intros [PL|[-> [[_ ->]|[YO _]]]]; [exact PL|rewrite eqb_str_refl in EK; discriminate EK|contradiction].
      + intro m. rewrite TW, <- T. split; [left; assumption|intros [I|[_ O']]; [exact I|contradiction]].
  Qed.
  Lemma lookup_without : forall k n (d : list (pystr * A)), lookup k (without n d) = if eqb_str k n then None else lookup k d.
  Proof.
    intros k n d. induction d as [|[m v] d IH]; [cbn; destruct (eqb_str k n); reflexivity|].
    unfold without in *. cbn [filter fst]. destruct (eqb_str n m) eqn:E; cbn [negb].
    - apply eqb_str_spec in E. subst m. rewrite IH. cbn [lookup]. destruct (eqb_str k n); reflexivity.
    - cbn [lookup]. rewrite IH. destruct (eqb_str k m) eqn:K; [|reflexivity]. apply eqb_str_spec in K. subst m. destruct (eqb_str k n) eqn:Q; [|reflexivity]. apply eqb_str_spec in Q. subst n. rewrite eqb_str_refl in E. discriminate E.
  Qed.
  Definition key_of (l : named) (finished : list pystr) (j : nat) (n k : pystr) : Prop :=
    earlier l j n /\ k = n ++ str_int (Z.of_nat j + 1) \/ ~ earlier l j n /\ (In n finished /\ k = n ++ str "1" \/ ~ In n finished /\ k = n).
  Lemma one_digits : digits_only (str "1").
  Proof. split; [discriminate|]. repeat constructor. Qed.
  Lemma key_unique : forall l finished j j' n m k, proper_names l -> held l j n -> held l j' m -> key_of l finished j n k -> key_of l finished j' m k -> j = j'.
  Proof.
    intros l fin j j' n m k [H1 _] HN HM K1 K2.
    assert (SS : forall a b, digits_only a -> digits_only b -> n ++ a = m ++ b -> n = m /\ a = b) by (intros a b DA DB E; apply same_split; [intros ds D; exact (H1 _ _ _ _ ds HN HM D)|intros ds D; exact (H1 _ _ _ _ ds HM HN D)|exact DA|exact DB|exact E]).
    assert (first : n = m -> ~ earlier l j n -> ~ earlier l j' m -> j = j'). { intros -> N1 N2. destruct (lt_eq_lt_dec j j') as [[L|E]|L]; [exfalso; apply N2; exists j; split; assumption|exact E|exfalso; apply N1; exists j'; split; assumption]. }
    assert (one : forall i, str "1" = str_int (Z.of_nat i + 1) -> i = 0%nat) by (intros i E; change (str "1") with (str_int 1) in E; apply number_inj in E; lia).
    destruct K1 as [[E1 ->]|[N1 [[I1 ->]|[I1 ->]]]]; destruct K2 as [[E2 K]|[N2 [[I2 K]|[I2 K]]]].
    - apply SS in K; [|apply number_digits|apply number_digits]. destruct K as [_ K]. apply number_inj in K. lia.
    - apply SS in K; [|apply number_digits|apply one_digits]. destruct K as [_ K]. symmetry in K. apply one in K. subst j. destruct E1 as (i & L & _). lia.
    - symmetry in K. exfalso. exact (H1 _ _ _ _ _ HM HN (number_digits j) K).
    - apply SS in K; [|apply one_digits|apply number_digits]. destruct K as [_ K]. apply one in K. subst j'. destruct E2 as (i & L & _). lia.
    - apply SS in K; [|apply one_digits|apply one_digits]. destruct K as [K _]. exact (first K N1 N2).
    - symmetry in K. exfalso. exact (H1 _ _ _ _ _ HM HN one_digits K).
    - exfalso. exact (H1 _ _ _ _ _ HN HM (number_digits j') K).
    - exfalso. exact (H1 _ _ _ _ _ HN HM one_digits K).
    - exact (first K N1 N2).
  Qed.
  Lemma earlier_dec : forall (l : named) j n, earlier l j n \/ ~ earlier l j n.
  Proof.
    intros l j n. assert (X : forall i, (i < j)%nat -> nth_error (firstn j l) i = nth_error l i). { revert j. induction l as [|y l IHl]; intros j i L; [rewrite firstn_nil; reflexivity|]. destruct j; [lia|]. destruct i; [reflexivity|]. cbn [firstn nth_error]. apply IHl. lia. }
    destruct (first_held l n j) as [(i & I & b & v & E)|N].
    - left. assert (L : (i < j)%nat) by (rewrite firstn_length in I; lia). exists i. split; [exact L|]. exists b, v. rewrite <- X by exact L. exact E.
    - right. intros (i & L & b & v & E). apply N. apply (held_occurs _ i). exists b, v. rewrite X by exact L. exact E.
  Qed.
  Lemma first_of : forall (l : named) j n, held l j n -> exists i, held l i n /\ ~ earlier l i n.
  Proof.
    intros l j n. induction j as [j IH] using lt_wf_ind. intro H. destruct (earlier_dec l j n) as [(i & L & E)|N]; [exact (IH i L E)|exists j; split; assumption].
  Qed.
  Lemma rename_spec : forall l todo finished d, proper_names l -> NoDup (finished ++ todo) -> (forall n, In n (finished ++ todo) -> twice l n) ->
    (forall k v, lookup k d = Some v <-> exists j n b, nth_error l j = Some (n, b, v) /\ key_of l finished j n k) ->
    forall k v, lookup k (fold_left rename_first todo d) = Some v <-> exists j n b, nth_error l j = Some (n, b, v) /\ key_of l (finished ++ todo) j n k.
  Proof.
    intro l. induction todo as [|n todo IH]; intros fin d P ND TW D; [cbn [fold_left]; rewrite app_nil_r; exact D|].
    cbn [fold_left]. replace (fin ++ n :: todo) with ((fin ++ [n]) ++ todo) in * by (rewrite <- app_assoc; reflexivity).
    apply IH; [exact P|exact ND|exact TW|].
    assert (NF : ~ In n fin). { intro I. clear - ND I. rewrite <- app_assoc in ND. cbn [app] in ND. apply NoDup_remove_2 in ND. apply ND. apply in_or_app. left. exact I. }
    destruct (TW n) as (j1 & HJ & _); [rewrite !in_app_iff; left; right; left; reflexivity|].
    destruct (first_of _ _ _ HJ) as (j0 & H0 & N0). destruct H0 as (b0 & v0 & E0).
    assert (L0 : lookup n d = Some v0) by (apply D; exists j0, n, b0; split; [exact E0|right; split; [exact N0|right; split; [exact NF|reflexivity]]]).
    assert (K0 : key_of l (fin ++ [n]) j0 n (n ++ str "1")) by (right; split; [exact N0|left; split; [apply in_or_app; right; left; reflexivity|reflexivity]]).
    intros k w. unfold rename_first. rewrite L0, lookup_put, lookup_without. destruct (eqb_str k (n ++ str "1")) eqn:EK.
    - apply eqb_str_spec in EK. subst k. split.
      + intro Q. injection Q as <-. exists j0, n, b0. split; assumption.
      + intros (j & m & b & E & K). assert (j = j0) by (eapply key_unique; [exact P|exists b, w; exact E|exists b0, v0; exact E0|exact K|exact K0]). subst j. rewrite E0 in E. injection E as _ _ ->. reflexivity.
    - destruct (eqb_str k n) eqn:EN.
      + apply eqb_str_spec in EN. subst k. split; [discriminate|]. intros (j & m & b & E & K). exfalso. destruct P as [H1 _].
        assert (HM : held l j m) by (exists b, w; exact E). assert (HN : held l j0 n) by (exists b0, v0; exact E0).
        destruct K as [[_ K]|[_ [[_ K]|[I K]]]]; [exact (H1 _ _ _ _ _ HN HM (number_digits j) K)|exact (H1 _ _ _ _ _ HN HM one_digits K)|]. subst m. apply I. apply in_or_app. right. left. reflexivity.
      + rewrite D. apply eqb_str_neq in EN. apply eqb_str_neq in EK.
        split; intros (j & m & b & E & K); exists j, m, b; (split; [exact E|]); (destruct K as [K|[N K]]; [left; exact K|right; split; [exact N|]]).
        * destruct K as [[I K]|[I K]]; [left; split; [apply in_or_app; left; exact I|exact K]|right; split; [|exact K]]. rewrite in_app_iff. intros [J|[<-|[]]]; [exact (I J)|exact (EN K)].
        * destruct K as [[I K]|[I K]]; [|right; split; [intro J; apply I, in_or_app; left; exact J|exact K]]. apply in_app_iff in I. destruct I as [I|[<-|[]]]; [left; split; assumption|destruct (EK K)].
  Qed.
  Lemma number_names_spec : forall l, proper_names l -> forall k v, lookup k (number_names l) = Some v <-> exists j n b, nth_error l j = Some (n, b, v) /\ shown l j n k.
  Proof.
    intros l P k v. unfold number_names.
    pose proof (gather_spec l [] [] [] P) as G. cbn [List.length Z.of_nat app] in G.
    destruct (gather 0 l [] []) as [d again]. destruct G as (D & T & ND); [| |constructor|].
    { intros k' v'. split; [discriminate|]. intros (j & n & b & E & _). destruct j; discriminate E. }
    { intro n. split; [intros []|]. intros (j & (b & w & E) & _). destruct j; discriminate E. }
    assert (R := rename_spec l again [] d P). cbn [app] in R. rewrite R; [|exact ND|intros n I; apply T; exact I|].
    - assert (LT : forall j n, held l j n -> ~ earlier l j n -> (In n again <-> later l j n)).
      { intros j n HJ N. rewrite T. split.
        - intros (i & HI & (i' & L & HI')). exists i. split; [|exact HI]. destruct (lt_eq_lt_dec i j) as [[L'|E]|L']; [exfalso; apply N; exists i; split; [exact L'|exact HI]| |exact L']. subst i. exfalso. apply N. exists i'. split; assumption.
        - intros (i & L & HI). exists i. split; [exact HI|]. exists j. split; assumption. }
      split; intros (j & n & b & E & K); exists j, n, b; (split; [exact E|]); assert (HJ : held l j n) by (exists b, v; exact E).
      + destruct K as [[E1 ->]|[N [[I ->]|[I ->]]]]; [apply shown_other; exact E1|apply shown_first; [exact N|apply (LT j n HJ N); exact I]|apply shown_alone; [exact N|intro L; apply I, (LT j n HJ N); exact L]].
      + destruct K as [N NL|N L|E1]; [right; split; [exact N|right; split; [intro I; apply NL, (LT j n HJ N); exact I|reflexivity]]|right; split; [exact N|left; split; [apply (LT j n HJ N); exact L|reflexivity]]|left; split; [exact E1|reflexivity]].
    - intros k' v'. rewrite D. split; intros (j & n & b & E & K); exists j, n, b; (split; [exact E|]).
      + destruct K as [[N ->]|[E1 ->]]; [right; split; [exact N|right; split; [intros []|reflexivity]]|left; split; [exact E1|reflexivity]].
      + destruct K as [[E1 ->]|[N [[[] _]|[_ ->]]]]; [right; split; [exact E1|reflexivity]|left; split; [exact N|reflexivity]].
  Qed.
  Lemma shown_some : forall l j n, exists k, shown l j n k.
  Proof.
    intros l j n. destruct (earlier_dec l j n) as [E|N]; [exists (n ++ str_int (Z.of_nat j + 1)); apply shown_other; exact E|].
    assert (LD : later l j n \/ ~ later l j n).
    { assert (X : forall m, later l j n \/ forall i, (j < i < m)%nat -> ~ held l i n).
      { induction m as [|m [L|IH]]; [right; intros i I; lia|left; exact L|]. destruct (nth_error l m) as [[[n' b] v]|] eqn:E.
        - destruct (eqb_str n' n) eqn:Q; [apply eqb_str_spec in Q; subst n'|].
          + destruct (lt_dec j m) as [J|J]; [left; exists m; split; [exact J|exists b, v; exact E]|right; intros i I; lia].
          + right. intros i I (b' & v' & E'). destruct (Nat.eq_dec i m) as [->|NE]; [rewrite E in E'; injection E' as -> _ _; rewrite eqb_str_refl in Q; discriminate Q|]. apply (IH i); [lia|exists b', v'; exact E'].
        - right. intros i I (b' & v' & E'). destruct (Nat.eq_dec i m) as [->|NE]; [congruence|]. apply (IH i); [lia|exists b', v'; exact E']. }
      destruct (X (List.length l)) as [L|H]; [left; exact L|right]. intros (i & L & HI). apply (H i); [|exact HI]. split; [exact L|]. destruct HI as (b & v & E). apply nth_error_Some. congruence. }
    destruct LD as [L|NL]; [exists (n ++ str "1"); apply shown_first; assumption|exists n; apply shown_alone; assumption].
  Qed.
End Names.

(** * What a dictionary of groups says *)
Definition labelled (l : list group) : list (pystr * bool * group) := map (fun g => (g_name g, is_items g, g)) l.
Definition last_value {B} (l : list (pystr * B)) (k : pystr) (v : B) : Prop := exists a b, l = a ++ (k, v) :: b /\ Forall (fun kv => fst kv <> k) b.
Inductive says : group -> info -> Prop :=
| says_items : forall n l d, (forall k v, lookup k d = Some v <-> last_value l k v) -> says (Items n l) (Entries d)
| says_groups : forall n l d,
    (forall j g, nth_error l j = Some g -> exists k v, shown (labelled l) j (g_name g) k /\ lookup k d = Some v /\ says g v) ->
    (forall k v, lookup k d = Some v -> exists j g, nth_error l j = Some g /\ shown (labelled l) j (g_name g) k /\ says g v) -> says (Groups n l) (Sub d).
Inductive well_named : group -> Prop :=
| well_items : forall n l, well_named (Items n l)
| well_groups : forall n l, proper_names (labelled l) -> Forall well_named l -> well_named (Groups n l).

Lemma held_labels : forall {A B} (l : list (pystr * bool * A)) (l' : list (pystr * bool * B)) j n, map fst l = map fst l' -> held l j n -> held l' j n.
Proof.
  intros A B l l' j n E (b & v & H). assert (X := map_nth_error fst _ _ H). rewrite E in X. rewrite nth_error_map in X. destruct (nth_error l' j) as [[[n' b'] v']|] eqn:Q; [|discriminate X]. cbn [option_map fst] in X. injection X as -> ->. exists b, v'. exact Q.
Qed.
Lemma shown_labels : forall {A B} (l : list (pystr * bool * A)) (l' : list (pystr * bool * B)) j n k, map fst l = map fst l' -> shown l j n k -> shown l' j n k.
Proof.
  intros A B l l' j n k E H. pose proof (eq_sym E) as E'. destruct H as [N NL|N L|ER].
  - apply shown_alone; [intros (i & I & H); apply N; exists i; split; [exact I|exact (held_labels _ _ _ _ E' H)]|intros (i & I & H); apply NL; exists i; split; [exact I|exact (held_labels _ _ _ _ E' H)]].
  - apply shown_first; [intros (i & I & H); apply N; exists i; split; [exact I|exact (held_labels _ _ _ _ E' H)]|]. destruct L as (i & I & H). exists i. split; [exact I|exact (held_labels _ _ _ _ E H)].
  - apply shown_other. destruct ER as (i & I & H). exists i. split; [exact I|exact (held_labels _ _ _ _ E H)].
Qed.
Lemma proper_labels : forall {A B} (l : list (pystr * bool * A)) (l' : list (pystr * bool * B)), map fst l = map fst l' -> proper_names l -> proper_names l'.
Proof.
  intros A B l l' E [H1 H2]. pose proof (eq_sym E) as E'. split.
  - intros i j n m ds HN HM. exact (H1 i j n m ds (held_labels _ _ _ _ E' HN) (held_labels _ _ _ _ E' HM)).
  - intros i j n v w b EI EJ. assert (XI := map_nth_error fst _ _ EI). assert (XJ := map_nth_error fst _ _ EJ). rewrite E' in XI, XJ. rewrite nth_error_map in XI, XJ.
    destruct (nth_error l i) as [[[ni bi] vi]|] eqn:QI; [|discriminate XI]. destruct (nth_error l j) as [[[nj bj] vj]|] eqn:QJ; [|discriminate XJ]. cbn [option_map fst] in XI, XJ. injection XI as -> ->. injection XJ as -> ->. exact (H2 i j n vi vj b QI QJ).
Qed.
Lemma item_dict_spec : forall l k v, lookup k (item_dict l) = Some v <-> last_value l k v.
Proof.
  unfold item_dict. intro l. assert (G : forall d k v, lookup k (fold_left (fun d (kv : pystr * value) => put (fst kv) (snd kv) d) l d) = Some v <-> last_value l k v \/ Forall (fun kv => fst kv <> k) l /\ lookup k d = Some v).
  { induction l as [|[n w] l IH]; intros d k v.
    - cbn [fold_left]. split; [intro H; right; split; [constructor|exact H]|]. intros [(a & b & E & _)|[_ H]]; [destruct a; discriminate E|exact H].
    - cbn [fold_left fst snd]. rewrite IH, lookup_put. split.
      + intros [(a & b & -> & F)|[F H]]; [left; exists ((n, w) :: a), b; split; [reflexivity|exact F]|]. destruct (eqb_str k n) eqn:E.
        * apply eqb_str_spec in E. subst n. injection H as ->. left. exists [], l. split; [reflexivity|exact F].
        * right. split; [constructor; [apply eqb_str_neq in E; cbn [fst]; congruence|exact F]|exact H].
      + intros [(a & b & E & F)|[F H]].
        * destruct a as [|x a]; cbn [app] in E.
          -- injection E as -> -> ->. right. split; [exact F|]. rewrite eqb_str_refl. reflexivity.
          -- injection E as _ E. left. exists a, b. split; assumption.
        * inversion F as [|x y F1 F2]; subst. cbn [fst] in F1. right. split; [exact F2|]. rewrite (proj2 (eqb_str_neq _ _) (not_eq_sym F1)). exact H. }
  intros k v. rewrite G. split; [intros [H|[_ H]]; [exact H|discriminate H]|left; assumption].
Qed.
Fixpoint group_rect (P : group -> Prop) (HI : forall n l, P (Items n l)) (HG : forall n l, Forall P l -> P (Groups n l)) (g : group) : P g :=
  match g with
  | Items n l => HI n l
  | Groups n l => HG n l ((fix all (l : list group) : Forall P l := match l with [] => Forall_nil P | g :: l' => Forall_cons g (group_rect P HI HG g) (all l') end) l)
  end.
Lemma says_info : forall g, well_named g -> says g (info_of g).
Proof.
  induction g as [n l|n l IH] using group_rect; intro W; cbn [info_of].
  - apply says_items. apply item_dict_spec.
  - inversion W as [|n0 l0 PN WL]; subst. set (q := map (fun g => (g_name g, is_items g, info_of g)) l).
    assert (E : map fst q = map fst (labelled l)) by (unfold q, labelled; rewrite !map_map; reflexivity).
    assert (PQ : proper_names q) by (exact (proper_labels _ _ (eq_sym E) PN)).
    pose proof (number_names_spec q PQ) as S.
    assert (each : forall g, In g l -> says g (info_of g)) by (intros g I; rewrite Forall_forall in IH, WL; exact (IH g I (WL g I))).
    apply says_groups.
    + intros j g N. destruct (shown_some q j (g_name g)) as [k K]. exists k, (info_of g). split; [exact (shown_labels _ _ _ _ _ E K)|]. split; [|apply each; eapply nth_error_In; exact N].
      apply S. exists j, (g_name g), (is_items g). split; [|exact K]. unfold q. rewrite nth_error_map, N. reflexivity.
    + intros k v L. apply S in L. destruct L as (j & m & b & N & K). unfold q in N. rewrite nth_error_map in N. destruct (nth_error l j) as [g|] eqn:G; [|discriminate N]. cbn [option_map] in N. injection N as <- <- <-. exists j, g. split; [exact G|]. split; [exact (shown_labels _ _ _ _ _ E K)|apply each; eapply nth_error_In; exact G].
Qed.

(** * Devices *)
Definition last_such {B} (P : B -> Prop) (l : list B) (x : B) : Prop := exists a b, l = a ++ x :: b /\ P x /\ Forall (fun y => ~ P y) b.
Inductive same_value : value -> value -> Prop :=
| same_nothing : same_value Nothing Nothing
| same_words : forall s, same_value (Words s) (Words s)
| same_num : forall p q, (p == q)%Q -> same_value (Num p) (Num q)
| same_flag : forall b, same_value (Flag b) (Flag b).
Definition near (a b : Q) : Prop := (Qabs (a - b) <= (1 # 100000000) + (1 # 100000) * Qabs b)%Q.
Definition entry_is (i : list (pystr * info)) (name key : string) (v : value) : Prop := exists e, lookup (str name) i = Some (Entries e) /\ lookup (str key) e = Some v.
(** light source of a wavelength that is not zero *)
Definition shines (w : Q) (l : laser) : Prop := exists q, l_wave l = Some (Num q) /\ near w q /\ ~ near q 0.
Definition yes (v : value) : Prop := v = Flag true \/ (exists s, v = Words s /\ s <> []) \/ exists q, v = Num q /\ ~ (q == 0)%Q.
(** the first of the used spectrometers with this serial number *)
Definition used_as (u : list (pystr * info)) (n : pystr) (m : monochromator) : Prop :=
  exists a b v s, u = a ++ (n, v) :: b /\ sub_item v (str "Serialnumber") = Ok s /\ same_value (s_serial m) s /\
    Forall (fun kv => forall s, sub_item (snd kv) (str "Serialnumber") = Ok s -> ~ same_value (s_serial m) s) a.

Lemma same_value_spec : forall a b, eqb_value a b = true <-> same_value a b.
Proof.
  intros a b. split.
  - destruct a, b; cbn [eqb_value]; intro H; try discriminate H; [constructor|apply eqb_str_spec in H; subst; constructor|constructor; apply Qeq_bool_iff; exact H|apply Bool.eqb_prop in H; subst; constructor].
  - intros [|s|p q H|x]; cbn [eqb_value]; [reflexivity|apply eqb_str_refl|apply Qeq_bool_iff; exact H|apply Bool.eqb_reflx].
Qed.
Lemma truthy_spec : forall v, truthy v = true <-> yes v.
Proof.
  intro v. unfold yes. destruct v as [|s|q|b]; cbn [truthy].
  - split; [discriminate|]. intros [H|[(s & H & _)|(q & H & _)]]; discriminate H.
  - split.
    + intro H. right. left. exists s. split; [reflexivity|]. intros ->. discriminate H.
    + intros [H|[(t & H & N)|(q & H & _)]]; [discriminate H| |discriminate H]. injection H as ->. destruct t; [congruence|reflexivity].
  - split.
    + intro H. right. right. exists q. split; [reflexivity|]. intro E. apply Qeq_bool_iff in E. rewrite E in H. discriminate H.
    + intros [H|[(t & H & _)|(p & H & N)]]; [discriminate H|discriminate H|]. injection H as ->. destruct (Qeq_bool p 0) eqn:E; [apply Qeq_bool_iff in E; contradiction|reflexivity].
  - split.
    + destruct b; [left; reflexivity|discriminate].
    + intros [H|[(t & H & _)|(p & H & N)]]; [injection H as ->; reflexivity|discriminate H|discriminate H].
Qed.
Lemma near_spec : forall a b, isclose a b = true <-> near a b.
Proof.
  intros a b. unfold isclose, near. rewrite Qle_bool_iff.
  assert (E1 : ((if Qle_bool b a then a - b else b - a) == Qabs (a - b))%Q).
  { destruct (Qle_bool b a) eqn:L; [apply Qle_bool_iff in L; rewrite Qabs_pos; [reflexivity|]; apply -> Qle_minus_iff; exact L|].
    assert (L' : ~ (b <= a)%Q) by (intro H; apply Qle_bool_iff in H; congruence). apply Qnot_le_lt in L'. rewrite Qabs_neg; [ring|]. apply Qlt_le_weak in L'. apply Qle_minus_iff in L'. apply Qle_minus_iff. setoid_replace (0 + - (a - b))%Q with (b + - a)%Q by ring. exact L'. }
  assert (E2 : ((if Qle_bool 0 b then b else - b) == Qabs b)%Q).
  { destruct (Qle_bool 0 b) eqn:L; [apply Qle_bool_iff in L; rewrite Qabs_pos; [reflexivity|exact L]|].
    assert (L' : ~ (0 <= b)%Q) by (intro H; apply Qle_bool_iff in H; congruence). apply Qnot_le_lt in L'. rewrite Qabs_neg; [reflexivity|]. apply Qlt_le_weak. exact L'. }
  rewrite E1, E2. reflexivity.
Qed.

(** a loop that keeps the last device *)
Lemma foldM_app : forall {S B} (f : S -> B -> res S) a b s, foldM f s (a ++ b) = let! t := foldM f s a in foldM f t b.
Proof. intros S B f. induction a as [|x a IH]; intros b s; cbn [foldM app]; [reflexivity|]. destruct (f s x) as [t|e]; cbn [bind]; [apply IH|reflexivity]. Qed.
Lemma foldM_none : forall {S B} (f : S -> B -> res S) (P : B -> Prop) b s t, (forall s x t, f s x = Ok t -> ~ P x -> t = s) -> Forall (fun y => ~ P y) b -> foldM f s b = Ok t -> t = s.
Proof.
  intros S B f P b. induction b as [|x b IH]; intros s t K F H; cbn [foldM] in H; [injection H as <-; reflexivity|]. inversion F as [|x0 b0 F1 F2]; subst. apply bind_ok in H. destruct H as (u & U & H). rewrite (K _ _ _ U F1) in H. exact (IH _ _ K F2 H).
Qed.
Lemma foldM_last : forall {S B} (f : S -> B -> res S) (P : B -> Prop) (Q : B -> S -> Prop) l s t x,
  (forall s x t, f s x = Ok t -> ~ P x -> t = s) -> (forall s x t, f s x = Ok t -> P x -> Q x t) -> last_such P l x -> foldM f s l = Ok t -> Q x t.
Proof.
  intros S B f P Q l s t x K C (a & b & -> & PX & F) H. rewrite foldM_app in H. apply bind_ok in H. destruct H as (u & _ & H). cbn [foldM] in H. apply bind_ok in H. destruct H as (w & W & H). rewrite (foldM_none f P b w t K F H). exact (C _ _ _ W PX).
Qed.

Section File.
  Variable float : pystr -> option Q.
  Variable fit : list Q -> Q * Q.
  Variables is_lazy uniform stack : bool.
  Variable name : pystr.
  Variable f : tvf.
  Lemma file_parts : forall r, file_reader float fit is_lazy uniform stack name f = Ok r ->
    exists gs n c cs s, f_info f = Some gs /\ r_info r = process_info gs /\ filter_hardware (r_info r) (f_hardware f) = Ok (r_hardware r) /\
      findall (f_data f) "Childs" = c :: cs /\ lookup (str "Count") (x_attrs c) = Some s /\ parse_int s = Ok n /\ map_metadata float name (f_document f) n (r_info r) (r_hardware r) = Ok (r_metadata r).
  Proof.
    intros r H. unfold file_reader in H. destruct is_lazy; [discriminate H|]. destruct (f_info f) as [gs|]; [|discriminate H]. cbv zeta in H. apply bind_ok in H. destruct H as (h & FH & H). apply bind_ok in H. destruct H as (n & N & H). apply bind_ok in H. destruct H as ([[data times] signals] & _ & H). apply bind_ok in H. destruct H as (outer & _ & H). apply bind_ok in H. destruct H as (rr & _ & H). apply bind_ok in H. destruct H as (m & M & H). injection H as <-. cbn [r_info r_hardware r_metadata].
    destruct (findall (f_data f) "Childs") as [|c cs] eqn:FC; [discriminate N|]. apply bind_ok in N. destruct N as (s & A & PI). unfold attr in A. destruct (lookup (str "Count") (x_attrs c)) as [s'|] eqn:L; [|discriminate A]. injection A as ->.
    exists gs, n, c, cs, s. repeat split; assumption.
  Qed.
  Lemma entry_of : forall i n k v, entry_is i n k v -> entry i n k = Ok v.
  Proof. intros i n k v (e & E & L). unfold entry. rewrite E. cbn [sub_item]. rewrite L. reflexivity. Qed.

  Theorem C100_names : forall r gs, file_reader float fit is_lazy uniform stack name f = Ok r -> f_info f = Some gs -> well_named (Groups [] gs) -> says (Groups [] gs) (Sub (r_info r)).
  Proof.
    intros r gs H G W. destruct (file_parts r H) as (gs' & n & c & cs & s & G' & I & _). rewrite G in G'. injection G' as <-. rewrite I. exact (says_info _ W).
  Qed.
  Lemma hardware_parts : forall r, file_reader float fit is_lazy uniform stack name f = Ok r ->
    filter_laser (r_info r) (h_lasers (f_hardware f)) = Ok (h_lasers (r_hardware r)) /\ filter_camera (r_info r) (h_cameras (f_hardware f)) = Ok (h_cameras (r_hardware r)) /\
    filter_objectives (h_microscopes (f_hardware f)) = Ok (h_microscopes (r_hardware r)) /\ filter_monochromators (r_info r) (h_monochromators (f_hardware f)) = Ok (h_monochromators (r_hardware r)).
  Proof.
    intros r H. destruct (file_parts r H) as (gs & n & c & cs & s & _ & _ & FH & _). unfold filter_hardware in FH. apply bind_ok in FH. destruct FH as (a & A & FH). apply bind_ok in FH. destruct FH as (b & B & FH). apply bind_ok in FH. destruct FH as (m & M & FH). apply bind_ok in FH. destruct FH as (d & D & FH). injection FH as FH. rewrite <- FH. cbn [h_lasers h_cameras h_microscopes h_monochromators]. repeat split; assumption.
  Qed.
  (** The light source is the last one of the calibrated wavelength; without one all are kept *)
  Theorem C100_laser : forall r w l, file_reader float fit is_lazy uniform stack name f = Ok r -> entry_is (r_info r) "Calibration" "Laser_Wavelength" (Num w) -> h_lasers (f_hardware f) = Several l ->
    (forall x, last_such (shines w) l x -> h_lasers (r_hardware r) = Single x) /\ (Forall (fun x => ~ shines w x) l -> h_lasers (r_hardware r) = Several l).
  Proof.
    intros r w l H E L. destruct (hardware_parts r H) as (FL & _). unfold filter_laser in FL. rewrite (entry_of _ _ _ _ E), L in FL. cbn [each] in FL.
    assert (step : forall s x t, (match l_wave x with None => Ok s | Some w0 => let! b := close_values (Num w) w0 in let! z := if b : bool then close_values w0 (Num 0) else Ok true in Ok (if b && negb z then Single x else s) end) = Ok t -> (shines w x -> t = Single x) /\ (~ shines w x -> t = s)).
    { intros s x t T. unfold shines. destruct (l_wave x) as [v|] eqn:V.
      - apply bind_ok in T. destruct T as (b & B & T). apply bind_ok in T. destruct T as (z & Z & T). injection T as <-. destruct v as [|s0|q|b0]; try discriminate B. cbn [close_values] in B. injection B as <-. destruct (isclose w q) eqn:C.
        + cbn [close_values] in Z. injection Z as <-. destruct (isclose q 0) eqn:C0; cbn [andb negb].
          * split; [|reflexivity]. intros (q' & Q & _ & N). injection Q as <-. destruct N. apply near_spec. exact C0.
          * split; [reflexivity|]. intro N. destruct N. exists q. split; [reflexivity|]. split; [apply near_spec; exact C|]. intro X. apply near_spec in X. congruence.
        + cbn [andb]. split; [|reflexivity]. intros (q' & Q & N & _). injection Q as <-. apply near_spec in N. congruence.
      - injection T as <-. split; [|reflexivity]. intros (q & Q & _). discriminate Q. }
    split.
    - intros x X. apply (foldM_last _ (shines w) (fun x t => t = Single x) l _ _ x) in FL; [exact FL| | |exact X]; intros s y t T; apply step in T; apply T.
    - intro F. apply (foldM_none _ (shines w)) in FL; [exact FL| |exact F]. intros s y t T. apply step in T. apply T.
  Qed.
  Theorem C100_camera : forall r v l, file_reader float fit is_lazy uniform stack name f = Ok r -> entry_is (r_info r) "Detector" "Name" v -> h_cameras (f_hardware f) = Several l ->
    (forall x, last_such (fun c => same_value (c_name c) v) l x -> h_cameras (r_hardware r) = Single x) /\ (Forall (fun c => ~ same_value (c_name c) v) l -> h_cameras (r_hardware r) = Several l).
  Proof.
    intros r v l H E L. destruct (hardware_parts r H) as (_ & FC & _). unfold filter_camera in FC. rewrite (entry_of _ _ _ _ E), L in FC. cbn [each bind] in FC.
    assert (step : forall s x t, Ok (if eqb_value (c_name x) v then Single x else s) = Ok t -> (same_value (c_name x) v -> t = Single x) /\ (~ same_value (c_name x) v -> t = s)).
    { intros s x t T. injection T as <-. destruct (eqb_value (c_name x) v) eqn:C; (split; [|]); intro N; try reflexivity; [destruct N; apply same_value_spec; exact C|apply same_value_spec in N; congruence]. }
    split.
    - intros x X. apply (foldM_last _ (fun c => same_value (c_name c) v) (fun x t => t = Single x) l _ _ x) in FC; [exact FC| | |exact X]; intros s y t T; apply step in T; apply T.
    - intro F. apply (foldM_none _ (fun c => same_value (c_name c) v)) in FC; [exact FC| |exact F]. intros s y t T. apply step in T. apply T.
  Qed.
  (** The objective is the last one that is enabled *)
  Definition enabled_in (m : microscope) (o : objective) : Prop := exists l, m_objectives m = Several l /\ last_such (fun o => yes (o_enabled o)) l o.
  Theorem C100_objective : forall r l m o, file_reader float fit is_lazy uniform stack name f = Ok r -> h_microscopes (f_hardware f) = Several l ->
    last_such (fun m => exists o, enabled_in m o) l m -> enabled_in m o ->
    h_microscopes (r_hardware r) = Single {| m_objectives := Single o; m_rest := m_rest m |} /\ y_magnification (r_metadata r) = o_magnification o.
  Proof.
    intros r l m o H L LM EO.
    assert (step : forall m (s t : devices microscope), each (fun s o => Ok (if truthy (o_enabled o) then Single {| m_objectives := Single o; m_rest := m_rest m |} else s)) s (m_objectives m) = Ok t ->
      (forall o, enabled_in m o -> t = Single {| m_objectives := Single o; m_rest := m_rest m |}) /\ ((~ exists o, enabled_in m o) -> t = s)).
    { intros m0 s t T. unfold enabled_in. destruct (m_objectives m0) as [a|os] eqn:MO; cbn [each] in T; [discriminate T|].
      assert (st : forall s (x : objective) t, Ok (if truthy (o_enabled x) then Single {| m_objectives := Single x; m_rest := m_rest m0 |} else s) = Ok t -> (yes (o_enabled x) -> t = Single {| m_objectives := Single x; m_rest := m_rest m0 |}) /\ (~ yes (o_enabled x) -> t = s)).
      { intros s1 x t1 T1. injection T1 as <-. destruct (truthy (o_enabled x)) eqn:C; split; intro N; try reflexivity; [destruct N; apply truthy_spec; exact C|apply truthy_spec in N; congruence]. }
      split.
      - intros o1 (l1 & E1 & LS). injection E1 as <-. apply (foldM_last _ (fun o => yes (o_enabled o)) (fun x t => t = Single {| m_objectives := Single x; m_rest := m_rest m0 |}) os _ _ o1) in T; [exact T| | |exact LS]; intros s1 y t1 T1; apply st in T1; apply T1.
      - intro N. apply (foldM_none _ (fun o => yes (o_enabled o))) in T; [exact T|intros s1 y t1 T1; apply st in T1; apply T1|].
        assert (X : forall k (b : list objective), (List.length b <= k)%nat -> (exists a, os = a ++ b) -> (Forall (fun y => ~ yes (o_enabled y)) b) \/ exists o, last_such (fun o => yes (o_enabled o)) os o).
        { induction k as [|k IHk]; intros b LB (a & A); [destruct b; [left; constructor|cbn [List.length] in LB; lia]|]. destruct b as [|y b]; [left; constructor|]. cbn [List.length] in LB. destruct (IHk b) as [F|R]; [lia|exists (a ++ [y]); rewrite <- app_assoc; exact A| |right; exact R].
          destruct (truthy (o_enabled y)) eqn:C; [right; exists y, a, b; split; [exact A|split; [apply truthy_spec; exact C|exact F]]|left; constructor; [intro Y; apply truthy_spec in Y; congruence|exact F]]. }
        destruct (X (List.length os) os) as [F|(o1 & O1)]; [lia|exists []; reflexivity|exact F|]. destruct N. exists o1, os. split; [reflexivity|exact O1]. }
    destruct (hardware_parts r H) as (_ & _ & FM & _). unfold filter_objectives in FM. rewrite L in FM. cbn [each] in FM.
    assert (HM : h_microscopes (r_hardware r) = Single {| m_objectives := Single o; m_rest := m_rest m |}).
    { refine (foldM_last _ (fun m => exists o, enabled_in m o) (fun m t => forall o, enabled_in m o -> t = Single {| m_objectives := Single o; m_rest := m_rest m |}) l _ _ m _ _ LM FM o EO); intros s y t T; destruct (step _ _ _ T) as [T1 T2]; [exact T2|intros _; exact T1]. }
    split; [exact HM|]. destruct (file_parts r H) as (gs & n & c & cs & s & _ & _ & _ & _ & _ & _ & MM). unfold map_metadata in MM. apply bind_ok in MM. destruct MM as (g & _ & MM). apply bind_ok in MM. destruct MM as (d & _ & MM). cbv zeta in MM. apply bind_ok in MM. destruct MM as (mag & MAG & MM). apply bind_ok in MM. destruct MM as (st & _ & MM). injection MM as MM. rewrite <- MM. cbn [y_magnification]. unfold magnification in MAG. rewrite HM in MAG. cbn [the bind m_objectives] in MAG. injection MAG as <-. reflexivity.
  Qed.
  (** * Spectrometers *)
  Lemma foldM_same : forall {S T B} (g : S -> T) (fn : S -> B -> res S) (P : B -> Prop) b s t, (forall s x t, fn s x = Ok t -> ~ P x -> g t = g s) -> Forall (fun y => ~ P y) b -> foldM fn s b = Ok t -> g t = g s.
  Proof.
    intros S T B g fn P b. induction b as [|x b IH]; intros s t K F H; cbn [foldM] in H; [injection H as <-; reflexivity|]. inversion F as [|x0 b0 F1 F2]; subst. apply bind_ok in H. destruct H as (u & U & H). rewrite (IH _ _ K F2 H). exact (K _ _ _ U F1).
  Qed.
  Lemma foldM_last_on : forall {S T B} (g : S -> T) (fn : S -> B -> res S) (P : B -> Prop) (Q : B -> T -> Prop) l s t x,
    (forall s x t, fn s x = Ok t -> ~ P x -> g t = g s) -> (forall s x t, fn s x = Ok t -> P x -> Q x (g t)) -> last_such P l x -> foldM fn s l = Ok t -> Q x (g t).
  Proof.
    intros S T B g fn P Q l s t x K C (a & b & -> & PX & F) H. rewrite foldM_app in H. apply bind_ok in H. destruct H as (u & _ & H). cbn [foldM] in H. apply bind_ok in H. destruct H as (w & W & H). rewrite (foldM_same g fn P b w t K F H). exact (C _ _ _ W PX).
  Qed.
  Lemma serial_spec : forall m n u serials, mapM (fun kv : pystr * info => let! s := sub_item (snd kv) (str "Serialnumber") in Ok (fst kv, s)) u = Ok serials -> find_serial (s_serial m) serials = Some n <-> used_as u n m.
  Proof.
    intros m n. induction u as [|[k v] u IH]; intros serials H; cbn [mapM] in H.
    - injection H as <-. cbn [find_serial]. split; [discriminate|]. intros (a & b & v & s & E & _). destruct a; discriminate E.
    - apply bind_ok in H. destruct H as (p & P & H). apply bind_ok in H. destruct H as (q & Q & H). injection H as <-. cbn [fst snd] in P. apply bind_ok in P. destruct P as (s & S & P). injection P as <-. cbn [find_serial]. destruct (eqb_value (s_serial m) s) eqn:E.
      + apply same_value_spec in E. split.
        * intro X. injection X as <-. exists [], u, v, s. split; [reflexivity|]. split; [exact S|]. split; [exact E|constructor].
        * intros (a & b & v' & s' & EU & S' & SV & F). destruct a as [|x a]; cbn [app] in EU; [injection EU as <- _ _; reflexivity|]. injection EU as <- _. inversion F as [|x0 a0 F1 F2]; subst. destruct (F1 s S E).
      + assert (NE : ~ same_value (s_serial m) s) by (intro X; apply same_value_spec in X; congruence). rewrite (IH _ Q). split.
        * intros (a & b & v' & s' & -> & S' & SV & F). exists ((k, v) :: a), b, v', s'. split; [reflexivity|]. split; [exact S'|]. split; [exact SV|]. constructor; [|exact F]. intros s1 S1. cbn [snd] in S1. rewrite S in S1. injection S1 as <-. exact NE.
        * intros (a & b & v' & s' & EU & S' & SV & F). destruct a as [|x a]; cbn [app] in EU; [injection EU as <- <- _; rewrite S in S'; injection S' as <-; contradiction|]. injection EU as <- ->. inversion F; subst. exists a, b, v', s'. repeat split; assumption.
  Qed.
  Definition fitted (u : list (pystr * info)) (n : pystr) (m : monochromator) (d : devices monochromator) : Prop :=
    exists g, d = Single {| s_serial := s_serial m; s_gratings := g; s_rest := s_rest m |} /\
    forall v groove l, lookup n u = Some v -> sub_item v (str "Groove_Density") = Ok groove -> s_gratings m = Several l ->
      (forall x, last_such (fun x => same_value (g_groove x) groove) l x -> g = Single x) /\ (Forall (fun x => ~ same_value (g_groove x) groove) l -> g = Several l).
  Lemma gratings_spec : forall v groove m g l, filter_gratings (sub_item v (str "Groove_Density")) (s_gratings m) = Ok g -> sub_item v (str "Groove_Density") = Ok groove -> s_gratings m = Several l ->
    (forall x, last_such (fun x => same_value (g_groove x) groove) l x -> g = Single x) /\ (Forall (fun x => ~ same_value (g_groove x) groove) l -> g = Several l).
  Proof.
    intros v groove m g l H V L. unfold filter_gratings in H. rewrite V, L in H. cbn [each bind] in H.
    assert (step : forall s x t, Ok (if eqb_value (g_groove x) groove then Single x else s) = Ok t -> (same_value (g_groove x) groove -> t = Single x) /\ (~ same_value (g_groove x) groove -> t = s)).
    { intros s x t T. injection T as <-. destruct (eqb_value (g_groove x) groove) eqn:C; split; intro N; try reflexivity; [destruct N; apply same_value_spec; exact C|apply same_value_spec in N; congruence]. }
    split.
    - intros x X. apply (foldM_last _ (fun x => same_value (g_groove x) groove) (fun x t => t = Single x) l _ _ x) in H; [exact H| | |exact X]; intros s y t T; apply step in T; apply T.
    - intro F. apply (foldM_none _ (fun x => same_value (g_groove x) groove)) in H; [exact H| |exact F]. intros s y t T. apply step in T. apply T.
  Qed.
  Lemma spectrometer_parts : forall r u ms, file_reader float fit is_lazy uniform stack name f = Ok r -> lookup (str "Spectrometers") (r_info r) = Some (Sub u) -> lookup (str "Spectrometer") (h_monochromators (f_hardware f)) = Some (Several ms) ->
    exists st n0, snd st = Some n0 /\ h_monochromators (r_hardware r) = (if eqb_str n0 (str "Spectrometer") then fst st else without (str "Spectrometer") (fst st)) /\
      (forall k, Forall (fun m => ~ used_as u k m) ms -> lookup k (fst st) = lookup k (h_monochromators (f_hardware f))) /\
      (forall k m, last_such (used_as u k) ms m -> exists d, lookup k (fst st) = Some d /\ fitted u k m d) /\
      (forall m k, last_such (fun m => exists k, used_as u k m) ms m -> used_as u k m -> n0 = k) /\
      ~ Forall (fun m => ~ exists k, used_as u k m) ms.
  Proof.
    intros r u ms H U HM. destruct (hardware_parts r H) as (_ & _ & _ & FM). unfold filter_monochromators in FM. unfold used in FM. rewrite U in FM. cbn [bind] in FM. apply bind_ok in FM. destruct FM as (serials & S & FM). rewrite HM in FM. apply bind_ok in FM. destruct FM as (st & ST & FM). destruct (snd st) as [n0|] eqn:N0; [|discriminate FM]. injection FM as FM. cbn [each] in ST.
    exists st, n0. split; [exact N0|]. split; [symmetry; exact FM|].
    match type of ST with foldM ?fn _ _ = _ => set (step := fn) in * end.
    assert (SS : forall s m t, step s m = Ok t -> (forall k, used_as u k m -> snd t = Some k /\ exists d, fst t = put k d (fst s) /\ fitted u k m d) /\ ((~ exists k, used_as u k m) -> t = s)).
    { intros s m t T. unfold step in T. pose proof (fun n => serial_spec m n u serials S) as SP. destruct (find_serial (s_serial m) serials) as [n|].
      - apply bind_ok in T. destruct T as (g & G & T). injection T as <-. split.
        + intros k K. apply SP in K. injection K as <-. cbn [fst snd]. split; [reflexivity|]. eexists. split; [reflexivity|]. exists g. split; [reflexivity|]. intros v groove l V GR L. rewrite V in G. exact (gratings_spec v groove m g l G GR L).
        + intro N. destruct N. exists n. apply SP. reflexivity.
      - injection T as <-. split; [|reflexivity]. intros k K. apply SP in K. discriminate K. }
    assert (DEC : forall m, (exists k, used_as u k m) \/ ~ exists k, used_as u k m).
    { intro m. pose proof (fun n => serial_spec m n u serials S) as SP. destruct (find_serial (s_serial m) serials) as [n|]; [left; exists n; apply SP; reflexivity|right; intros [k K]; apply SP in K; discriminate K]. }
    assert (UU : forall m k k', used_as u k m -> used_as u k' m -> k = k') by (intros m k k' K K'; apply (serial_spec m k u serials S) in K; apply (serial_spec m k' u serials S) in K'; congruence).
    assert (other : forall k s m t, step s m = Ok t -> ~ used_as u k m -> lookup k (fst t) = lookup k (fst s)).
    { intros k s m t T N. destruct (SS _ _ _ T) as [S1 S2]. destruct (DEC m) as [[k' K']|D]; [|rewrite (S2 D); reflexivity]. destruct (S1 k' K') as (_ & d & E & _). rewrite E, lookup_put. destruct (eqb_str k k') eqn:Q; [apply eqb_str_spec in Q; subst; contradiction|reflexivity]. }
    split; [|split; [|split]].
    - intros k F. exact (foldM_same (fun s => lookup k (fst s)) step (used_as u k) ms _ st (other k) F ST).
    - intros k m LS. refine (foldM_last_on (fun s => lookup k (fst s)) step (used_as u k) (fun m o => exists d, o = Some d /\ fitted u k m d) ms _ st m (other k) _ LS ST).
      intros s y t T K. destruct (SS _ _ _ T) as [S1 _]. destruct (S1 k K) as (_ & d & E & FT). exists d. split; [|exact FT]. rewrite E, lookup_put, eqb_str_refl. reflexivity.
    - intros m k LS K. assert (X : snd st = Some k); [|congruence].
      refine (foldM_last_on snd step (fun m => exists k, used_as u k m) (fun m o => forall k, used_as u k m -> o = Some k) ms _ st m _ _ LS ST k K).
      + intros s y t T N. destruct (SS _ _ _ T) as [_ S2]. rewrite (S2 N). reflexivity.
      + intros s y t T _ k' K'. destruct (SS _ _ _ T) as [S1 _]. exact (proj1 (S1 k' K')).
    - intro F. assert (X : st = (h_monochromators (f_hardware f), None)); [|rewrite X in N0; discriminate N0].
      refine (foldM_none step (fun m => exists k, used_as u k m) ms _ st _ F ST). intros s y t T N. destruct (SS _ _ _ T) as [_ S2]. exact (S2 N).
  Qed.
  Theorem C100_spectrometers : forall r u ms n m, file_reader float fit is_lazy uniform stack name f = Ok r ->
    lookup (str "Spectrometers") (r_info r) = Some (Sub u) -> lookup (str "Spectrometer") (h_monochromators (f_hardware f)) = Some (Several ms) ->
    last_such (used_as u n) ms m -> n <> str "Spectrometer" \/ last_such (fun m => exists k, used_as u k m) ms m ->
    exists d, lookup n (h_monochromators (r_hardware r)) = Some d /\ fitted u n m d.
  Proof.
    intros r u ms n m H U HM LS C. destruct (spectrometer_parts r u ms H U HM) as (st & n0 & _ & HR & _ & LA & LU & _). rewrite HR. destruct (LA n m LS) as (d & D & FT). exists d. split; [|exact FT]. destruct (eqb_str n0 (str "Spectrometer")) eqn:E; [exact D|]. rewrite lookup_without.
    destruct (eqb_str n (str "Spectrometer")) eqn:EN; [|exact D]. apply eqb_str_spec in EN. destruct C as [C|C]; [contradiction|]. assert (UN : used_as u n m) by (destruct LS as (a & b & _ & X & _); exact X). rewrite (LU m n C UN), EN, eqb_str_refl in E. discriminate E.
  Qed.
  (** Others stay, but the list of all spectrometers goes *)
  Theorem C100_others : forall r u ms, file_reader float fit is_lazy uniform stack name f = Ok r ->
    lookup (str "Spectrometers") (r_info r) = Some (Sub u) -> lookup (str "Spectrometer") (h_monochromators (f_hardware f)) = Some (Several ms) ->
    (forall k, k <> str "Spectrometer" -> Forall (fun m => ~ used_as u k m) ms -> lookup k (h_monochromators (r_hardware r)) = lookup k (h_monochromators (f_hardware f))) /\
    (forall n m, last_such (fun m => exists k, used_as u k m) ms m -> used_as u n m -> n <> str "Spectrometer" -> lookup (str "Spectrometer") (h_monochromators (r_hardware r)) = None) /\
    ~ Forall (fun m => ~ exists k, used_as u k m) ms.
  Proof.
    intros r u ms H U HM. destruct (spectrometer_parts r u ms H U HM) as (st & n0 & _ & HR & OT & _ & LU & NF). split; [|split; [|exact NF]].
    - intros k K F. rewrite HR, <- (OT k F). destruct (eqb_str n0 (str "Spectrometer")); [reflexivity|]. rewrite lookup_without, (proj2 (eqb_str_neq _ _) K). reflexivity.
    - intros n m LS K NE. rewrite HR, (LU m n LS K), (proj2 (eqb_str_neq _ _) NE), lookup_without, eqb_str_refl. reflexivity.
  Qed.
  (** One device of a kind is not a list: such a file is never read *)
  Theorem C100_single_refuted : forall r,
    (exists x, h_cameras (f_hardware f) = Single x) \/ (exists x, h_microscopes (f_hardware f) = Single x) \/ (exists x, lookup (str "Spectrometer") (h_monochromators (f_hardware f)) = Some (Single x)) \/
    (exists gs x v, f_info f = Some gs /\ h_lasers (f_hardware f) = Single x /\ entry_is (process_info gs) "Calibration" "Laser_Wavelength" v) \/
    (exists l m x, h_microscopes (f_hardware f) = Several l /\ In m l /\ m_objectives m = Single x) ->
    file_reader float fit is_lazy uniform stack name f <> Ok r.
  Proof.
    intros r C H. destruct (hardware_parts r H) as (FL & FC & FO & FM). destruct C as [[x C]|[[x C]|[[x C]|[(gs & x & v & G & C & E)|(l & m & x & C & I & O)]]]].
    - rewrite C in FC. discriminate FC.
    - rewrite C in FO. discriminate FO.
    - unfold filter_monochromators in FM. apply bind_ok in FM. destruct FM as (u & _ & FM). apply bind_ok in FM. destruct FM as (s & _ & FM). rewrite C in FM. discriminate FM.
    - destruct (file_parts r H) as (gs' & n & c & cs & s & G' & RI & _). rewrite G in G'. injection G' as <-. rewrite RI in FL. unfold filter_laser in FL. rewrite (entry_of _ _ _ _ E), C in FL. discriminate FL.
    - unfold filter_objectives in FO. rewrite C in FO. cbn [each] in FO. apply in_split in I. destruct I as (a & b & ->). rewrite foldM_app in FO. apply bind_ok in FO. destruct FO as (t & _ & FO). cbn [foldM] in FO. rewrite O in FO. discriminate FO.
  Qed.
  Lemma foldM_id : forall {S B} (fn : S -> B -> res S) l s t, (forall s x t, In x l -> fn s x = Ok t -> t = s) -> foldM fn s l = Ok t -> t = s.
  Proof.
    intros S B fn. induction l as [|x l IH]; intros s t K H; cbn [foldM] in H; [injection H as <-; reflexivity|]. apply bind_ok in H. destruct H as (u & U & H). rewrite <- (K s x u (or_introl eq_refl) U). apply IH; [|exact H]. intros s' y t' I. apply K. right. exact I.
  Qed.
  Lemma metadata_parts : forall r, file_reader float fit is_lazy uniform stack name f = Ok r ->
    exists c s n mag, first_child (f_data f) "Childs" c /\ lookup (str "Count") (x_attrs c) = Some s /\ parse_int s = Ok n /\
      map_general name (f_document f) = Ok (y_general (r_metadata r)) /\ y_quantity (r_metadata r) = quantity (f_document f) /\ map_detector float n (r_info r) = Ok (y_detector (r_metadata r)) /\
      magnification (r_hardware r) = Ok mag /\ y_wavelength (r_metadata r) = laser_wavelength float (r_info r) /\
      mapM (map_stage float (r_hardware r) (get_entry (r_info r) "Calibration" "Center_Wavelength")) (match lookup (str "Spectrometers") (r_info r) with Some (Sub l) => l | _ => [] end) = Ok (y_stages (r_metadata r)).
  Proof.
    intros r H. destruct (file_parts r H) as (gs & n & c & cs & s & _ & _ & _ & CH & CN & PI & MM). unfold map_metadata in MM. apply bind_ok in MM. destruct MM as (g & G & MM). apply bind_ok in MM. destruct MM as (d & D & MM). cbv zeta in MM. apply bind_ok in MM. destruct MM as (mag & MAG & MM). apply bind_ok in MM. destruct MM as (st & ST & MM). injection MM as MM. rewrite <- MM. cbn [y_general y_quantity y_detector y_wavelength y_stages].
    exists c, s, n, mag. split; [|repeat split; assumption]. clear - CH. unfold findall in CH. unfold first_child. induction (x_children (f_data f)) as [|e l IH]; [discriminate CH|]. cbn [filter] in CH. destruct (eqb_str (x_tag e) (str "Childs")) eqn:E.
    - injection CH as <- _. exists [], l. split; [reflexivity|]. split; [apply eqb_str_spec; exact E|constructor].
    - destruct (IH CH) as (pre & post & -> & T & F). exists (e :: pre), post. split; [reflexivity|]. split; [exact T|]. constructor; [apply eqb_str_neq; exact E|exact F].
  Qed.
  (** No objective is enabled: the file is not read *)
  Theorem C100_objective_refuted : forall r l, h_microscopes (f_hardware f) = Several l -> (forall m os o, In m l -> m_objectives m = Several os -> In o os -> ~ yes (o_enabled o)) -> file_reader float fit is_lazy uniform stack name f <> Ok r.
  Proof.
    intros r l L N H. destruct (hardware_parts r H) as (_ & _ & FO & _). unfold filter_objectives in FO. rewrite L in FO. cbn [each] in FO. apply foldM_id in FO.
    - destruct (metadata_parts r H) as (c & s & n & mag & _ & _ & _ & _ & _ & _ & M & _). unfold magnification in M. rewrite FO in M. discriminate M.
    - intros s m t I T. destruct (m_objectives m) as [o|os] eqn:MO; cbn [each] in T; [discriminate T|]. apply foldM_id in T; [exact T|]. intros s1 o t1 IO T1. injection T1 as <-. destruct (truthy (o_enabled o)) eqn:E; [|reflexivity]. destruct (N m os o I MO IO). apply truthy_spec. exact E.
  Qed.

  (** * Metadata *)
  Definition upto (c : Z) (s t : pystr) : Prop := ~ In c t /\ (s = t \/ exists rest, s = t ++ c :: rest).
  Lemma upto_read : forall c s t, upto c s t -> hd [] (split_char c s) = t.
  Proof. intros c s t [N [->|[rest ->]]]; [rewrite split_char_nosep by exact N; reflexivity|rewrite split_char_app by exact N; reflexivity]. Qed.
  Theorem C100_title : forall r t, file_reader float fit is_lazy uniform stack name f = Ok r -> upto 46 name t -> e_title (y_general (r_metadata r)) = t /\ e_file (y_general (r_metadata r)) = name.
  Proof.
    intros r t H U. destruct (metadata_parts r H) as (c & s & n & mag & _ & _ & _ & G & _). unfold map_general in G. apply bind_ok in G. destruct G as (dt & _ & G). injection G as G. rewrite <- G. cbn [e_title e_file]. split; [apply upto_read; exact U|reflexivity].
  Qed.
  (** month/day/year *)
  Theorem C100_date : forall r mm dd yy clock t, file_reader float fit is_lazy uniform stack name f = Ok r -> d_record (f_document f) = Some (mm ++ str "/" ++ dd ++ str "/" ++ yy ++ str " " ++ clock) ->
    (forall p, In p [mm; dd; yy] -> ~ In 47 p /\ ~ In 32 p) -> ~ In 32 clock -> upto 46 clock t -> e_date (y_general (r_metadata r)) = Some (yy ++ str "-" ++ mm ++ str "-" ++ dd, t).
  Proof.
    intros r mm dd yy clock t H D P NC U. destruct (metadata_parts r H) as (c & s & n & mag & _ & _ & _ & G & _). unfold map_general in G. rewrite D in G.
    destruct (P mm) as [M1 M2]; [cbn; tauto|]. destruct (P dd) as [D1 D2]; [cbn; tauto|]. destruct (P yy) as [Y1 Y2]; [cbn; tauto|].
    replace (mm ++ str "/" ++ dd ++ str "/" ++ yy ++ str " " ++ clock) with ((mm ++ str "/" ++ dd ++ str "/" ++ yy) ++ 32 :: clock) in G by (rewrite <- !app_assoc; reflexivity).
    rewrite split_char_app in G by (rewrite !in_app_iff; cbn; intuition discriminate). rewrite split_char_nosep in G by exact NC.
    change (mm ++ str "/" ++ dd ++ str "/" ++ yy) with (mm ++ 47 :: dd ++ 47 :: yy) in G. rewrite split_char_app in G by exact M1. rewrite split_char_app in G by exact D1. rewrite split_char_nosep in G by exact Y1. rewrite (upto_read _ _ _ U) in G. cbn [bind last] in G. injection G as G. rewrite <- G. reflexivity.
  Qed.
  Theorem C100_quantity : forall r a b, file_reader float fit is_lazy uniform stack name f = Ok r -> d_label (f_document f) = Some a -> d_data_label (f_document f) = Some b -> y_quantity (r_metadata r) = Some (a ++ str " (" ++ b ++ str ")").
  Proof. intros r a b H A B. destruct (metadata_parts r H) as (c & s & n & mag & _ & _ & _ & _ & Q & _). rewrite Q. unfold quantity. rewrite A, B. reflexivity. Qed.
  (** Exposure in seconds, and the time of all frames unless they are averaged *)
  Lemma get_entry_of : forall i n k v, entry_is i n k v -> get_entry i n k = v.
  Proof. intros i n k v (e & E & L). unfold get_entry. rewrite E, L. reflexivity. Qed.
  Theorem C100_exposure : forall r ms, file_reader float fit is_lazy uniform stack name f = Ok r -> entry_is (r_info r) "Detector" "Exposure_Time_(ms)" (Num ms) ->
    k_exposure (y_detector (r_metadata r)) = Some (ms / 1000)%Q /\
    (forall v, entry_is (r_info r) "Detector" "Calc_Average" v -> yes v -> k_time (y_detector (r_metadata r)) = Some (ms / 1000)%Q) /\
    (forall v frames, entry_is (r_info r) "Detector" "Calc_Average" v -> ~ yes v -> entry_is (r_info r) "Detector" "No_of_Accumulations" (Num frames) -> k_time (y_detector (r_metadata r)) = Some (ms / 1000 * frames)%Q).
  Proof.
    intros r ms H E. destruct (metadata_parts r H) as (c & s & n & mag & _ & _ & _ & _ & _ & D & _). unfold map_detector in D. apply bind_ok in D. destruct D as (g & _ & D). cbv zeta in D. rewrite (get_entry_of _ _ _ _ E) in D. injection D as D. rewrite <- D. cbn [k_exposure k_time]. split; [reflexivity|]. split.
    - intros v V Y. rewrite (get_entry_of _ _ _ _ V). apply truthy_spec in Y. rewrite Y. reflexivity.
    - intros v frames V N F. rewrite (get_entry_of _ _ _ _ V), (get_entry_of _ _ _ _ F). destruct (truthy v) eqn:T; [apply truthy_spec in T; contradiction|reflexivity].
  Qed.
  Theorem C100_detector : forall r, file_reader float fit is_lazy uniform stack name f = Ok r ->
    (forall v, entry_is (r_info r) "Detector" "Detector_Temperature" v -> k_temperature (y_detector (r_metadata r)) = v) /\
    (forall v, entry_is (r_info r) "Detector" "No_of_Accumulations" v -> k_frames (y_detector (r_metadata r)) = v) /\
    (forall v, entry_is (r_info r) "Detector" "Calc_Average" v -> k_average (y_detector (r_metadata r)) = v).
  Proof.
    intros r H. destruct (metadata_parts r H) as (c & s & n & mag & _ & _ & _ & _ & _ & D & _). unfold map_detector in D. apply bind_ok in D. destruct D as (g & _ & D). injection D as D. rewrite <- D. cbn [k_temperature k_frames k_average]. repeat split; intros v V; apply get_entry_of; exact V.
  Qed.
  (** Glued spectra: the overlap and the number of parts *)
  Theorem C100_glued : forall r, file_reader float fit is_lazy uniform stack name f = Ok r ->
    (forall e q c n, lookup (str "Experiment") (r_info r) = Some (Entries e) -> number_entry float e "Overlap (%)" q -> first_child (f_data f) "Childs" c -> lookup (str "Count") (x_attrs c) = Some (str_int n) -> k_glued (y_detector (r_metadata r)) = Some (Some (q, n))) /\
    (forall e, lookup (str "Experiment") (r_info r) = Some (Entries e) -> lookup (str "Overlap (%)") e = None -> k_glued (y_detector (r_metadata r)) = Some None) /\
    (lookup (str "Experiment") (r_info r) = None -> k_glued (y_detector (r_metadata r)) = None).
  Proof.
    intros r H. destruct (metadata_parts r H) as (c & s & n & mag & FC & CN & PI & _ & _ & D & _). unfold map_detector in D. apply bind_ok in D. destruct D as (g & G & D). injection D as D. rewrite <- D. cbn [k_glued]. repeat split.
    - intros e q c' n' E O FC' CN'. assert (c' = c) by (apply first_location in FC; apply first_location in FC'; congruence). subst c'. rewrite CN in CN'. injection CN' as ->. rewrite parse_int_str_int in PI. injection PI as <-. rewrite E in G. destruct (number_read float _ _ _ O) as (v & V & Q). cbn [sub_item] in V. destruct (lookup (str "Overlap (%)") e) as [v'|]; [|discriminate V]. injection V as ->. rewrite Q in G. cbn [bind] in G. injection G as <-. reflexivity.
    - intros e E O. rewrite E, O in G. injection G as <-. reflexivity.
    - intro E. rewrite E in G. injection G as <-. reflexivity.
  Qed.
  Theorem C100_wavelength : forall r e q, file_reader float fit is_lazy uniform stack name f = Ok r -> lookup (str "Calibration") (r_info r) = Some (Entries e) -> number_entry float e "Laser_Wavelength" q ->
    (near q 0 -> y_wavelength (r_metadata r) = None) /\ (~ near q 0 -> y_wavelength (r_metadata r) = Some q).
  Proof.
    intros r e q H E N. destruct (metadata_parts r H) as (c & s & n & mag & _ & _ & _ & _ & _ & _ & _ & W & _). rewrite W. unfold laser_wavelength. rewrite E. destruct (number_read float _ _ _ N) as (v & V & Q). cbn [sub_item] in V. destruct (lookup (str "Laser_Wavelength") e) as [v'|]; [|discriminate V]. injection V as ->. rewrite Q. destruct (isclose q 0) eqn:C.
    - split; [reflexivity|]. intro X. destruct X. apply near_spec. exact C.
    - split; [|reflexivity]. intro X. apply near_spec in X. congruence.
  Qed.
  (** One entry for each used spectrometer, in order *)
  Definition stage_of (h : hardware) (central : value) (n : pystr) (d : list (pystr * value)) (p : stage) : Prop :=
    p_name p = n /\ p_central p = central /\
    (forall v, lookup (str "Model") d = Some v -> p_model p = v) /\
    (forall s t q, lookup (str "Groove_Density") d = Some (Words s) -> upto 32 s t -> float t = Some q -> p_groove p = Some q) /\
    (forall a b x y, lookup (str "Slit_Entrance-Front") d = Some (Num a) -> lookup (str "Slit_Entrance-Side") d = Some (Num b) -> lookup (str "Slit_Exit-Front") d = Some (Num x) -> lookup (str "Slit_Exit-Side") d = Some (Num y) ->
      exists i o, p_slits p = Some (i, o) /\ (i == Qmax (a / 1000) (b / 1000))%Q /\ (o == Qmax (x / 1000) (y / 1000))%Q) /\
    (forall m g, lookup n (h_monochromators h) = Some (Single m) -> s_gratings m = Single g ->
      (forall t q, g_blaze g = Words (t ++ str "NM") -> ~ In 78 t -> float t = Some q -> p_blaze p = Num q) /\
      ((forall t, g_blaze g <> Words (t ++ str "NM")) -> p_blaze p = g_blaze g)).
  Lemma qmax_spec : forall a b, (qmax a b == Qmax a b)%Q.
  Proof.
    intros a b. unfold qmax. destruct (Qle_bool a b) eqn:L.
    - apply Qle_bool_iff in L. symmetry. apply Q.max_r. exact L.
    - symmetry. apply Q.max_l. apply Qlt_le_weak. apply Qnot_le_lt. intro X. apply Qle_bool_iff in X. congruence.
  Qed.
  Lemma ends_spec : forall s, ends_nm s = true <-> exists t, s = t ++ str "NM".
  Proof.
    intro s. split.
    - intro H. unfold ends_nm in H. destruct (rev s) as [|x [|y l]] eqn:R; [discriminate H|destruct x as [|[p|p|]|p]; try discriminate H; repeat (destruct p; try discriminate H)|]. assert (x = 77 /\ y = 78) as [-> ->].
      { repeat match type of H with context [match ?z with _ => _ end] => is_var z; destruct z; try discriminate H end. split; reflexivity. }
      exists (rev l). rewrite <- (rev_involutive s), R. cbn [rev]. rewrite <- app_assoc. reflexivity.
    - intros [t ->]. unfold ends_nm. rewrite rev_app_distr. reflexivity.
  Qed.
  Theorem C100_stages : forall r u central, file_reader float fit is_lazy uniform stack name f = Ok r -> lookup (str "Spectrometers") (r_info r) = Some (Sub u) -> entry_is (r_info r) "Calibration" "Center_Wavelength" central ->
    Forall2 (fun kv p => forall d, snd kv = Entries d -> stage_of (r_hardware r) central (fst kv) d p) u (y_stages (r_metadata r)).
  Proof.
    intros r u central H U CE. destruct (metadata_parts r H) as (c & s & n & mag & _ & _ & _ & _ & _ & _ & _ & _ & ST). rewrite U, (get_entry_of _ _ _ _ CE) in ST. clear - ST. revert ST. generalize (y_stages (r_metadata r)). induction u as [|[k v] u IH]; intros ps ST; cbn [mapM] in ST; [injection ST as <-; constructor|].
    apply bind_ok in ST. destruct ST as (p & P & ST). apply bind_ok in ST. destruct ST as (ps' & PS & ST). injection ST as <-. constructor; [|exact (IH _ PS)]. cbn [fst snd]. intros d ->. clear IH PS.
    unfold map_stage in P. apply bind_ok in P. destruct P as (bl & BL & P). cbv zeta in P. apply bind_ok in P. destruct P as (gr & GR & P). injection P as <-. unfold stage_of. cbn [p_name p_central p_model p_groove p_slits p_blaze]. split; [reflexivity|]. split; [reflexivity|]. split; [intros v0 V0; rewrite V0; reflexivity|]. split; [|split].
    - intros s0 t q S T F. cbn [sub_item] in GR. rewrite S in GR. rewrite (upto_read _ _ _ T) in GR. unfold parse_float in GR. rewrite F in GR. cbn [bind] in GR. injection GR as <-. reflexivity.
    - intros a b x y E1 E2 E3 E4. rewrite E1, E2, E3, E4. eexists. eexists. split; [reflexivity|]. split; apply qmax_spec.
    - intros m g LM SG. unfold blaze_of in BL. rewrite LM in BL. cbn [the bind] in BL. rewrite SG in BL. cbn [the bind] in BL. split.
      + intros t q B N F. rewrite B in BL. rewrite (proj2 (ends_spec _) (ex_intro _ t eq_refl)) in BL. change (t ++ str "NM") with (t ++ 78 :: [77]) in BL. rewrite split_char_app in BL by exact N. cbn [hd] in BL. unfold parse_float in BL. rewrite F in BL. injection BL as <-. reflexivity.
      + intro N. destruct (g_blaze g) as [|w|q|b]; try (injection BL as <-; reflexivity). destruct (ends_nm w) eqn:E; [|injection BL as <-; reflexivity]. apply ends_spec in E. destruct E as [t ->]. destruct (N t eq_refl).
  Qed.
  (** A used spectrometer without a matching grating: the file is not read *)
  Theorem C100_grating_refuted : forall r u ms n m v groove l, lookup (str "Spectrometers") (r_info r) = Some (Sub u) -> lookup (str "Spectrometer") (h_monochromators (f_hardware f)) = Some (Several ms) ->
    last_such (used_as u n) ms m -> n <> str "Spectrometer" \/ last_such (fun m => exists k, used_as u k m) ms m -> lookup n u = Some v -> sub_item v (str "Groove_Density") = Ok groove -> s_gratings m = Several l ->
    Forall (fun x => ~ same_value (g_groove x) groove) l -> file_reader float fit is_lazy uniform stack name f <> Ok r.
  Proof.
    intros r u ms n m v groove l U HM LS C LV GR SG F H. destruct (C100_spectrometers r u ms n m H U HM LS C) as (d & D & g & -> & FT). destruct (FT v groove l LV GR SG) as [_ X]. rewrite (X F) in D.
    destruct (metadata_parts r H) as (c & s & k & mag & _ & _ & _ & _ & _ & _ & _ & _ & ST). rewrite U in ST. revert ST. generalize (y_stages (r_metadata r)). generalize (get_entry (r_info r) "Calibration" "Center_Wavelength"). intros central. clear - LV D. induction u as [|[n' v'] u IH]; intros ps ST; [discriminate LV|]. cbn [mapM] in ST. apply bind_ok in ST. destruct ST as (p & P & ST). apply bind_ok in ST. destruct ST as (ps' & PS & ST). cbn [lookup] in LV. destruct (eqb_str n n') eqn:E.
    - apply eqb_str_spec in E. subst n'. unfold map_stage in P. apply bind_ok in P. destruct P as (bl & BL & _). unfold blaze_of in BL. rewrite D in BL. cbn [the bind s_gratings] in BL. discriminate BL.
    - exact (IH LV _ PS).
  Qed.
End File.

(** * Examples *)
Definition demo_float (s : pystr) : option Q := match parse_int s with Ok n => Some (inject_Z n) | Err _ => None end.
Definition demo_fit (l : list Q) : Q * Q := match l with a :: b :: _ => (a, b - a)%Q | _ => (0, 0)%Q end.
Definition el (tag : string) (attrs : list (string * pystr)) (text : string) (l : list xml) : xml := Elem (str tag) (map (fun p => (str (fst p), snd p)) attrs) (str text) [] l.
Definition dim_demo (values : string) : xml := el "xDim" [] "" [el "Calibration" [("Unit"%string, str "Nanometer"); ("ValueArray"%string, str values)] "" []].
Definition frame_demo (t text : string) : xml := el "Frame" [("TimeStamp"%string, str t)] text [].
Definition data_demo (count : string) (childs frames : list xml) (values : string) : xml := el "Document" [] "" [dim_demo values; el "Data" [] "" frames; el "Childs" [("Count"%string, str count)] "" childs].
Definition two_frames : list xml := [frame_demo "100" "1;2;3"; frame_demo "5000100" "4;5;6"].
Definition items (n : string) (l : list (string * value)) : group := Items (str n) (map (fun p => (str (fst p), snd p)) l).
Definition words (s : string) : value := Words (str s).
Definition spectrometer_demo (serial groove : string) : group :=
  items "Spectrometer" [("Serialnumber", words serial); ("Groove_Density", words groove); ("Model", words "SP"); ("Slit_Entrance-Front", Num 100); ("Slit_Entrance-Side", Num 0); ("Slit_Exit-Front", Num 0); ("Slit_Exit-Side", Num 50)]%string.
Definition groups_demo (frames : Z) (scan : bool) : list group :=
  [items "Detector" [("Name", words "B"); ("No_of_Frames", Num (inject_Z frames)); ("Exposure_Time_(ms)", Num 500); ("No_of_Accumulations", Num 3); ("Calc_Average", Flag false); ("Detector_Temperature", Num (-70))]%string;
   items "Calibration" [("Laser_Wavelength", Num 532); ("Center_Wavelength", Num 501)]%string;
   items "Experiment" [("Overlap (%)", words "10")]%string;
   Groups (str "Spectrometers") [spectrometer_demo "11" "1200 g/mm"; spectrometer_demo "22" "300 g/mm"]] ++
  (if scan then [items "Y-Axis" [("From", Num 0); ("Step", Num (1 # 2)); ("Points", words "2")]%string] else []).
Definition gratings_demo : devices grating := Several [{| g_groove := words "300 g/mm"; g_blaze := words "500NM" |}; {| g_groove := words "1200 g/mm"; g_blaze := words "none" |}].
Definition hardware_demo : hardware := {|
  h_lasers := Several [{| l_wave := Some (Num 488); l_rest := 1 |}; {| l_wave := Some (Num (5320001 # 10000)); l_rest := 2 |}; {| l_wave := None; l_rest := 3 |}];
  h_cameras := Several [{| c_name := words "A"; c_rest := 1 |}; {| c_name := words "B"; c_rest := 2 |}];
  h_microscopes := Several [{| m_objectives := Several [{| o_enabled := Flag false; o_magnification := Num 10 |}; {| o_enabled := Flag true; o_magnification := Num 50 |}]; m_rest := 1 |}; {| m_objectives := Several []; m_rest := 2 |}];
  h_monochromators := [(str "Spectrometer", Several [{| s_serial := words "22"; s_gratings := gratings_demo; s_rest := 1 |}; {| s_serial := words "33"; s_gratings := gratings_demo; s_rest := 2 |}; {| s_serial := words "11"; s_gratings := gratings_demo; s_rest := 3 |}])] |}.
Definition document_demo : document := {| d_record := Some (str "7/14/2022 11:05:33.250"); d_label := Some (str "Intensity"); d_data_label := Some (str "Counts") |}.
Definition file_demo (frames : Z) (scan : bool) (data : xml) : tvf := {| f_document := document_demo; f_info := Some (groups_demo frames scan); f_hardware := hardware_demo; f_data := data |}.
Definition scan_demo : tvf := file_demo 2 true (data_demo "0" [] two_frames "3|500|501|502").
Definition time_demo : tvf := file_demo 2 false (data_demo "0" [] two_frames "3|500|501|502").
Definition child_demo (values t text : string) : xml := el "Child" [] "" [dim_demo values; el "Data" [] "" [frame_demo t text]].
Definition stack_demo : tvf := file_demo 1 false (data_demo "2" [child_demo "2|500|501" "7" "1;2"; child_demo "2|502|503" "9" "3;4"] [] "0").
Definition demo (stack : bool) (f : tvf) : res result := file_reader demo_float demo_fit false true stack (str "map.tvf") f.
Definition look {B} (g : result -> B) (x : res result) : option B := match x with Ok r => Some (g r) | Err _ => None end.
Example C99_scan_example : look (fun r => map (fun s => (map (fun a => (a_name a, a_index a)) (r_axes s), r_shape s, r_data s)) (r_signals r)) (demo true scan_demo) =
  Some [([(str "Y", 0); (str "Wavelength", 1)], [2; 3], [1; 2; 3; 4; 5; 6]%Q)].
Proof. reflexivity. Qed.
Example C99_time_example : look (fun r => map (fun s => (map (fun a => (a_name a, a_scale a)) (r_axes s), r_shape s, r_data s)) (r_signals r)) (demo false time_demo) =
  Some [([(str "time", Steps 0 (5000000 # 10000000) 2); (str "Wavelength", Fitted 500 (501 - 500) 3)], [2; 3], [1; 2; 3; 4; 5; 6]%Q)].
Proof. reflexivity. Qed.
Example C99_stack_example : look (fun r => map (fun s => (map a_index (r_axes s), r_shape s, r_data s)) (r_signals r)) (demo true stack_demo) = Some [([-1], [2], [1; 2]%Q); ([-1], [2], [3; 4]%Q)].
Proof. reflexivity. Qed.
(** the hypotheses hold of these files *)
Example C99_file_example : calibrated demo_float (f_data scan_demo) (str "Nanometer") [500; 501; 502]%Q /\ recorded demo_float (f_data scan_demo) [(100, [1; 2; 3]%Q); (5000100, [4; 5; 6]%Q)] /\
  exists r, demo true scan_demo = Ok r /\ scanned demo_float (r_info r) [(str "Y", 0%Q, 1 # 2, 2)] /\ frame_number (r_info r) 2.
Proof.
  assert (num : forall c a, numerals demo_float c (map str_int a) (map inject_Z a) <-> Forall (fun n => ~ In c (str_int n)) a).
  { intros c a. unfold numerals. rewrite Forall_forall. split.
    - intros F n I. apply in_split in I. destruct I as (x & y & ->). rewrite !map_app in F. cbn [map] in F. apply Forall2_app_inv_l in F. destruct F as (p & q & _ & F & E). destruct q as [|q0 q]; [inversion F|]. inversion F as [|? ? ? ? [_ N] ?]; subst. exact N.
    - intro F. induction a as [|n a IH]; cbn [map]; constructor; [|apply IH; intros m I; apply F; right; exact I]. split; [unfold demo_float; rewrite parse_int_str_int; reflexivity|apply F; left; reflexivity]. }
  assert (no59 : forall a, Forall (fun n => ~ In 59 (str_int n)) a) by (intro a; apply Forall_forall; intros n _; apply ImpProps.str_int_no; lia).
  assert (no124 : forall a, Forall (fun n => ~ In 124 (str_int n)) a) by (intro a; apply Forall_forall; intros n _; apply ImpProps.str_int_no; lia).
  split; [|split].
  - eexists. eexists. exists [], 3, (map str_int [500; 501; 502]). split; [exists [], (tl (x_children (f_data scan_demo))); split; [reflexivity|split; [reflexivity|constructor]]|]. split; [reflexivity|]. split; [reflexivity|]. split; [reflexivity|]. exact (proj2 (num 124 [500; 501; 502]) (no124 _)).
  - eexists. split; [exists [dim_demo "3|500|501|502"], [el "Childs" [("Count"%string, str "0")] "" []]; split; [reflexivity|split; [reflexivity|constructor; [discriminate|constructor]]]|].
    constructor; [|constructor; [|constructor]]; [exists (map str_int [1; 2; 3])|exists (map str_int [4; 5; 6])]; (split; [reflexivity|]); (split; [reflexivity|]); (split; [discriminate|]); apply num; apply no59.
  - destruct (demo true scan_demo) as [r|e] eqn:E; [|vm_compute in E; discriminate E]. exists r. split; [reflexivity|]. destruct (file_parts _ _ _ _ _ _ _ r E) as (gs & n & c & cs & s & G & I & _). injection G as <-. rewrite I. split.
    + exists [(str "Y", 0%Q, 1 # 2, 2)], []. split; [right|split; [left; split; reflexivity|reflexivity]]. eexists. exists 0%Q, (1 # 2), 2. split; [reflexivity|]. split; [left; reflexivity|]. split; [left; reflexivity|]. split; [right; reflexivity|reflexivity].
    + eexists. split; [reflexivity|left; reflexivity].
Qed.
Example C100_names_example : look (fun r => (map fst (r_info r), match lookup (str "Spectrometers") (r_info r) with Some (Sub u) => map fst u | _ => [] end)) (demo true scan_demo) =
  Some (map str ["Detector"; "Calibration"; "Experiment"; "Spectrometers"; "Y-Axis"]%string, map str ["Spectrometer2"; "Spectrometer1"]%string).
Proof. reflexivity. Qed.
Example C100_well_named_example : well_named (Groups [] (groups_demo 2 true)).
Proof.
  assert (last_char : forall (n m ds : pystr), digits_only ds -> n = m ++ ds -> is_digit (last n 0) = true).
  { intros n m ds [NE F] ->. destruct (exists_last NE) as (d & x & ->). rewrite app_assoc, last_last. apply Forall_app in F. destruct F as [_ F]. inversion F; assumption. }
  assert (ok : forall l : list group, Forall (fun g => is_digit (last (g_name g) 0) = false) l -> (forall i j g h, nth_error l i = Some g -> nth_error l j = Some h -> is_items g = false -> g_name g = g_name h -> i = j) -> proper_names (labelled l)).
  { intros l F H. split.
    - intros i j n m ds (b & v & E) _ D X. apply (last_char _ _ _ D) in X. unfold labelled in E. rewrite nth_error_map in E. destruct (nth_error l i) as [g|] eqn:G; [|discriminate E]. cbn [option_map] in E. injection E as <- _ _. rewrite Forall_forall in F. rewrite (F g (nth_error_In _ _ G)) in X. discriminate X.
    - intros i j n v w b EI EJ. unfold labelled in EI, EJ. rewrite nth_error_map in EI, EJ. destruct (nth_error l i) as [g|] eqn:G; [|discriminate EI]. destruct (nth_error l j) as [h|] eqn:K; [|discriminate EJ]. cbn [option_map] in EI, EJ. injection EI as N I _. injection EJ as N' _ _. apply (H i j g h G K I). congruence. }
  assert (inner : proper_names (labelled [spectrometer_demo "11" "1200 g/mm"; spectrometer_demo "22" "300 g/mm"])).
  { apply ok; [repeat constructor|]. intros i j g h G _ I _. destruct i as [|[|i]]; cbn [nth_error] in G; [injection G as <-; discriminate I|injection G as <-; discriminate I|destruct i; discriminate G]. }
  constructor.
  - apply ok; [repeat constructor|]. intros i j g h G K I N.
    destruct i as [|[|[|[|[|i]]]]]; cbn [nth_error groups_demo app] in G; try (injection G as <-; discriminate I); [|destruct i; discriminate G].
    injection G as <-. destruct j as [|[|[|[|[|j]]]]]; cbn [nth_error groups_demo app] in K; try (injection K as <-; discriminate N); [reflexivity|destruct j; discriminate K].
  - assert (WI : forall n l, well_named (items n l)) by (intros n l; apply well_items).
    unfold groups_demo. cbn [app]. apply Forall_cons; [apply WI|]. apply Forall_cons; [apply WI|]. apply Forall_cons; [apply WI|]. apply Forall_cons; [|apply Forall_cons; [apply WI|apply Forall_nil]].
    apply well_groups; [exact inner|]. apply Forall_cons; [apply WI|]. apply Forall_cons; [apply WI|apply Forall_nil].
Qed.
(** Names that end in digits are lost: the second A becomes A3 and the first A1, which was another group *)
Theorem C100_names_refuted : exists gs, List.length gs = 3%nat /\ Forall (fun g => is_items g = true) gs /\ List.length (process_info gs) = 2%nat.
Proof. exists [items "A" []; items "A1" []; items "A" []]. split; [reflexivity|]. split; [repeat constructor|reflexivity]. Qed.
(** Of groups of groups with one name only the last stays *)
Theorem C100_groups_refuted : forall n a b, lookup n (process_info [Groups n a; Groups n b]) = Some (info_of (Groups n b)) /\ forall k, lookup k (process_info [Groups n a; Groups n b]) <> None -> k = n.
Proof.
  intros n a b. unfold process_info, number_names. cbn [map g_name is_items gather andb fold_left]. split; [rewrite lookup_put, eqb_str_refl; reflexivity|]. intros k K. rewrite !lookup_put in K. destruct (eqb_str k n) eqn:E; [apply eqb_str_spec; exact E|]. destruct K. reflexivity.
Qed.
Example C100_hardware_example : look (fun r => (h_lasers (r_hardware r), h_cameras (r_hardware r), h_microscopes (r_hardware r), map (fun kv => (fst kv, match snd kv with Single m => Some (s_rest m, match s_gratings m with Single g => Some (g_groove g) | _ => None end) | _ => None end)) (h_monochromators (r_hardware r)))) (demo true scan_demo) =
  Some (Single {| l_wave := Some (Num (5320001 # 10000)); l_rest := 2 |}, Single {| c_name := words "B"; c_rest := 2 |}, Single {| m_objectives := Single {| o_enabled := Flag true; o_magnification := Num 50 |}; m_rest := 1 |},
    [(str "Spectrometer2", Some (1, Some (words "300 g/mm"))); (str "Spectrometer1", Some (3, Some (words "1200 g/mm")))]).
Proof. reflexivity. Qed.
Example C100_metadata_example : look (fun r => (y_general (r_metadata r), y_quantity (r_metadata r), y_magnification (r_metadata r), y_wavelength (r_metadata r), map (fun p => (p_name p, p_central p, p_blaze p, p_groove p)) (y_stages (r_metadata r)))) (demo true scan_demo) =
  Some ({| e_title := str "map"; e_file := str "map.tvf"; e_date := Some (str "2022-7-14", str "11:05:33") |}, Some (str "Intensity (Counts)"), Num 50, Some 532%Q,
    [(str "Spectrometer2", Num 501, Num 500, Some 300%Q); (str "Spectrometer1", Num 501, words "none", Some 1200%Q)]).
Proof. reflexivity. Qed.
Example C100_detector_example : look (fun r => y_detector (r_metadata r)) (demo true stack_demo) =
  Some {| k_glued := Some (Some (10%Q, 2)); k_temperature := Num (-70); k_frames := Num 3; k_average := Flag false; k_exposure := Some (500 / 1000)%Q; k_time := Some (500 / 1000 * 3)%Q |}.
Proof. reflexivity. Qed.
Example C100_slits_example : look (fun r => map p_slits (y_stages (r_metadata r))) (demo true scan_demo) = Some [Some (100 / 1000, 50 / 1000)%Q; Some (100 / 1000, 50 / 1000)%Q].
Proof. reflexivity. Qed.
(** one detector only, no enabled objective, no grating that fits, no spectrometer that is used *)
Definition with_hardware (h : hardware) : tvf := {| f_document := document_demo; f_info := Some (groups_demo 2 true); f_hardware := h; f_data := f_data scan_demo |}.
Example C100_refuted_example :
  demo true (with_hardware {| h_lasers := h_lasers hardware_demo; h_cameras := Single {| c_name := words "B"; c_rest := 2 |}; h_microscopes := h_microscopes hardware_demo; h_monochromators := h_monochromators hardware_demo |}) = Err TypeError /\
  demo true (with_hardware {| h_lasers := h_lasers hardware_demo; h_cameras := h_cameras hardware_demo; h_microscopes := Several []; h_monochromators := h_monochromators hardware_demo |}) = Err AttributeError /\
  demo true (with_hardware {| h_lasers := h_lasers hardware_demo; h_cameras := h_cameras hardware_demo; h_microscopes := h_microscopes hardware_demo; h_monochromators := [(str "Spectrometer", Several [{| s_serial := words "22"; s_gratings := Several []; s_rest := 1 |}])] |}) = Err AttributeError /\
  demo true (with_hardware {| h_lasers := h_lasers hardware_demo; h_cameras := h_cameras hardware_demo; h_microscopes := h_microscopes hardware_demo; h_monochromators := [(str "Spectrometer", Several [])] |}) = Err NameError.
Proof. repeat split; reflexivity. Qed.
(** the hypotheses of the theorems on devices hold of the file *)
Example C100_devices_example : shines 532 {| l_wave := Some (Num (5320001 # 10000)); l_rest := 2 |} /\ ~ shines 532 {| l_wave := Some (Num 488); l_rest := 1 |} /\
  exists u ms, lookup (str "Spectrometers") (process_info (groups_demo 2 true)) = Some (Sub u) /\ lookup (str "Spectrometer") (h_monochromators hardware_demo) = Some (Several ms) /\
  exists m, last_such (used_as u (str "Spectrometer2")) ms m /\ s_rest m = 1.
Proof.
  split; [exists (5320001 # 10000); split; [reflexivity|]; split; [apply near_spec; reflexivity|intro X; apply near_spec in X; discriminate X]|].
  split; [intros (q & E & N & _); injection E as <-; apply near_spec in N; discriminate N|].
  eexists. eexists. split; [reflexivity|]. split; [reflexivity|].
  exists {| s_serial := words "22"; s_gratings := gratings_demo; s_rest := 1 |}. split; [|reflexivity]. exists []. eexists. split; [reflexivity|]. split.
  - exists []. eexists. eexists. eexists. split; [reflexivity|]. split; [reflexivity|]. split; [constructor|constructor].
  - repeat constructor; intros (a & b & v & s & E & S & SV & F); (destruct a as [|x [|y a]]; cbn [app] in E; [injection E as <- _; injection S as <-; inversion SV|injection E as _ E; discriminate E|injection E as _ _ E; destruct a; discriminate E]).
Qed.
(** Without the wavelength in the calibration, the light sources stay as they are. *)
Theorem C100_no_wavelength : forall i h,
  (lookup (str "Calibration") i = None \/ exists e, lookup (str "Calibration") i = Some (Entries e) /\ lookup (str "Laser_Wavelength") e = None) ->
  filter_laser i h = Ok h.
Proof.
  intros i h H. unfold filter_laser, entry. destruct H as [H|(e & H & K)]; rewrite H; [reflexivity|]. unfold sub_item. rewrite K. reflexivity.
Qed.
Example C100_no_wavelength_example :
  filter_laser [(str "Calibration", Entries [(str "Type", Num 1)])] (Several [{| l_wave := Some (Num 532); l_rest := 0 |}; {| l_wave := None; l_rest := 1 |}]) =
  Ok (Several [{| l_wave := Some (Num 532); l_rest := 0 |}; {| l_wave := None; l_rest := 1 |}]).
Proof. apply C100_no_wavelength. right. eexists. split; reflexivity. Qed.

Print Assumptions C99_axis.
Print Assumptions C99_frames.
Print Assumptions C99_scan.
Print Assumptions C99_time.
Print Assumptions C99_mixed.
Print Assumptions C99_misfit.
Print Assumptions C99_one_refuted.
Print Assumptions C99_stack.
Print Assumptions C99_stack_refuted.
Print Assumptions C99_lazy.
Print Assumptions C100_names.
Print Assumptions C100_laser.
Print Assumptions C100_camera.
Print Assumptions C100_objective.
Print Assumptions C100_spectrometers.
Print Assumptions C100_others.
Print Assumptions C100_single_refuted.
Print Assumptions C100_objective_refuted.
Print Assumptions C100_grating_refuted.
Print Assumptions C100_title.
Print Assumptions C100_date.
Print Assumptions C100_quantity.
Print Assumptions C100_exposure.
Print Assumptions C100_detector.
Print Assumptions C100_glued.
Print Assumptions C100_wavelength.
Print Assumptions C100_stages.
Print Assumptions C100_names_refuted.
Print Assumptions C100_groups_refuted.
Print Assumptions C100_no_wavelength.
