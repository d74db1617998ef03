(** Property C82: property sets of Renishaw files. *)
From Coq Require Import QArith.
From Verif Require Import Base Text Bytes Utf8 SfsModel SfsProps BcfUnpack HierModel SurFloat SurQuantity RenModel RenBlocks.
Local Open Scope Z_scope.

(** * Specification *)
(** A property set is a list of numbered items: names, and values to which the names of the same number belong *)
Inductive body :=
| Name (s : pystr) | Number (k : kind) (x : Z) | Array (k : kind) (l : list Z)
| Text (s : pystr) | Binary (l : list Z) | Packed (l : list Z) | Nested (l : list (Z * body)).
Definition type_of (k : kind) : Z := match k with I1 => 99 | U1 => 63 | I2 => 115 | I4 => 105 | I8 => 119 | F4 => 114 | F8 => 113 | FileTime => 116 end.
Definition width_of (k : kind) : nat := match k with I1 | U1 => 1 | I2 => 2 | I4 | F4 => 4 | I8 | F8 | FileTime => 8 end.
Definition text_bytes (s : pystr) : list Z := flat_map utf8_char s.
Definition item_head (type flag id : Z) : list Z := type :: flag :: le 2 id.
Definition with_length (b : list Z) : list Z := le 4 (zlen b) ++ b.
Fixpoint item_bytes (id : Z) (b : body) : list Z :=
  match b with
  | Name s => item_head 107 0 id ++ with_length (text_bytes s)
  | Number k x => item_head (type_of k) 0 id ++ le (width_of k) x
  | Array k l => item_head (type_of k) 128 id ++ le 4 (zlen l) ++ flat_map (le (width_of k)) l
  | Text s => item_head 117 0 id ++ with_length (text_bytes s)
  | Binary l => item_head 98 0 id ++ with_length l
  | Packed l => item_head 117 64 id ++ with_length l
  | Nested l => item_head 112 0 id ++ with_length ((fix go (l : list (Z * body)) : list Z := match l with [] => [] | (i, b) :: l' => item_bytes i b ++ go l' end) l)
  end.
Definition set_bytes (l : list (Z * body)) : list Z := List.concat (map (fun ib => item_bytes (fst ib) (snd ib)) l).
(** Names and values of a set *)
Definition names_in {A} (l : list (Z * (A + pystr))) : list (Z * pystr) := flat_map (fun ib => match snd ib with inr s => [(fst ib, s)] | inl _ => [] end) l.
Definition values_in {A} (l : list (Z * (A + pystr))) : list (Z * A) := flat_map (fun ib => match snd ib with inl v => [(fst ib, v)] | inr _ => [] end) l.
Definition value_at {A} (id : Z) (l : list (Z * A)) : option A := option_map snd (find (fun iv => fst iv =? id) l).
(** The dictionary: every name that has a value *)
Definition dictionary {A} (l : list (Z * (A + pystr))) : list (pystr * A) := flat_map (fun is => match value_at (fst is) (values_in l) with Some v => [(snd is, v)] | None => [] end) (names_in l).
Definition left_names {A} (l : list (Z * (A + pystr))) : list (Z * pystr) := filter (fun is => match value_at (fst is) (values_in l) with Some _ => false | None => true end) (names_in l).
Definition left_values {A} (l : list (Z * (A + pystr))) : list (Z * A) := filter (fun iv => match value_at (fst iv) (names_in l) with Some _ => false | None => true end) (values_in l).
Definition date_text (x : Z) : pystr := match windows_time x with Ok s => s | Err _ => [] end.
Fixpoint meaning (b : body) : value + pystr :=
  match b with
  | Name s => inr s
  | Number FileTime x => inl (Date (date_text x))
  | Number k x => inl (Num k x)
  | Array FileTime l => inl (Dates (map date_text l))
  | Array k l => inl (Nums k l)
  | Text s => inl (Txt s)
  | Binary l => inl (Txt (str "binary: " ++ hex_text l))
  | Packed _ => inl Missing
  | Nested l => inl (Dict (dictionary (map (fun ib => (fst ib, meaning (snd ib))) l)))
  end.
Definition items (l : list (Z * body)) : list (Z * (value + pystr)) := map (fun ib => (fst ib, meaning (snd ib))) l.
(** What can be written *)
Definition number_ok (k : kind) (x : Z) : Prop :=
  match k with
  | I1 => -128 <= x < 128 | U1 => 0 <= x < 256 | I2 => - 2 ^ 15 <= x < 2 ^ 15 | I4 => - 2 ^ 31 <= x < 2 ^ 31 | I8 => - 2 ^ 63 <= x < 2 ^ 63
  | F4 => 0 <= x < 2 ^ 32 | F8 => 0 <= x < 2 ^ 64 | FileTime => 0 <= x < 2 ^ 64 /\ exists s, windows_time x = Ok s
  end.
Definition text_ok (s : pystr) : Prop := Forall (fun c => scalar c = true /\ c <> 0) s.
(** The numbers of names differ, the numbers of values differ, the texts of names differ *)
Definition distinct {A} (l : list (Z * (A + pystr))) : Prop := NoDup (map fst (names_in l)) /\ NoDup (map fst (values_in l)) /\ NoDup (map snd (names_in l)).
Fixpoint body_ok (b : body) : Prop :=
  match b with
  | Name s | Text s => text_ok s /\ zlen (text_bytes s) < 2 ^ 32
  | Number k x => number_ok k x
  | Array k l => Forall (number_ok k) l /\ List.length l <> 1%nat /\ zlen l < 2 ^ 32
  | Binary l | Packed l => zlen l < 2 ^ 32
  | Nested l => (fix go (l : list (Z * body)) : Prop := match l with [] => True | (i, b) :: l' => 0 <= i < 2 ^ 16 /\ body_ok b /\ go l' end) l /\ zlen (set_bytes l) < 2 ^ 32 /\ distinct (items l)
  end.
Definition set_ok (l : list (Z * body)) : Prop := Forall (fun ib => 0 <= fst ib < 2 ^ 16 /\ body_ok (snd ib)) l /\ zlen (set_bytes l) < 2 ^ 32 /\ distinct (items l).
(** A set in which nothing is left over, at any depth *)
Fixpoint body_complete (b : body) : Prop :=
  match b with
  | Nested l => (fix go (l : list (Z * body)) : Prop := match l with [] => True | (_, b) :: l' => body_complete b /\ go l' end) l /\ left_names (items l) = [] /\ left_values (items l) = []
  | _ => True
  end.
Definition complete (l : list (Z * body)) : Prop := Forall (fun ib => body_complete (snd ib)) l /\ left_names (items l) = [] /\ left_values (items l) = [].

(** * Items *)
Lemma nested_bytes : forall id l, item_bytes id (Nested l) = item_head 112 0 id ++ with_length (set_bytes l).
Proof. intros id l. cbn [item_bytes]. f_equal. f_equal. unfold set_bytes. induction l as [|[i b] l IH]; [reflexivity|]. cbn [map List.concat fst snd]. rewrite <- IH. reflexivity. Qed.
Lemma nested_ok : forall l, body_ok (Nested l) <-> set_ok l.
Proof.
  intro l. cbn [body_ok]. unfold set_ok. assert (E : (fix go (l : list (Z * body)) : Prop := match l with [] => True | (i, b) :: l' => 0 <= i < 2 ^ 16 /\ body_ok b /\ go l' end) l <-> Forall (fun ib => 0 <= fst ib < 2 ^ 16 /\ body_ok (snd ib)) l).
  { induction l as [|[i b] l IH]; [split; constructor|]. split; [intros (A & B & C); constructor; [split; assumption|apply IH; exact C]|intro H; inversion H as [|? ? [A B] C]; subst; repeat split; try apply A; [exact B|apply IH; exact C]]. }
  rewrite E. reflexivity.
Qed.
Lemma nested_complete : forall l, body_complete (Nested l) <-> complete l.
Proof.
  intro l. cbn [body_complete]. unfold complete. assert (E : (fix go (l : list (Z * body)) : Prop := match l with [] => True | (_, b) :: l' => body_complete b /\ go l' end) l <-> Forall (fun ib => body_complete (snd ib)) l).
  { induction l as [|[i b] l IH]; [split; constructor|]. split; [intros (B & C); constructor; [assumption|apply IH; exact C]|intro H; inversion H as [|? ? B C]; subst; split; [exact B|apply IH; exact C]]. }
  rewrite E. reflexivity.
Qed.
Lemma byte_front : forall x r, 0 <= x < 256 -> read_word 1 (x :: r) = Ok (x, r).
Proof. intros x r H. pose proof (word_front 1 x r H ltac:(discriminate)) as E. cbn [le app] in E. rewrite Z.mod_small in E by lia. exact E. Qed.
Lemma half_front : forall x r, 0 <= x < 2 ^ 16 -> read_word 2 (le 2 x ++ r) = Ok (x, r).
Proof. intros x r H. exact (word_front 2 x r H ltac:(discriminate)). Qed.
Lemma quad_front : forall x r, 0 <= x < 2 ^ 32 -> read_word 4 (le 4 x ++ r) = Ok (x, r).
Proof. intros x r H. exact (word_front 4 x r H ltac:(discriminate)). Qed.
Lemma type_front : forall c r, 0 < c < 128 -> read_utf8 1 (c :: r) = Ok ([c], r).
Proof.
  intros c r H. unfold read_utf8. cbn [Z.ltb Z.compare]. rewrite firstz_firstn, skipz_skipn. change (Z.to_nat 1) with 1%nat. cbn [firstn skipn utf8_decode]. replace (c <? 128) with true by lia. cbn [bind filter]. replace (c =? 0) with false by lia. reflexivity.
Qed.
Lemma text_decode : forall s r, text_ok s -> read_utf8 (zlen (text_bytes s)) (text_bytes s ++ r) = Ok (s, r).
Proof.
  intros s r H. unfold read_utf8. pose proof (zlen_nonneg _ (text_bytes s)) as P. replace (zlen (text_bytes s) <? -1) with false by lia. replace (zlen (text_bytes s) <? 0) with false by lia. rewrite firstz_firstn, skipz_skipn. unfold zlen. rewrite Nat2Z.id. rewrite firstn_app_exact, skipn_app_exact by reflexivity.
  rewrite (utf8_round_trip s (text_bytes s)); [|unfold utf8_encode; replace (forallb scalar s) with true; [reflexivity|]; symmetry; apply forallb_forall; intros c Hc; exact (proj1 (proj1 (Forall_forall _ _) H c Hc))].
  cbn [bind]. f_equal. f_equal. induction H as [|c s [_ Hc] H IH]; [reflexivity|]. cbn [filter]. replace (c =? 0) with false by lia. cbn [negb]. rewrite IH; [reflexivity|]. apply zlen_nonneg.
Qed.
Lemma kind_width_of : forall k, kind_width k = Z.of_nat (width_of k).
Proof. intros []; reflexivity. Qed.
Lemma kind_type : forall k, kind_of (type_of k) = Some k.
Proof. intros []; reflexivity. Qed.
Definition raw_ok (k : kind) (x : Z) : Prop := match k with F4 | F8 | FileTime | U1 => 0 <= x < 256 ^ Z.of_nat (width_of k) | _ => - 2 ^ (8 * Z.of_nat (width_of k) - 1) <= x < 2 ^ (8 * Z.of_nat (width_of k) - 1) end.
Lemma raw_number : forall k x, number_ok k x -> raw_ok k x.
Proof. intros k x H. unfold raw_ok. destruct k; cbn [number_ok width_of] in *; try exact H; lia. Qed.
Lemma value_back : forall k x, raw_ok k x -> kind_value k (le_val (le (width_of k) x)) = x.
Proof. intros k x H. rewrite le_val_le. unfold raw_ok in H. destruct k; cbn [kind_value width_of] in *; try (apply (signed_mod _ x); [lia|exact H]); apply Z.mod_small; exact H. Qed.
Lemma words_front : forall k l r, read_words (kind_width k) (zlen l) (flat_map (le (width_of k)) l ++ r) = (map (fun x => le_val (le (width_of k) x)) l, r).
Proof.
  intros k l r. unfold read_words. rewrite kind_width_of. assert (W : (0 < width_of k)%nat) by (destruct k; cbn; lia). assert (L : zlen (flat_map (le (width_of k)) l) = zlen l * Z.of_nat (width_of k)).
  { unfold zlen. induction l as [|x l IH]; [reflexivity|]. cbn [flat_map List.length]. rewrite app_length, le_length. lia. }
  pose proof (zlen_nonneg _ l) as P. pose proof (zlen_nonneg _ r) as Pr. replace (zlen l <? 0) with false by lia. replace (0 <=? zlen l) with true by lia. assert (D : zlen l <= zlen (flat_map (le (width_of k)) l ++ r) / Z.of_nat (width_of k)) by (apply Z.div_le_lower_bound; [lia|]; rewrite zlen_app, L; nia).
  replace (zlen l <=? _) with true by lia. cbn [andb]. rewrite Z.min_l by exact D. rewrite Nat2Z.id. unfold zlen at 1. rewrite Nat2Z.id. f_equal.
  - rewrite flat_map_concat_map. rewrite <- (map_length (le (width_of k)) l) at 1. rewrite records_concat; [apply map_map|]. apply Forall_forall. intros x Hx. apply in_map_iff in Hx. destruct Hx as (y & <- & _). apply le_length.
  - rewrite <- L. apply skipz_app.
Qed.
Lemma one_front : forall k x r, number_ok k x -> read_single k 1 (le (width_of k) x ++ r) = Ok (match k with FileTime => Date (date_text x) | _ => Num k x end, r).
Proof.
  intros k x r H. unfold read_single. pose proof (words_front k [x] r) as E. change (zlen [x]) with 1 in E. cbn [flat_map map] in E. rewrite app_nil_r in E. rewrite E. pose proof (value_back k x (raw_number k x H)) as V. destruct k; cbn [map]; rewrite ?V; try reflexivity.
  cbn [kind_value] in V. rewrite V. cbn [mapM]. destruct H as [_ [s Hs]]. unfold date_text. rewrite Hs. reflexivity.
Qed.
Lemma many_front : forall k l r, Forall (number_ok k) l -> List.length l <> 1%nat -> read_single k (zlen l) (flat_map (le (width_of k)) l ++ r) = Ok (match k with FileTime => Dates (map date_text l) | _ => Nums k l end, r).
Proof.
  intros k l r H N. unfold read_single. rewrite words_front. replace (zlen l =? 1) with false by (unfold zlen; lia).
  assert (V : map (kind_value k) (map (fun x => le_val (le (width_of k) x)) l) = l) by (rewrite map_map; rewrite <- (map_id l) at 2; apply map_ext_in; intros x Hx; apply value_back; apply raw_number; exact (proj1 (Forall_forall _ _) H x Hx)).
  destruct k; rewrite ?V; try reflexivity. cbn [kind_value] in V. rewrite map_id in V. rewrite V. assert (M : mapM windows_time l = Ok (map date_text l)).
  { clear - H. induction H as [|x l [_ [s Hs]] H IH]; [reflexivity|]. cbn [mapM map]. rewrite Hs. cbn [bind]. rewrite IH. cbn [bind]. unfold date_text at 2. rewrite Hs. reflexivity. }
  rewrite M. reflexivity.
Qed.

(** * Reading a set: names and values in the order of the file *)
Definition set_id (id : pystr) (l : list (Z * body)) : pystr := id ++ str "_" ++ str_int (zlen (set_bytes l) - 4).
Definition keep_left (id : pystr) (its : list (Z * (value + pystr))) (um : list (pystr * unmatched)) : list (pystr * unmatched) :=
  match left_names its, left_values its with
  | [], [] => um
  | ns, vs => put id {| u_keys := map (fun p => (str_int (fst p), snd p)) ns; u_values := map (fun p => (str_int (fst p), snd p)) vs |} um
  end.
(** Leftovers of the sets inside, then of the set itself: the inner sets are numbered by the bytes that remain *)
Fixpoint left_body (id : pystr) (b : body) (um : list (pystr * unmatched)) : list (pystr * unmatched) :=
  match b with
  | Nested l => keep_left id (map (fun ib => (fst ib, meaning (snd ib))) l)
      ((fix go (l : list (Z * body)) (um : list (pystr * unmatched)) : list (pystr * unmatched) := match l with [] => um | (i, b) :: l' => go l' (left_body (set_id id ((i, b) :: l')) b um) end) l um)
  | _ => um
  end.
Fixpoint left_inside (id : pystr) (l : list (Z * body)) (um : list (pystr * unmatched)) : list (pystr * unmatched) :=
  match l with [] => um | (i, b) :: l' => left_inside id l' (left_body (set_id id ((i, b) :: l')) b um) end.
Lemma left_nested : forall id l um, left_body id (Nested l) um = keep_left id (items l) (left_inside id l um).
Proof. intros. cbn [left_body]. unfold items. f_equal. revert um. induction l as [|[i b] l IH]; intro um; [reflexivity|]. cbn [left_inside]. rewrite <- IH. reflexivity. Qed.

Definition put_names (l : list (Z * (value + pystr))) (keys : list (pystr * pystr)) : list (pystr * pystr) := fold_left (fun k is => put (str_int (fst is)) (snd is) k) (names_in l) keys.
Definition put_values (l : list (Z * (value + pystr))) (vals : list (pystr * value)) : list (pystr * value) := fold_left (fun k is => put (str_int (fst is)) (snd is) k) (values_in l) vals.

Lemma str_int_inj : forall a b, str_int a = str_int b -> a = b.
Proof. intros a b H. pose proof (parse_int_str_int a) as A. rewrite H, parse_int_str_int in A. congruence. Qed.
Lemma puts_fresh : forall A (l : list (Z * A)), NoDup (map fst l) -> forall acc, (forall i, In i (map fst l) -> ~ In (str_int i) (map fst acc)) ->
  fold_left (fun k is => put (str_int (fst is)) (snd is) k) l acc = acc ++ map (fun p => (str_int (fst p), snd p)) l.
Proof.
  intros A l ND. induction l as [|[i v] l IH]; intros acc H; [cbn; rewrite app_nil_r; reflexivity|]. cbn [map fst] in ND. inversion ND as [|? ? NI ND']; subst. cbn [fold_left map fst snd]. rewrite put_fresh by (apply H; left; reflexivity). rewrite IH; [rewrite <- app_assoc; reflexivity|exact ND'|].
  intros j Hj K. rewrite map_app in K. apply in_app_or in K. destruct K as [K|[K|[]]]; [exact (H j (or_intror Hj) K)|]. cbn [fst] in K. apply str_int_inj in K. subst j. exact (NI Hj).
Qed.
Lemma lookup_numbered : forall A (l : list (Z * A)) i, lookup (str_int i) (map (fun p => (str_int (fst p), snd p)) l) = value_at i l.
Proof.
  intros A l i. induction l as [|[j v] l IH]; [reflexivity|]. cbn [map fst snd lookup]. unfold value_at in *. cbn [find fst]. destruct (j =? i) eqn:E.
  - apply Z.eqb_eq in E. subst j. rewrite eqb_str_refl. reflexivity.
  - replace (eqb_str (str_int i) (str_int j)) with false by (symmetry; apply eqb_str_neq; intro K; apply str_int_inj in K; lia). exact IH.
Qed.
Lemma value_at_in : forall A (l : list (Z * A)) i v, value_at i l = Some v -> In (i, v) l.
Proof. intros A l i v H. unfold value_at in H. destruct (find (fun iv => fst iv =? i) l) as [[j w]|] eqn:E; [|discriminate H]. apply find_some in E. destruct E as [I E]. cbn in *. injection H as <-. replace i with j by lia. exact I. Qed.
Lemma value_at_none : forall A (l : list (Z * A)) i, value_at i l = None <-> ~ In i (map fst l).
Proof.
  intros A l i. unfold value_at. split.
  - intros H K. apply in_map_iff in K. destruct K as ([j v] & E & I). cbn in E. subst j. destruct (find (fun iv => fst iv =? i) l) eqn:F; [discriminate H|]. pose proof (find_none _ _ F _ I) as N. cbn in N. lia.
  - intro H. destruct (find (fun iv => fst iv =? i) l) as [[j v]|] eqn:F; [|reflexivity]. apply find_some in F. destruct F as [I E]. exfalso. apply H. cbn in E. replace i with j by lia. apply (in_map fst) in I. exact I.
Qed.
Lemma filter_filter_and : forall A (p q : A -> bool) l, filter p (filter q l) = filter (fun x => q x && p x) l.
Proof. intros A p q l. induction l as [|x l IH]; [reflexivity|]. cbn [filter]. destruct (q x); cbn [filter andb]; rewrite ?IH; reflexivity. Qed.
Lemma filter_true : forall A (l : list A), filter (fun _ => true) l = l.
Proof. intros A l. induction l as [|x l IH]; [reflexivity|]. cbn. rewrite IH. reflexivity. Qed.
Lemma existsb_false_in : forall A (p : A -> bool) l, existsb p l = false -> forall x, In x l -> p x = false.
Proof. intros A p l H x Hx. destruct (p x) eqn:E; [|reflexivity]. rewrite <- H. symmetry. apply existsb_exists. exists x. split; assumption. Qed.
Lemma remove_numbered : forall A (l : list (Z * A)) i, remove (str_int i) (map (fun p => (str_int (fst p), snd p)) l) = map (fun p => (str_int (fst p), snd p)) (filter (fun p => negb (fst p =? i)) l).
Proof.
  intros A l i. induction l as [|[j v] l IH]; [reflexivity|]. cbn [map fst snd remove filter]. unfold remove in *. cbn [filter fst]. destruct (j =? i) eqn:E.
  - apply Z.eqb_eq in E. subst j. rewrite eqb_str_refl. cbn [negb]. exact IH.
  - replace (eqb_str (str_int i) (str_int j)) with false by (symmetry; apply eqb_str_neq; intro K; apply str_int_inj in K; lia). cbn [negb map fst snd]. rewrite IH. reflexivity.
Qed.
Definition numbered {A} (l : list (Z * A)) : list (pystr * A) := map (fun p => (str_int (fst p), snd p)) l.
(** Matching of names and values *)
Lemma match_numbered : forall todo keys vals d, NoDup (map fst todo) -> NoDup (map snd todo) -> (forall s, In s (map snd todo) -> ~ In s (map fst d)) ->
  match_keys (numbered todo) (numbered keys) (numbered vals) d =
  (d ++ flat_map (fun is => match value_at (fst is) vals with Some v => [(snd is, v)] | None => [] end) todo,
   numbered (filter (fun is => negb (existsb (fun t => fst t =? fst is) todo && existsb (fun t => fst t =? fst is) vals)) keys),
   numbered (filter (fun iv => negb (existsb (fun t => fst t =? fst iv) todo)) vals)).
Proof.
  induction todo as [|[i s] todo IH]; intros keys vals d ND NS H.
  - cbn [numbered map match_keys flat_map existsb andb negb]. rewrite app_nil_r. f_equal; [f_equal|]; unfold numbered; f_equal; symmetry; apply filter_true.
  - cbn [map fst snd] in ND, NS. inversion ND as [|? ? NI ND']; inversion NS as [|? ? SI NS']; subst. change (numbered ((i, s) :: todo)) with ((str_int i, s) :: numbered todo). cbn [match_keys]. rewrite (lookup_numbered _ vals i : lookup (str_int i) (numbered vals) = _). cbn [flat_map fst snd]. destruct (value_at i vals) as [v|] eqn:V.
    + rewrite (remove_numbered _ keys i : remove (str_int i) (numbered keys) = numbered _), (remove_numbered _ vals i : remove (str_int i) (numbered vals) = numbered _).
      rewrite IH; [|exact ND'|exact NS'|].
      * rewrite put_fresh by (apply H; left; reflexivity). rewrite <- app_assoc. cbn [app].
        assert (VI : existsb (fun t => fst t =? i) vals = true). { apply existsb_exists. exists (i, v). split; [apply value_at_in; exact V|cbn; lia]. }
        f_equal; [f_equal|].
        -- f_equal. f_equal. rewrite !flat_map_concat_map. f_equal. apply map_ext_in. intros [j t] Ht. cbn [fst snd]. assert (J : j <> i) by (intros ->; apply NI; apply (in_map fst) in Ht; exact Ht). replace (value_at j (filter (fun p : Z * value => negb (fst p =? i)) vals)) with (value_at j vals); [reflexivity|].
           clear - J. unfold value_at. f_equal. induction vals as [|[k w] vals IH]; [reflexivity|]. cbn [find filter fst]. destruct (k =? j) eqn:E1; destruct (k =? i) eqn:E2; cbn [negb find fst]; try rewrite E1; try reflexivity; try exact IH. lia.
        -- unfold numbered. f_equal. rewrite filter_filter_and. apply filter_ext. intros [j t]. cbn [fst existsb]. destruct (j =? i) eqn:E.
           ++ apply Z.eqb_eq in E. subst j. rewrite Z.eqb_refl, VI. reflexivity.
           ++ replace (i =? j) with false by lia. cbn [negb andb orb]. f_equal. f_equal. clear - E. induction vals as [|[k w] vals IH]; [reflexivity|]. cbn [filter existsb fst]. destruct (k =? i) eqn:E2; cbn [negb existsb fst]; [replace (k =? j) with false by lia; exact IH|rewrite IH; reflexivity].
        -- unfold numbered. f_equal. rewrite filter_filter_and. apply filter_ext. intros [j t]. cbn [fst existsb]. destruct (j =? i) eqn:E; [replace (i =? j) with true by lia; reflexivity|replace (i =? j) with false by lia; reflexivity].
      * intros t Ht K. rewrite put_fresh in K by (apply H; left; reflexivity). rewrite map_app in K. apply in_app_or in K. destruct K as [K|[K|[]]]; [exact (H t (or_intror Ht) K)|]. cbn in K. subst t. exact (SI Ht).
    + rewrite IH; [|exact ND'|exact NS'|intros t Ht; apply H; right; exact Ht]. cbn [app]. assert (VI : existsb (fun t => fst t =? i) vals = false). { apply not_true_iff_false. intro K. apply existsb_exists in K. destruct K as ([j w] & I & E). cbn in E. apply value_at_none in V. apply V. replace i with j by lia. apply (in_map fst) in I. exact I. }
      f_equal; [f_equal|]; unfold numbered; f_equal; apply filter_ext_in; intros [j t] Ht; cbn [fst existsb]; destruct (i =? j) eqn:E; try reflexivity.
      * apply Z.eqb_eq in E. subst j. rewrite VI, !andb_false_r. reflexivity.
      * apply Z.eqb_eq in E. subst j. exfalso. pose proof (existsb_false_in _ _ _ VI _ Ht) as K. cbn in K. lia.
Qed.
Lemma in_existsb : forall A (l : list (Z * A)) i, existsb (fun t => fst t =? i) l = match value_at i l with Some _ => true | None => false end.
Proof. intros A l i. unfold value_at. induction l as [|[j v] l IH]; [reflexivity|]. cbn [existsb find fst]. destruct (j =? i); [reflexivity|exact IH]. Qed.
Lemma matched_numbered : forall id (its : list (Z * (value + pystr))) um, distinct its -> matched id (numbered (names_in its)) (numbered (values_in its)) um = (Dict (dictionary its), keep_left id its um).
Proof.
  intros id its um (N1 & N2 & N3). unfold matched. rewrite match_numbered; [|exact N1|exact N3|intros s _ []]. cbn [app].
  assert (A : filter (fun is => negb (existsb (fun t => fst t =? fst is) (names_in its) && existsb (fun t => fst t =? fst is) (values_in its))) (names_in its) = left_names its).
  { apply filter_ext_in. intros [i s] H. cbn [fst]. replace (existsb (fun t => fst t =? i) (names_in its)) with true by (symmetry; apply existsb_exists; exists (i, s); split; [exact H|cbn; lia]). rewrite in_existsb. destruct (value_at i (values_in its)); reflexivity. }
  assert (B : filter (fun iv => negb (existsb (fun t => fst t =? fst iv) (names_in its))) (values_in its) = left_values its).
  { apply filter_ext. intros [i s]. cbn [fst]. rewrite in_existsb. destruct (value_at i (names_in its)); reflexivity. }
  rewrite A, B. unfold keep_left. f_equal. destruct (left_names its); destruct (left_values its); reflexivity.
Qed.
Lemma numbers_put : forall its : list (Z * (value + pystr)), distinct its -> put_names its [] = numbered (names_in its) /\ put_values its [] = numbered (values_in its).
Proof. intros its (N1 & N2 & _). unfold put_names, put_values. split; rewrite puts_fresh; try reflexivity; try assumption; intros i _ []. Qed.
Lemma set_cons : forall i b l, set_bytes ((i, b) :: l) = item_bytes i b ++ set_bytes l.
Proof. reflexivity. Qed.
Lemma head_length : forall t fl i, zlen (item_head t fl i) = 4.
Proof. intros. unfold item_head, zlen. cbn [List.length]. rewrite le_length. reflexivity. Qed.
Lemma with_length_length : forall b, zlen (with_length b) = zlen b + 4.
Proof. intro b. unfold with_length. rewrite zlen_app. unfold zlen at 1. rewrite le_length. lia. Qed.
Lemma four_length : forall x, zlen (le 4 x) = 4.
Proof. intro x. unfold zlen. rewrite le_length. reflexivity. Qed.
Lemma array_length : forall k l, zlen (flat_map (le (width_of k)) l) = zlen l * Z.of_nat (width_of k).
Proof. intros k l. unfold zlen. induction l as [|x l IH]; [reflexivity|]. cbn [flat_map List.length]. rewrite app_length, le_length. lia. Qed.
Lemma item_front : forall i b, exists t fl p, item_bytes i b = item_head t fl i ++ p.
Proof. intros i []; cbn [item_bytes]; do 3 eexists; reflexivity. Qed.

Lemma skipz_front : forall (a r : list Z), skipz (zlen a) (a ++ r) = r.
Proof. intros. rewrite skipz_skipn. unfold zlen. rewrite Nat2Z.id. apply skipn_app_exact. reflexivity. Qed.
Lemma firstz_front : forall (a r : list Z), firstz (zlen a) (a ++ r) = a.
Proof. intros. rewrite firstz_firstn. unfold zlen. rewrite Nat2Z.id. apply firstn_app_exact. reflexivity. Qed.

Theorem C82_inside : forall fuel id l keys vals um r,
  Forall (fun ib => 0 <= fst ib < 2 ^ 16 /\ body_ok (snd ib)) l -> (List.length (set_bytes l) < fuel)%nat ->
  pset fuel id (zlen (set_bytes l)) keys vals um (set_bytes l ++ r) =
  let (d, um') := matched id (put_names (items l) keys) (put_values (items l) vals) (left_inside id l um) in Ok (d, um', r).
Proof.
  induction fuel as [|fuel IH]; intros id l keys vals um r OK F; [lia|]. destruct l as [|[i b] l]; [reflexivity|]. inversion OK as [|? ? [Hi Hb] OK']; subst. cbn [fst snd] in *.
  assert (T : 4 <= zlen (item_bytes i b)). { destruct (item_front i b) as (t & fl & p & ->). rewrite zlen_app, head_length. pose proof (zlen_nonneg _ p). lia. }
  assert (F' : (List.length (set_bytes l) < fuel)%nat). { rewrite set_cons, app_length in F. unfold zlen in T. lia. }
  assert (P : zlen (set_bytes ((i, b) :: l)) = zlen (item_bytes i b) + zlen (set_bytes l)) by (rewrite set_cons; apply zlen_app). pose proof (zlen_nonneg _ (set_bytes l)) as Pl.
  assert (R : forall rem keys' vals', rem = zlen (set_bytes l) -> forall um', pset fuel id rem keys' vals' um' (set_bytes l ++ r) = (let (d, um'') := matched id (put_names (items l) keys') (put_values (items l) vals') (left_inside id l um') in Ok (d, um'', r))) by (intros rem keys' vals' -> um'; apply IH; assumption).
  assert (W : set_bytes ((i, b) :: l) ++ r = item_bytes i b ++ (set_bytes l ++ r)) by (rewrite set_cons, <- app_assoc; reflexivity).
  assert (S : id ++ str "_" ++ str_int (zlen (set_bytes ((i, b) :: l)) - 4) = set_id id ((i, b) :: l)) by reflexivity.
  assert (FI : (List.length (item_bytes i b) <= fuel)%nat). { rewrite set_cons, app_length in F. lia. }
  cbn [left_inside]. remember (set_id id ((i, b) :: l)) as sid eqn:Esid. clear Esid.
  rewrite W. remember (zlen (set_bytes ((i, b) :: l))) as n eqn:En. clear En W. cbn [pset]. replace (n <=? 0) with false by lia.
  remember (set_bytes l ++ r) as rest eqn:Erest. clear Erest. clear F.
  assert (TY : forall k, 0 < type_of k < 128) by (intros []; cbn; lia).
  destruct b as [s|k x|k a|s|a|a|m]; [..|rewrite nested_bytes]; cbn [item_bytes]; rewrite <- ?app_assoc; unfold item_head; cbn [app]; (rewrite type_front by (try apply TY; lia)); cbn [bind]; (rewrite byte_front by lia); cbn [bind]; rewrite <- ?app_assoc; (rewrite half_front by exact Hi); cbn [bind]; rewrite S.
  - unfold with_length. rewrite <- app_assoc. cbn [Z.eqb Pos.eqb kind_of orb andb negb]. destruct Hb as [Ht Hl]. rewrite quad_front by (split; [apply zlen_nonneg|exact Hl]). cbn [bind]. rewrite text_decode by exact Ht. cbn [bind fst snd]. rewrite R; [reflexivity|]. cbn [item_bytes] in P. rewrite zlen_app, head_length, with_length_length in P. lia.
  - cbn [Z.eqb Pos.eqb]. rewrite kind_type. rewrite one_front by exact Hb. cbn [bind fst snd]. cbn [item_bytes] in P. rewrite zlen_app, head_length in P. unfold zlen at 1 in P. rewrite le_length in P. destruct k; cbn [type_of]; (rewrite R; [reflexivity|]); cbn [kind_width width_of] in *; lia.
  - cbn [Z.eqb Pos.eqb]. destruct Hb as (Ha & Hn & Hl). rewrite quad_front by (split; [apply zlen_nonneg|exact Hl]). cbn [bind]. rewrite kind_type. rewrite many_front by assumption. cbn [bind fst snd]. cbn [item_bytes] in P. rewrite !zlen_app, head_length, four_length, array_length in P. destruct k; cbn [type_of]; (rewrite R; [reflexivity|]); cbn [kind_width width_of] in *; lia.
  - unfold with_length. rewrite <- app_assoc. cbn [Z.eqb Pos.eqb kind_of orb andb negb]. destruct Hb as [Ht Hl]. rewrite quad_front by (split; [apply zlen_nonneg|exact Hl]). cbn [bind]. rewrite text_decode by exact Ht. cbn [bind fst snd]. rewrite R; [reflexivity|]. cbn [item_bytes] in P. rewrite zlen_app, head_length, with_length_length in P. lia.
  - unfold with_length. rewrite <- app_assoc. cbn [Z.eqb Pos.eqb kind_of orb andb negb]. rewrite quad_front by (split; [apply zlen_nonneg|exact Hb]). cbn [bind]. rewrite firstz_front, skipz_front. rewrite R; [reflexivity|]. cbn [item_bytes] in P. rewrite zlen_app, head_length, with_length_length in P. lia.
  - unfold with_length. rewrite <- app_assoc. cbn [Z.eqb Pos.eqb kind_of orb andb negb]. rewrite quad_front by (split; [apply zlen_nonneg|exact Hb]). cbn [bind]. rewrite skipz_front. rewrite R; [reflexivity|]. cbn [item_bytes] in P. rewrite zlen_app, head_length, with_length_length in P. lia.
  - apply nested_ok in Hb. destruct Hb as (Hm & Hl & Hd). unfold with_length. rewrite <- app_assoc. cbn [Z.eqb Pos.eqb kind_of orb andb negb]. rewrite quad_front by (split; [apply zlen_nonneg|exact Hl]). cbn [bind].
    rewrite nested_bytes in P, FI. rewrite zlen_app, head_length, with_length_length in P. rewrite app_length in FI. unfold with_length in FI. rewrite app_length, le_length in FI. rewrite IH by (try exact Hm; lia). destruct (numbers_put _ Hd) as [-> ->]. rewrite matched_numbered by exact Hd. cbn [bind fst snd]. rewrite R by lia. rewrite left_nested. reflexivity.
Qed.
Theorem C82_set : forall id l um r, set_ok l -> read_pset id (zlen (set_bytes l)) um (set_bytes l ++ r) = Ok (Dict (dictionary (items l)), keep_left id (items l) (left_inside id l um), r).
Proof.
  intros id l um r (H & _ & D). unfold read_pset. rewrite C82_inside; [|exact H|rewrite app_length; lia]. destruct (numbers_put _ D) as [-> ->]. rewrite matched_numbered by exact D. reflexivity.
Qed.

(** * What the dictionary says *)
Lemma value_at_found : forall A (l : list (Z * A)) i v, NoDup (map fst l) -> In (i, v) l -> value_at i l = Some v.
Proof.
  intros A l i v N H. unfold value_at. induction l as [|[j w] l IH]; [destruct H|]. cbn [map fst] in N. inversion N as [|? ? NI N']; subst. cbn [find fst]. destruct H as [E|H].
  - injection E as -> ->. rewrite Z.eqb_refl. reflexivity.
  - destruct (j =? i) eqn:E; [|apply IH; assumption]. exfalso. apply NI. replace j with i by lia. apply (in_map fst) in H. exact H.
Qed.
Lemma in_names : forall A (l : list (Z * (A + pystr))) i s, In (i, s) (names_in l) <-> In (i, inr s) l.
Proof.
  intros. unfold names_in. rewrite in_flat_map. split.
  - intros ([j [v|t]] & H & K); cbn in K; try contradiction; destruct K as [K|[]]. injection K as -> ->. exact H.
  - intro H. exists (i, inr s). split; [exact H|left; reflexivity].
Qed.
Lemma in_values : forall A (l : list (Z * (A + pystr))) i v, In (i, v) (values_in l) <-> In (i, inl v) l.
Proof.
  intros. unfold values_in. rewrite in_flat_map. split.
  - intros ([j [w|t]] & H & K); cbn in K; try contradiction; destruct K as [K|[]]. injection K as -> ->. exact H.
  - intro H. exists (i, inl v). split; [exact H|left; reflexivity].
Qed.
Lemma dictionary_in : forall A (its : list (Z * (A + pystr))) s v, distinct its -> (In (s, v) (dictionary its) <-> exists i, In (i, inr s) its /\ In (i, inl v) its).
Proof.
  intros A its s v (N1 & N2 & N3). unfold dictionary. rewrite in_flat_map. split.
  - intros ([i t] & H & K). cbn [fst snd] in K. destruct (value_at i (values_in its)) as [w|] eqn:E; [|destruct K]. destruct K as [K|[]]. injection K as -> ->. exists i. split; [apply in_names; exact H|apply in_values; apply value_at_in; exact E].
  - intros (i & Hn & Hv). exists (i, s). split; [apply in_names; exact Hn|]. cbn [fst snd]. rewrite (value_at_found _ _ _ v); [left; reflexivity|exact N2|apply in_values; exact Hv].
Qed.
Lemma dictionary_nodup : forall A (its : list (Z * (A + pystr))), NoDup (map snd (names_in its)) -> NoDup (map fst (dictionary its)).
Proof.
  intros A its. unfold dictionary. generalize (values_in its) as vals. generalize (names_in its) as l. induction l as [|[i s] l IH]; intros vals N; [constructor|]. cbn [map snd] in N. inversion N as [|? ? NI N']; subst. cbn [flat_map fst snd]. destruct (value_at i vals) as [v|]; [|apply IH; exact N']. cbn [app map fst]. constructor; [|apply IH; exact N'].
  intro K. apply NI. apply in_map_iff in K. destruct K as ([t w] & E & K). cbn in E. subst t. apply in_flat_map in K. destruct K as ([j u] & H & K). cbn [fst snd] in K. destruct (value_at j vals); [|destruct K]. destruct K as [K|[]]. injection K as -> ->. apply (in_map snd) in H. exact H.
Qed.
Lemma lookup_found : forall A (l : list (pystr * A)) k v, NoDup (map fst l) -> In (k, v) l -> lookup k l = Some v.
Proof.
  intros A l k v N H. induction l as [|[j w] l IH]; [destruct H|]. cbn [map fst] in N. inversion N as [|? ? NI N']; subst. cbn [lookup]. destruct H as [E|H].
  - injection E as -> ->. rewrite eqb_str_refl. reflexivity.
  - destruct (eqb_str k j) eqn:E; [|apply IH; assumption]. apply eqb_str_spec in E. subst j. exfalso. apply NI. apply (in_map fst) in H. exact H.
Qed.
(** A name has the value of the same number, wherever the two are in the set *)
Theorem C82_value : forall l i j s b, set_ok l -> In (i, Name s) l -> In (j, b) l -> j = i -> (forall t, b <> Name t) ->
  exists v, meaning b = inl v /\ forall id um r, exists um', read_pset id (zlen (set_bytes l)) um (set_bytes l ++ r) = Ok (Dict (dictionary (items l)), um', r) /\ lookup s (dictionary (items l)) = Some v.
Proof.
  intros l i j s b OK Hn Hb -> Nb. assert (M : exists v, meaning b = inl v) by (destruct b as [t|[] ?|[] ?|?|?|?|?]; try (eexists; reflexivity); exfalso; apply (Nb t); reflexivity). destruct M as [v Hv]. exists v. split; [exact Hv|]. intros id um r. exists (keep_left id (items l) (left_inside id l um)). split; [apply C82_set; exact OK|].
  destruct OK as (_ & _ & D). apply lookup_found; [apply dictionary_nodup; exact (proj2 (proj2 D))|]. apply dictionary_in; [exact D|]. exists i. split; unfold items; apply in_map_iff; [exists (i, Name s); split; [reflexivity|exact Hn]|exists (i, b); cbn [fst snd]; rewrite Hv; split; [reflexivity|exact Hb]].
Qed.
(** Nothing is invented *)
Theorem C82_only : forall l s v, set_ok l -> lookup s (dictionary (items l)) = Some v -> exists i b, In (i, Name s) l /\ In (i, b) l /\ meaning b = inl v.
Proof.
  intros l s v (_ & _ & D) H. assert (I : In (s, v) (dictionary (items l))). { clear D. induction (dictionary (items l)) as [|[k w] d IH]; [discriminate H|]. cbn [lookup] in H. destruct (eqb_str s k) eqn:E; [apply eqb_str_spec in E; injection H as <-; subst k; left; reflexivity|right; apply IH; exact H]. }
  apply dictionary_in in I; [|exact D]. destruct I as (i & Hn & Hv). unfold items in Hn, Hv. apply in_map_iff in Hn. apply in_map_iff in Hv. destruct Hn as ([a b1] & E1 & H1). destruct Hv as ([c b2] & E2 & H2). cbn [fst snd] in *. injection E1 as -> E1. injection E2 as -> E2. exists i, b2. repeat split; try assumption.
  destruct b1 as [t|[] ?|[] ?|?|?|?|?]; cbn in E1; try discriminate E1. injection E1 as ->. exact H1.
Qed.
(** Nothing is kept aside when every name has a value and every value a name *)
Lemma left_none : forall b id um, body_complete b -> left_body id b um = um.
Proof.
  fix IH 1. intros b id um H. destruct b as [s|k x|k a|s|a|a|m]; try reflexivity. rewrite left_nested. destruct H as (Hm & Hn & Hv). unfold keep_left. rewrite Hn, Hv. clear Hn Hv. revert um Hm. induction m as [|[i b] m IHm]; intros um Hm; [reflexivity|]. cbn [left_inside]. destruct Hm as [Hb Hm]. rewrite (IH b) by exact Hb. apply IHm. exact Hm.
Qed.
Theorem C82_complete : forall id l um r, set_ok l -> complete l -> read_pset id (zlen (set_bytes l)) um (set_bytes l ++ r) = Ok (Dict (dictionary (items l)), um, r).
Proof.
  intros id l um r OK (Hl & Hn & Hv). rewrite C82_set by exact OK. unfold keep_left. rewrite Hn, Hv. f_equal. f_equal. f_equal. clear - Hl. revert um. induction Hl as [|[i b] l Hb Hl IH]; intro um; [reflexivity|]. cbn [left_inside]. cbn [snd] in Hb. rewrite left_none by exact Hb. apply IH.
Qed.
(** An array of one number becomes the number *)
Theorem C82_one_refuted : forall id k x i um, number_ok k x -> 0 <= i < 2 ^ 16 ->
  let b := item_bytes i (Array k [x]) in
  read_pset id (zlen b) um b = read_pset id (zlen (item_bytes i (Number k x))) um (item_bytes i (Number k x)).
Proof.
  intros id k x i um H Hi b. unfold b. clear b. assert (R : forall fl, (fl = 0 \/ fl = 128) -> forall n u, n = (if fl =? 128 then 8 else 4) + kind_width k -> pset (S (S u)) id n [] [] um (item_head (type_of k) fl i ++ (if fl =? 128 then le 4 1 else []) ++ le (width_of k) x) =
    let (d, um') := matched id [] [(str_int i, match k with FileTime => Date (date_text x) | _ => Num k x end)] um in Ok (d, um', [])).
  { intros fl F n u N. assert (0 < kind_width k) by (destruct k; reflexivity). assert (n > 0) by (destruct (fl =? 128); lia). cbn [pset]. replace (n <=? 0) with false by lia. unfold item_head. cbn [app]. rewrite type_front by (destruct k; cbn; lia). cbn [bind]. rewrite byte_front by lia. cbn [bind]. rewrite half_front by exact Hi. cbn [bind]. pose proof (one_front k x [] H) as O. rewrite app_nil_r in O.
    destruct F as [-> | ->]; cbn [Z.eqb Pos.eqb app] in *; [|rewrite quad_front by lia; cbn [bind]]; rewrite kind_type, O; cbn [bind fst snd]; [replace (n - 4 - kind_width k * 1) with 0 by lia|replace (n - 4 - (kind_width k * 1 + 4)) with 0 by lia]; destruct k; reflexivity. }
  assert (L : exists u, List.length (le (width_of k) x) = S u) by (rewrite le_length; destruct k; eexists; reflexivity). destruct L as [u Lu].
  unfold read_pset. cbn [item_bytes flat_map]. rewrite app_nil_r. rewrite !app_length, Lu. pose proof (R 128 ltac:(right; reflexivity)) as A. pose proof (R 0 ltac:(left; reflexivity)) as B. cbn [Z.eqb Pos.eqb] in A, B. rewrite app_nil_l in B. change (zlen [x]) with 1.
  replace (S (List.length (item_head (type_of k) 128 i) + (List.length (le 4 1) + S u)))%nat with (S (S (List.length (item_head (type_of k) 128 i) + List.length (le 4 1) + u)))%nat by lia. replace (S (List.length (item_head (type_of k) 0 i) + S u))%nat with (S (S (List.length (item_head (type_of k) 0 i) + u)))%nat by lia.
  rewrite A, B; [reflexivity| |]; rewrite ?zlen_app, ?head_length, ?four_length; unfold zlen; rewrite le_length, kind_width_of; lia.
Qed.
(** A flag that is not known is read like the normal one *)
Theorem C82_flag : forall fuel id n keys vals um t fl i b, 0 <= fl < 256 -> fl <> 64 -> fl <> 128 -> 0 <= i < 2 ^ 16 -> 0 < t < 128 ->
  pset fuel id n keys vals um (item_head t fl i ++ b) = pset fuel id n keys vals um (item_head t 0 i ++ b) \/ n <= 0.
Proof.
  intros fuel id n keys vals um t fl i b F F1 F2 Hi Ht. destruct (n <=? 0) eqn:N; [right; lia|left]. destruct fuel as [|fuel]; [reflexivity|]. cbn [pset]. rewrite N. unfold item_head. cbn [app]. rewrite !type_front by exact Ht. cbn [bind]. rewrite !byte_front by lia. cbn [bind]. rewrite !half_front by exact Hi. cbn [bind]. replace (fl =? 64) with false by lia. replace (fl =? 128) with false by lia. reflexivity.
Qed.
(** A type that is not known is an error *)
Theorem C82_type : forall fuel id n keys vals um t fl i b, 0 <= fl < 256 -> fl <> 64 -> fl <> 128 -> 0 <= i < 2 ^ 16 -> 0 < t < 128 -> 0 < n -> ~ In t (map Z.of_nat (map (fun c => Ascii.nat_of_ascii c) (list_ascii_of_string "?csiwrqtbukp"))) ->
  pset (S fuel) id n keys vals um (item_head t fl i ++ b) = Err OtherError.
Proof.
  intros fuel id n keys vals um t fl i b F F1 F2 Hi Ht N NI. cbn [pset]. replace (n <=? 0) with false by lia. unfold item_head. cbn [app]. rewrite type_front by exact Ht. cbn [bind]. rewrite byte_front by lia. cbn [bind]. rewrite half_front by exact Hi. cbn [bind]. replace (fl =? 64) with false by lia. replace (fl =? 128) with false by lia. cbn in NI.
  unfold kind_of. replace (t =? 99) with false by lia. replace (t =? 63) with false by lia. replace (t =? 115) with false by lia. replace (t =? 105) with false by lia. replace (t =? 119) with false by lia. replace (t =? 114) with false by lia. replace (t =? 113) with false by lia. replace (t =? 116) with false by lia. replace (t =? 98) with false by lia. replace (t =? 117) with false by lia. replace (t =? 107) with false by lia. replace (t =? 112) with false by lia. reflexivity.
Qed.

Print Assumptions C82_inside.
Print Assumptions C82_set.
Print Assumptions C82_value.
Print Assumptions C82_only.
Print Assumptions C82_complete.
Print Assumptions C82_one_refuted.
Print Assumptions C82_flag.
Print Assumptions C82_type.
