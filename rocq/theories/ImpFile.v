(** Property C96: whole Impulse logs. *)
From Coq Require Import QArith.
From Verif Require Import Base Text Bytes HierModel HierProps SfsModel RplModel RplProps RenModel QuadModel HamText SurQuantity LogModel DensText DensFile LogText LogTable ProtoFile ImpProps.
Local Open Scope Z_scope.

(** * Specification *)
Record imp_file := { m_first : pystr; m_names : list pystr; m_rest : list pystr }.
Definition m_quantities (g : imp_file) : list pystr := skipn 2 (m_names g).
Definition names_ok (g : imp_file) : Prop := padded (m_first g) (join_char 44 (m_names g)) /\ trimmed (join_char 44 (m_names g)) /\ join_char 44 (m_names g) <> [] /\ Forall (fun n => ~ In 44 n) (m_names g).
Definition columns_ok (g : imp_file) : Prop := In (str "TimeStamp") (m_names g) /\ In (str "Experiment time") (firstn 2 (m_names g)) /\ (3 <= List.length (m_names g))%nat /\ Forall (fun n => clean_name (plain_name n)) (m_names g) /\ NoDup (map plain_name (m_names g)).
Definition m_cells (g : imp_file) (rows : list (list pystr)) (name : pystr) (c : list pystr) : Prop := exists i, nth_error (m_names g) i = Some name /\ is_column rows i c.
(** Positions of valves are numbers *)
Definition valve_cells (c : list pystr) (l : list Z) : Prop := Forall2 (fun s v => exists x y z, valves s x y z /\ v = 100 * (x + 2) + 10 * (y + 2) + (z + 2) /\ in_32_bits v) c l.
Definition data_ok (g : imp_file) (rows : list (list pystr)) (q : pystr) (d : cells) : Prop :=
  exists c, m_cells g rows q c /\ (q <> str "MixValve" -> d = Plain c) /\ (q = str "MixValve" -> exists l, d = Ints l /\ valve_cells c l).
(** The file of the metadata is named like the data, up to the last underscore *)
Definition slashes (s : pystr) : pystr := map (fun c => if c =? 92 then 47 else c) s.
Definition beside (name other : pystr) : Prop := exists a b, name = a ++ 95 :: b /\ ~ In 95 b /\ other = slashes a ++ str "_Metadata.log".
Definition named (name : pystr) : Prop := occurs (str "_Synchronized data") name \/ occurs (str "raw") name.
Definition described (lines : list pystr) (ps : list (pystr * pystr)) : Prop :=
  exists rows, Forall2 (fun r p => entry r (fst p) (snd p)) rows ps /\ (map csv_row lines = rows \/ exists note more nrows, map csv_row lines = rows ++ (str "Live notes" :: note :: more) :: nrows /\ Forall (fun r => r <> []) nrows).

Lemma metadata_beside : forall name other, beside name other -> metadata_name name = other.
Proof.
  intros name other (a & b & -> & N & ->). unfold metadata_name, slashes. assert (S : split_char 95 (a ++ 95 :: b) = split_char 95 a ++ [b]).
  { induction a as [|c a IH]; cbn [app split_char]; [rewrite Z.eqb_refl, split_char_nosep by exact N; reflexivity|]. rewrite IH. destruct (split_char 95 a) as [|x l] eqn:E; [destruct (split_char_ne _ _ E)|]. cbn [app]. destruct (c =? 95); reflexivity. }
  rewrite S, removelast_last, join_split, map_app. reflexivity.
Qed.
Lemma described_read : forall lines ps, described lines ps -> exists d n, metadata_rows None [] (map csv_row lines) = Ok (d, n) /\ forall k v, latest ps k v -> lookup k d = Some v.
Proof.
  intros lines ps (rows & E & [-> | (note & more & nrows & -> & N)]).
  - destruct (C96_metadata rows ps [] [] [] [] E (Forall2_nil _)) as (d & A & _ & B). exists d, []. split; [exact A|]. intros k v. exact (proj1 (B k) v).
  - assert (F : Forall2 (fun (r : list pystr) a => exists more, r = a :: more) nrows (map (fun r => nth 0 r []) nrows)). { clear E. induction N as [|r nrows R N IH]; [constructor|]. cbn [map]. constructor; [|exact IH]. destruct r as [|a r]; [congruence|]. exists r. reflexivity. }
    destruct (C96_metadata rows ps note more nrows _ E F) as (d & _ & A & B). eexists d, _. split; [exact A|]. intros k v. exact (proj1 (B k) v).
Qed.
Section File.
Variable float : pystr -> option Q.
Variable folder : pystr -> option (list pystr).
Definition m_table (g : imp_file) (rows : list (list pystr)) (ts : list Q) : Prop :=
  table (m_rest g) rows /\ Forall (fun r => List.length r = List.length (m_names g)) rows /\ (exists c, m_cells g rows (str "Experiment time") c /\ Forall2 (fun s q => float s = Some q) c ts) /\ (forall c, m_cells g rows (str "MixValve") c -> exists l, valve_cells c l).
Definition impulse_ok (g : imp_file) (rows : list (list pystr)) (ts : list Q) (date time q : pystr) (l : impulse) : Prop :=
  data_ok g rows q (i_data l) /\ i_title l = q /\ i_units l = quantity_units q /\ i_date l = date /\ i_time l = time /\ i_size l = zlen rows /\ ((4 <= List.length rows)%nat -> exists s, i_scale l = Some s /\ mean_step ts s) /\ ((List.length rows < 4)%nat -> i_scale l = None).

Lemma width_bound : forall s c, In s c -> (List.length s <= width_of c)%nat.
Proof. intros s c. induction c as [|x c IH]; intros I; [destruct I|]. cbn [width_of fold_right]. fold (width_of c). destruct I as [-> | I]; [lia|]. specialize (IH I). lia. Qed.
Lemma valves_read : forall c l, valve_cells c l -> mapM (mix_valve (width_of c)) c = Ok l.
Proof.
  intros c l F. assert (W : forall s, In s c -> (List.length s <= width_of c)%nat) by (intros; apply width_bound; assumption). revert W. generalize (width_of c). intros w W. induction F as [|s v c l (x & y & z & V & -> & B) F IH]; [reflexivity|]. cbn [mapM]. rewrite (C96_valves s x y z w V (W s (or_introl eq_refl)) B). cbn [bind]. rewrite IH by (intros; apply W; right; assumption). reflexivity.
Qed.
Definition cells_as (q : pystr) (c : list pystr) (d : cells) : Prop := (q <> str "MixValve" -> d = Plain c) /\ (q = str "MixValve" -> exists l, d = Ints l /\ valve_cells c l).
Lemma columns_read : forall data col names time d, (forall n, In n names -> get_column data (impulse_name n) = Ok (col n) /\ (2 <= List.length (col n))%nat) -> (In (str "MixValve") names -> exists l, valve_cells (col (str "MixValve")) l) -> NoDup names ->
  exists time' d', impulse_columns data (time, d) names = Ok (time', d') /\ (In (str "Experiment time") names -> time' = Some (col (str "Experiment time"))) /\ (~ In (str "Experiment time") names -> time' = time) /\
    (forall q, q <> str "Experiment time" -> In q names -> exists x, lookup q d' = Some x /\ cells_as q (col q) x) /\ (forall q, ~ In q names -> lookup q d' = lookup q d).
Proof.
  intros data col. induction names as [|n names IH]; intros time d G V D.
  - exists time, d. cbn [impulse_columns In]. repeat split; try tauto; contradiction.
  - inversion D as [|? ? D1 D2]; subst. assert (IH2 := fun t e => IH t e (fun m M => G m (or_intror M)) (fun M => V (or_intror M)) D2). clear IH. cbn [impulse_columns]. unfold impulse_column at 1. destruct (G n (or_introl eq_refl)) as [G1 G2]. rewrite G1. cbn [bind].
    destruct (eqb_str n (str "Experiment time")) eqn:E1.
    + apply eqb_str_spec in E1. subst n. cbn [bind]. destruct (IH2 (Some (col (str "Experiment time"))) d) as (t' & d' & R & A1 & A2 & A3 & A4). exists t', d'. split; [exact R|]. split; [intros _; exact (A2 D1)|]. split; [intro K; destruct (K (or_introl eq_refl))|]. split; [intros q Q [<- | I]; [congruence|exact (A3 q Q I)]|]. intros q Q. apply A4. intro I. apply Q. right. exact I.
    + assert (N : exists x, (if eqb_str n (str "MixValve") then match col n with [_] => Err TypeError | _ => let! l := mapM (mix_valve (width_of (col n))) (col n) in Ok (time, put n (Ints l) d) end else Ok (time, put n (Plain (col n)) d)) = Ok (time, put n x d) /\ cells_as n (col n) x).
      { destruct (eqb_str n (str "MixValve")) eqn:E2; [|apply eqb_str_neq in E2; exists (Plain (col n)); split; [reflexivity|split; [reflexivity|congruence]]]. apply eqb_str_spec in E2. subst n. destruct (V (or_introl eq_refl)) as [l L]. exists (Ints l). split; [|split; [congruence|intros _; exists l; split; [reflexivity|exact L]]]. destruct (col (str "MixValve")) as [|x [|y c]] eqn:C; [cbn [List.length] in G2; lia|cbn [List.length] in G2; lia|]. rewrite (valves_read _ _ L). reflexivity. }
      destruct N as (x & N1 & N2). rewrite N1. cbn [bind]. apply eqb_str_neq in E1. destruct (IH2 time (put n x d)) as (t' & d' & R & A1 & A2 & A3 & A4). exists t', d'. split; [exact R|]. split; [intros [K|K]; [congruence|exact (A1 K)]|]. split; [intro K; apply A2; intro I; apply K; right; exact I|]. split.
      * intros q Q [<- | I]; [|exact (A3 q Q I)]. exists x. rewrite (A4 n D1), lookup_put, eqb_str_refl. split; [reflexivity|exact N2].
      * intros q Q. rewrite A4 by (intro I; apply Q; right; exact I). rewrite lookup_put. replace (eqb_str q n) with false; [reflexivity|]. symmetry. apply eqb_str_neq. intros ->. apply Q. left. reflexivity.
Qed.
Lemma index_of : forall names : list pystr, exists index, forall n, In n names -> nth_error names (index n) = Some n.
Proof.
  induction names as [|x names [f IH]]; [exists (fun _ => 0%nat); intros n []|]. exists (fun n => if eqb_str n x then 0%nat else S (f n)). intros n I. destruct (eqb_str n x) eqn:E; [apply eqb_str_spec in E; subst x; reflexivity|]. destruct I as [-> | I]; [rewrite eqb_str_refl in E; discriminate E|]. cbn [nth_error]. apply IH. exact I.
Qed.
Lemma cells_same : forall g rows n c c', NoDup (m_names g) -> m_cells g rows n c -> m_cells g rows n c' -> c = c'.
Proof.
  intros g rows n c c' D (i & I & C) (j & J & C'). assert (i = j) by (apply (proj1 (NoDup_nth_error (m_names g)) D); [apply nth_error_Some; rewrite I; discriminate|congruence]). subst j. clear - C C'. revert c' C'. unfold is_column in *. induction C as [|r x rows c H F IH]; intros c' C'; inversion C'; subst; [reflexivity|]. f_equal; [congruence|apply IH; assumption].
Qed.
Lemma names_read : forall g, names_ok g -> split_char 44 (strip (m_first g)) = m_names g.
Proof. intros g (P & T & N & C). rewrite (strip_inner _ _ T N P). apply split_join; [|exact C]. intro E. rewrite E in N. apply N. reflexivity. Qed.
Lemma title_in : forall s l, In (str s) l -> existsb (eqb_str (str s)) l = true.
Proof. intros s l I. apply existsb_exists. exists (str s). split; [exact I|apply eqb_str_refl]. Qed.
(** Up to the dictionaries *)
Lemma opened : forall g rows ts (name : pystr) m, names_ok g -> columns_ok g -> m_table g rows ts -> (2 <= List.length rows)%nat -> impulse_metadata folder name = Ok m ->
  exists tc d, Forall2 (fun s q => float s = Some q) tc ts /\ List.length tc = List.length rows /\ impulse_reader float folder false name (m_first g :: m_rest g) = mapM (impulse_dictionary float (Some tc) d (fst m)) (m_quantities g) /\ m_quantities g <> [] /\
    forall q, In q (m_quantities g) -> exists x, lookup q d = Some x /\ data_ok g rows q x.
Proof.
  intros g rows ts name m NK (TS & ET & N3 & CN & DN) (TB & RL & (tc & TC & TF) & VK) R2 M. unfold impulse_reader. rewrite (names_read g NK). cbv zeta. rewrite (title_in _ _ TS). replace (3 <=? zlen (m_names g)) with true by (unfold zlen; lia). cbn [andb negb]. rewrite M. cbn [bind].
  assert (IE : map impulse_name (m_names g) = map plain_name (m_names g)) by (apply map_ext; exact C96_name). rewrite IE.
  assert (RN : rows <> []) by (intros ->; cbn [List.length] in R2; lia).
  destruct (table_columns (map plain_name (m_names g)) (m_rest g) rows) as (data & GD & COL); [rewrite Forall_forall in CN |- *; intros x X; apply in_map_iff in X; destruct X as [y [<- Y]]; apply CN; exact Y|exact DN|exact TB|exact RN|rewrite map_length; exact RL|]. rewrite GD. cbn [bind].
  destruct (index_of (m_names g)) as [index IDX].
  assert (GC : forall n, In n (m_names g) -> get_column data (impulse_name n) = Ok (column (index n) rows) /\ m_cells g rows n (column (index n) rows)).
  { intros n NI. rewrite C96_name. destruct (COL (index n) (plain_name n)) as [G1 G2]; [exact (map_nth_error plain_name (index n) (m_names g) (IDX n NI))|]. split; [exact G1|]. exists (index n). split; [exact (IDX n NI)|exact G2]. }
  assert (ND : NoDup (m_names g)) by (apply NoDup_map_inv in DN; exact DN).
  destruct (columns_read data (fun n => column (index n) rows) (m_names g) None []) as (t' & d' & R & A1 & A2 & A3 & A4); [intros n NI; split; [exact (proj1 (GC n NI))|unfold column; rewrite map_length; exact R2]|intro I; exact (VK _ (proj2 (GC _ I)))|exact ND|]. rewrite R. cbn [bind fst snd].
  assert (I2 : In (str "Experiment time") (m_names g)) by (rewrite <- (firstn_skipn 2 (m_names g)); apply in_or_app; left; exact ET).
  assert (TC2 : column (index (str "Experiment time")) rows = tc) by (eapply cells_same; [exact ND|exact (proj2 (GC _ I2))|exact TC]).
  exists tc, d'. split; [exact TF|]. split; [rewrite <- TC2; apply map_length|]. split; [rewrite (A1 I2), TC2; reflexivity|]. split; [intro Q; unfold m_quantities in Q; pose proof (skipn_length 2 (m_names g)) as K; rewrite Q in K; cbn [List.length] in K; lia|].
  intros q Q. assert (QI : In q (m_names g)) by (rewrite <- (firstn_skipn 2 (m_names g)); apply in_or_app; right; exact Q).
  assert (SEP : q <> str "Experiment time"). { intros ->. rewrite <- (firstn_skipn 2 (m_names g)) in ND. clear - ND ET Q. unfold m_quantities in Q. induction (firstn 2 (m_names g)) as [|y l IH]; [destruct ET|]. inversion ND; subst. destruct ET as [E | X]; [rewrite E in *; apply H1; apply in_or_app; right; exact Q|]. apply IH; assumption. }
  destruct (A3 q SEP QI) as (x & L & C1 & C2). exists x. split; [exact L|]. exists (column (index q) rows). split; [exact (proj2 (GC q QI))|]. split; assumption.
Qed.
Lemma metadata_read : forall name other lines ps, named name -> beside name other -> folder other = Some lines -> described lines ps -> exists d n, impulse_metadata folder name = Ok (d, n) /\ forall k v, latest ps k v -> lookup k d = Some v.
Proof.
  intros name other lines ps N B F D. unfold impulse_metadata. replace (contains (str "_Synchronized data") name || contains (str "raw") name) with true by (symmetry; apply orb_true_iff; destruct N as [N|N]; [left|right]; apply contains_spec; exact N). rewrite (metadata_beside _ _ B), F. apply described_read. exact D.
Qed.
Theorem C96_file : forall g rows ts name other lines ps date time, names_ok g -> columns_ok g -> m_table g rows ts -> (2 <= List.length rows)%nat ->
  named name -> beside name other -> folder other = Some lines -> described lines ps -> latest ps (str "Experiment_date") date -> latest ps (str "Experiment_time") time ->
  exists l, impulse_reader float folder false name (m_first g :: m_rest g) = Ok l /\ Forall2 (impulse_ok g rows ts date time) (m_quantities g) l.
Proof.
  intros g rows ts name other lines ps date time NK CK TK R2 NM B F D LD LT. destruct (metadata_read name other lines ps NM B F D) as (d & n & M & L). destruct (opened g rows ts name (d, n) NK CK TK R2 M) as (tc & e & TF & TL & R & _ & Q). rewrite R. cbn [fst].
  assert (TS : mapM (fun s => match float s with Some q => Ok q | None => Err TypeError end) tc = Ok ts). { clear - TF. induction TF as [|s q c ts H F IH]; [reflexivity|]. cbn [mapM]. rewrite H. cbn [bind]. rewrite IH. reflexivity. }
  assert (K : forall q, In q (m_quantities g) -> exists y, impulse_dictionary float (Some tc) e d q = Ok y /\ impulse_ok g rows ts date time q y).
  { intros q QI. destruct (Q q QI) as (x & X & DK). unfold impulse_dictionary. rewrite X. cbn [bind]. destruct tc as [|t1 [|t2 tc]]; [cbn [List.length] in TL; lia|cbn [List.length] in TL; lia|]. cbn [bind]. rewrite TS. cbn [bind]. rewrite (L _ _ LD), (L _ _ LT). cbn [bind]. eexists. split; [reflexivity|]. split; [exact DK|]. cbn [i_title i_units i_date i_time i_size i_scale]. split; [reflexivity|]. split; [reflexivity|]. split; [reflexivity|]. split; [reflexivity|]. split; [unfold zlen; rewrite TL; reflexivity|].
    pose proof (Forall2_length _ _ _ _ _ TF) as TL2. split.
    - intro R4. destruct (mean_inner ts ltac:(lia)) as (s & S1 & S2). exists s. split; assumption.
    - intro R4. destruct ts as [|a [|b [|c [|f ts]]]]; try reflexivity; cbn [List.length] in *; lia. }
  destruct (mapM_ok _ _ (impulse_dictionary float (Some tc) e d) (m_quantities g)) as (ys & Y & FY); [intros q QI; destruct (K q QI) as (y & Y & _); exists y; exact Y|]. exists ys. split; [exact Y|]. clear - K FY. induction FY as [|q y qs ys H FY IH]; [constructor|]. constructor; [|apply IH; intros z Z; apply K; right; exact Z]. destruct (K q (or_introl eq_refl)) as (y' & Y & O). congruence.
Qed.
(** Without metadata there is an error, not only a warning *)
Theorem C96_no_metadata_refuted : forall g rows ts name other, names_ok g -> columns_ok g -> m_table g rows ts -> (2 <= List.length rows)%nat -> named name -> beside name other -> folder other = None -> impulse_reader float folder false name (m_first g :: m_rest g) = Err KeyError.
Proof.
  intros g rows ts name other NK CK TK R2 NM B F. assert (M : impulse_metadata folder name = Ok ([], [])) by (unfold impulse_metadata; replace (contains (str "_Synchronized data") name || contains (str "raw") name) with true by (symmetry; apply orb_true_iff; destruct NM as [N|N]; [left|right]; apply contains_spec; exact N); rewrite (metadata_beside _ _ B), F; reflexivity).
  destruct (opened g rows ts name _ NK CK TK R2 M) as (tc & e & TF & TL & R & NQ & Q). rewrite R. destruct (m_quantities g) as [|q qs]; [congruence|]. cbn [mapM fst]. destruct (Q q (or_introl eq_refl)) as (x & X & DK). unfold impulse_dictionary. rewrite X. cbn [bind]. destruct tc as [|t1 [|t2 tc]]; [cbn [List.length] in TL; lia|cbn [List.length] in TL; lia|]. cbn [bind].
  assert (TS : mapM (fun s => match float s with Some q => Ok q | None => Err TypeError end) (t1 :: t2 :: tc) = Ok ts). { clear - TF. induction TF as [|s q c ts H F IH]; [reflexivity|]. cbn [mapM]. rewrite H. cbn [bind]. rewrite IH. reflexivity. }
  rewrite TS. reflexivity.
Qed.
Theorem C96_lazy : forall name file, impulse_reader float folder true name file = Err NotImplementedError.
Proof. reflexivity. Qed.
(** Other logs, and other names of files *)
Theorem C96_refused : forall g, names_ok g -> (~ In (str "TimeStamp") (m_names g) \/ (List.length (m_names g) < 3)%nat -> forall name, impulse_reader float folder false name (m_first g :: m_rest g) = Err IOError) /\ (forall name, ~ named name -> impulse_reader float folder false name (m_first g :: m_rest g) = Err IOError).
Proof.
  intros g NK. unfold impulse_reader. rewrite (names_read g NK). cbv zeta. split.
  - intros H name. assert (B : existsb (eqb_str (str "TimeStamp")) (m_names g) && (3 <=? zlen (m_names g)) = false). { destruct H as [H|H]; [|replace (3 <=? zlen (m_names g)) with false by (unfold zlen; lia); apply andb_false_r]. destruct (existsb (eqb_str (str "TimeStamp")) (m_names g)) eqn:E; [|reflexivity]. apply existsb_exists in E. destruct E as (x & X & E). apply eqb_str_spec in E. subst x. contradiction. } rewrite B. reflexivity.
  - intros name N. destruct (negb _); [reflexivity|]. unfold impulse_metadata. assert (B : contains (str "_Synchronized data") name || contains (str "raw") name = false). { destruct (contains (str "_Synchronized data") name) eqn:E1; [exfalso; apply N; left; apply contains_spec; exact E1|]. destruct (contains (str "raw") name) eqn:E2; [exfalso; apply N; right; apply contains_spec; exact E2|]. reflexivity. } rewrite B. reflexivity.
Qed.
End File.
