(** Property C95: Protochips logs as a whole. *)
From Coq Require Import QArith.
From Verif Require Import Base Text Bytes HierModel HierProps SfsModel RplModel RplProps RenModel QuadModel HamText SurQuantity LogModel DensText DensFile LogText LogTable ProtoProps.
Local Open Scope Z_scope.

Lemma Forall2_length : forall A B (R : A -> B -> Prop) l m, Forall2 R l m -> List.length l = List.length m.
Proof. intros A B R l m F. induction F as [|x y l m H F IH]; [reflexivity|]. cbn [List.length]. rewrite IH. reflexivity. Qed.
Lemma Forall2_impl : forall A B (R S : A -> B -> Prop) l m, (forall x y, R x y -> S x y) -> Forall2 R l m -> Forall2 S l m.
Proof. intros A B R S l m H F. induction F as [|x y l m P F IH]; constructor; auto. Qed.
Section File.
Variable float : pystr -> option Q.
Variable strptime : pystr -> option (pystr * pystr).
(** * Specification *)
(** A log: the line of names, the parameters, the line of the user (or the first of the others), and the table *)
Record log_file := { g_first : pystr; g_names : list pystr; g_lines : list pystr; g_params : list (pystr * pystr); g_next : pystr; g_rest : list pystr }.
Definition whole (g : log_file) : list pystr := g_first g :: g_lines g ++ g_next g :: g_rest g.
Definition quantities (g : log_file) : list pystr := skipn 2 (g_names g).
Definition head_ok (g : log_file) : Prop :=
  listed (g_first g) (g_names g) /\ (3 <= List.length (g_names g))%nat /\ In (str "Time") (firstn 2 (g_names g)) /\ In (str "Notes") (firstn 2 (g_names g)) /\ Forall (fun n => clean_name (map under n)) (g_names g) /\ NoDup (map (map under) (g_names g)) /\
  g_params g <> [] /\ Forall2 (fun l pv => param_line l (fst pv) (snd pv)) (g_lines g) (g_params g) /\ Forall (fun pv => ~ is_user (fst pv)) (g_params g).
Definition start_ok (g : log_file) (date time : pystr) : Prop := exists d t, final is_day (g_params g) d /\ final is_hour (g_params g) t /\ strptime (d ++ t) = Some (date, time).
Definition has_units (g : log_file) (q u : pystr) : Prop := exists w, last_word q w /\ final (is_attribute (Text.lower w ++ str "_units")) (g_params g) u.
Definition cells_of (g : log_file) (rows : list (list pystr)) (name : pystr) (c : list pystr) : Prop := exists i, nth_error (g_names g) i = Some name /\ is_column rows i c.
Definition table_ok (g : log_file) (rows : list (list pystr)) (ts : list Q) : Prop :=
  table (g_rest g) rows /\ Forall (fun r => List.length r = List.length (g_names g)) rows /\ rows <> [] /\ exists c, cells_of g rows (str "Time") c /\ Forall2 (fun s q => float s = Some q) c ts.
(** A step in seconds *)
Definition scale_ok (g : log_file) (ts : list Q) (s : Q) : Prop := exists u, final (is_attribute (str "time_units")) (g_params g) u /\ (u = str "Milliseconds" -> mean_step ts (s * 1000)) /\ (u <> str "Milliseconds" -> mean_step ts s).
(** Notes and their times; rows without notes are left out, but not if there are no notes at all *)
Definition notes_ok (ts notes : list pystr) (l : list (pystr * pystr)) : Prop :=
  ((exists n, In n notes /\ ~ blank_text n) -> l = filter (fun tn => match snd tn with [] => false | _ => true end) (combine ts notes)) /\
  (Forall blank_text notes -> l = combine ts (map (fun _ => str "False") notes)).
Definition log_ok (g : log_file) (rows : list (list pystr)) (ts : list Q) (date time : pystr) (user : option pystr) (q : pystr) (l : log) : Prop :=
  exists u w tc nc, has_units g q u /\ last_word q w /\ cells_of g rows (str "Time") tc /\ cells_of g rows (str "Notes") nc /\ cells_of g rows q (l_data l) /\ l_title l = q ++ str " (" ++ u ++ str ")" /\ l_quantity l = w ++ str " (" ++ u ++ str ")" /\
    l_size l = zlen rows /\ scale_ok g ts (l_scale l) /\ l_date l = date /\ l_time l = time /\ l_user l = user /\ (forall c, final is_calibration (g_params g) c -> l_calibration l = c) /\ ((forall c, ~ final is_calibration (g_params g) c) -> l_calibration l = no_calibration) /\ notes_ok tc nc (l_notes l).

(** * Columns *)
Lemma under_distinct : forall names, NoDup (map (map under) names) -> NoDup names.
Proof. intros names H. apply NoDup_map_inv in H. exact H. Qed.
Lemma fold_columns_read : forall data col names notes time d, (forall n, In n names -> get_column data (map under n) = Ok (col n)) -> NoDup names ->
  exists notes' time' d', fold_columns data (notes, time, d) names = Ok (notes', time', d') /\ (In (str "Notes") names -> notes' = as_text (col (str "Notes"))) /\ (~ In (str "Notes") names -> notes' = notes) /\ (In (str "Time") names -> time' = Some (col (str "Time"))) /\ (~ In (str "Time") names -> time' = time) /\
    (forall q, q <> str "Notes" -> q <> str "Time" -> In q names -> lookup q d' = Some (col q)) /\ (forall q, ~ In q names -> lookup q d' = lookup q d).
Proof.
  intros data col. induction names as [|n names IH]; intros notes time d G D.
  - exists notes, time, d. cbn [fold_columns In]. repeat split; try tauto; auto; try contradiction.
  - inversion D as [|? ? D1 D2]; subst. cbn [fold_columns]. unfold file_columns. change (fun c : Z => if c =? 32 then 95 else c) with under. rewrite (G n (or_introl eq_refl)). cbn [bind].
    destruct (eqb_str n (str "Notes")) eqn:E1; [|destruct (eqb_str n (str "Time")) eqn:E2].
    + apply eqb_str_spec in E1. subst n. destruct (IH (as_text (col (str "Notes"))) time d (fun m M => G m (or_intror M)) D2) as (n' & t' & d' & R & A1 & A2 & A3 & A4 & A5 & A6). exists n', t', d'. split; [exact R|]. split; [intros _; exact (A2 D1)|]. split; [intro K; exfalso; apply K; left; reflexivity|]. split; [intros [K|K]; [discriminate K|exact (A3 K)]|]. split; [intro K; apply A4; intro K2; apply K; right; exact K2|]. split; [intros q Q1 Q2 [Q|Q]; [congruence|exact (A5 q Q1 Q2 Q)]|]. intros q Q. apply A6. intro K. apply Q. right. exact K.
    + apply eqb_str_spec in E2. subst n. destruct (IH notes (Some (col (str "Time"))) d (fun m M => G m (or_intror M)) D2) as (n' & t' & d' & R & A1 & A2 & A3 & A4 & A5 & A6). exists n', t', d'. split; [exact R|]. split; [intros [K|K]; [discriminate K|exact (A1 K)]|]. split; [intro K; apply A2; intro K2; apply K; right; exact K2|]. split; [intros _; exact (A4 D1)|]. split; [intro K; exfalso; apply K; left; reflexivity|]. split; [intros q Q1 Q2 [Q|Q]; [congruence|exact (A5 q Q1 Q2 Q)]|]. intros q Q. apply A6. intro K. apply Q. right. exact K.
    + destruct (IH notes time (put n (col n) d) (fun m M => G m (or_intror M)) D2) as (n' & t' & d' & R & A1 & A2 & A3 & A4 & A5 & A6). apply eqb_str_neq in E1. apply eqb_str_neq in E2. exists n', t', d'. split; [exact R|]. split; [intros [K|K]; [congruence|exact (A1 K)]|]. split; [intro K; apply A2; intro K2; apply K; right; exact K2|]. split; [intros [K|K]; [congruence|exact (A3 K)]|]. split; [intro K; apply A4; intro K2; apply K; right; exact K2|].
      split; [intros q Q1 Q2 [Q|Q]; [subst q; rewrite (A6 n D1), lookup_put, eqb_str_refl; reflexivity|exact (A5 q Q1 Q2 Q)]|]. intros q Q. rewrite A6 by (intro K; apply Q; right; exact K). rewrite lookup_put. replace (eqb_str q n) with false; [reflexivity|]. symmetry. apply eqb_str_neq. intros ->. apply Q. left. reflexivity.
Qed.
Lemma as_text_notes : forall ts notes, List.length ts = List.length notes -> notes_ok ts notes (filter (fun tn => negb (eqb_str (snd tn) [])) (combine ts (as_text notes))).
Proof.
  intros ts notes L. unfold notes_ok, as_text. destruct (forallb (fun s => eqb_str (strip s) []) notes) eqn:E.
  - assert (B : Forall blank_text notes). { rewrite forallb_forall in E. rewrite Forall_forall. intros n N. specialize (E n N). apply eqb_str_spec in E. apply strip_none. exact E. }
    split; [intros (n & N & K); rewrite Forall_forall in B; destruct (K (B n N))|]. intros _. clear - L. revert notes L. induction ts as [|t ts IH]; intros [|n notes] L; try discriminate L; [reflexivity|]. cbn [map combine filter snd]. change (negb (eqb_str (str "False") [])) with true. cbv iota. f_equal. apply IH. injection L as L. exact L.
  - split.
    + intros _. clear. induction (combine ts notes) as [|[t n] l IH]; [reflexivity|]. cbn [filter snd]. rewrite IH. destruct n; reflexivity.
    + intro B. exfalso. assert (K : forallb (fun s => eqb_str (strip s) []) notes = true); [|congruence]. apply forallb_forall. intros n N. rewrite Forall_forall in B. rewrite (strip_blank n (B n N)). reflexivity.
Qed.
Lemma floats_read : forall c ts, Forall2 (fun s q => float s = Some q) c ts -> floats float c = Ok ts.
Proof. intros c ts F. unfold floats. induction F as [|s q c ts H F IH]; [reflexivity|]. cbn [mapM]. rewrite H. cbn [bind]. rewrite IH. reflexivity. Qed.
Lemma mem_in : forall s l, In (str s) l -> mem_name s l = true.
Proof. intros s l I. unfold mem_name. apply existsb_exists. exists (str s). split; [exact I|apply eqb_str_refl]. Qed.
Lemma attribute_lookup : forall h ps k u, header_of h ps -> final (is_attribute k) ps u -> lookup k (h_attrs h) = Some u.
Proof. intros h ps k u (_ & _ & _ & H) F. apply H. exact F. Qed.
Lemma scale_read : forall f g ts, header_of (c_header f) (g_params g) -> (4 <= List.length ts)%nat -> (exists u, final (is_attribute (str "time_units")) (g_params g) u) -> exists s, time_scale f ts = Ok s /\ scale_ok g ts s.
Proof.
  intros f g ts H L [u U]. unfold time_scale. destruct (mean_inner ts L) as (s & E & M). rewrite E, (attribute_lookup _ _ _ _ H U). eexists. split; [reflexivity|]. exists u. split; [exact U|]. destruct (eqb_str u (str "Milliseconds")) eqn:K.
  - apply eqb_str_spec in K. split; [|congruence]. intros _. destruct M as (a & b & A & B & Q). exists a, b. split; [exact A|]. split; [exact B|]. rewrite <- Q. field.
  - apply eqb_str_neq in K. split; [congruence|]. intros _. exact M.
Qed.
Lemma opened : forall g rows ts date time, head_ok g -> start_ok g date time -> table_ok g rows ts -> (exists up u, param_line (g_next g) up u /\ is_user up) \/ (exists note, note_line (g_next g) note) ->
  exists f tc nc, open_protochips strptime (whole g) = Ok f /\ c_names f = g_names g /\ header_of (c_header f) (g_params g) /\ c_start f = (date, time) /\ cells_of g rows (str "Time") tc /\ Forall2 (fun s q => float s = Some q) tc ts /\ cells_of g rows (str "Notes") nc /\ c_time f = Some tc /\ c_notes f = as_text nc /\
    (forall q, In q (quantities g) -> exists c, lookup q (c_data f) = Some c /\ cells_of g rows q c) /\
    (forall up u, param_line (g_next g) up u -> is_user up -> h_user (c_header f) = Some (Some u)) /\ (forall note, note_line (g_next g) note -> h_user (c_header f) = Some None).
Proof.
  intros g rows ts date time (L & N3 & IT & IN & CN & DN & PN & PL & NU) (d & t & FD & FT & ST) (TB & RL & RN & tc0 & TC & TF) NEXT.
  destruct (g_params g) as [|[p v] ps] eqn:EP; [congruence|]. destruct (g_lines g) as [|l1 lines] eqn:EL; [inversion PL|]. inversion PL as [|? ? ? ? PL1 PL2]; subst. cbn [fst snd] in PL1.
  unfold whole, open_protochips. rewrite EL. cbn [app]. assert (CNM : column_names (g_first g) = g_names g) by (apply listed_split; exact L). rewrite CNM. cbv zeta.
  assert (I2 : forall x, In x (firstn 2 (g_names g)) -> In x (g_names g)) by (intros x X; rewrite <- (firstn_skipn 2 (g_names g)); apply in_or_app; left; exact X).
  rewrite (mem_in _ _ (I2 _ IT)), (mem_in _ _ (I2 _ IN)). replace (3 <=? zlen (g_names g)) with true by (unfold zlen; lia). cbn [andb negb]. rewrite (C95_parameter _ _ _ PL1). cbn [bind fst snd].
  destruct (C95_header ps lines p v (g_next g) (g_rest g) PL2 NU) as [HU HN]. cbv zeta in HU, HN. set (h := read_header no_header 2 p v (lines ++ g_next g :: g_rest g)) in *.
  assert (HH : header_of h ((p, v) :: ps) /\ h_lines h = 3 + zlen ps) by (destruct NEXT as [(up & u & U & UP)|(note & U)]; [destruct (HU up u U UP) as (A & _ & B)|destruct (HN note U) as (A & _ & B)]; split; assumption).
  destruct HH as [HH HL]. destruct HH as (H1 & H2 & H3 & H4). rewrite (proj2 (H2 d) FD), (proj2 (H3 t) FT), ST. 
  assert (SK : skipz (h_lines h) (g_first g :: l1 :: lines ++ g_next g :: g_rest g) = g_rest g).
  { rewrite HL, skipz_skipn. replace (Z.to_nat (3 + zlen ps)) with (List.length (g_first g :: l1 :: lines ++ [g_next g]) + 0)%nat. - change (g_first g :: l1 :: lines ++ g_next g :: g_rest g) with ((g_first g :: l1 :: lines) ++ g_next g :: g_rest g). replace ((g_first g :: l1 :: lines) ++ g_next g :: g_rest g) with ((g_first g :: l1 :: lines ++ [g_next g]) ++ g_rest g) by (cbn [app]; rewrite <- app_assoc; reflexivity). rewrite skipn_app, skipn_all2 by lia. rewrite Nat.add_0_r, Nat.sub_diag. reflexivity. - cbn [List.length]. rewrite app_length. pose proof (Forall2_length _ _ _ _ _ PL2) as LL. cbn [List.length]. unfold zlen. rewrite <- LL. lia. }
  rewrite SK. change (fun c : Z => if c =? 32 then 95 else c) with under.
  destruct (table_columns (map (map under) (g_names g)) (g_rest g) rows) as (data & GD & COL); [rewrite Forall_forall in CN |- *; intros x X; apply in_map_iff in X; destruct X as [y [<- Y]]; apply CN; exact Y|exact DN|exact TB|exact RN|rewrite map_length; exact RL|]. rewrite GD. cbn [bind].
  set (index := fun n => (fix go (l : list pystr) (k : nat) := match l with [] => 0%nat | x :: l' => if eqb_str n x then k else go l' (S k) end) (g_names g) 0%nat).
  assert (IDX : forall n, In n (g_names g) -> nth_error (g_names g) (index n) = Some n).
  { intros n NI. unfold index. assert (G : forall l k, In n l -> exists i, nth_error l i = Some n /\ (fix go (l : list pystr) (k : nat) := match l with [] => 0%nat | x :: l' => if eqb_str n x then k else go l' (S k) end) l k = (k + i)%nat).
    { induction l as [|x l IH]; intros k K; [destruct K|]. destruct (eqb_str n x) eqn:E; [apply eqb_str_spec in E; subst x; exists 0%nat; split; [reflexivity|lia]|]. destruct K as [-> | K]; [rewrite eqb_str_refl in E; discriminate E|]. destruct (IH (S k) K) as (i & I1 & I3). exists (S i). split; [exact I1|]. rewrite I3. lia. }
    destruct (G (g_names g) 0%nat NI) as (i & I1 & I3). rewrite I3. exact I1. }
  assert (GC : forall n, In n (g_names g) -> get_column data (map under n) = Ok (column (index n) rows) /\ cells_of g rows n (column (index n) rows)).
  { intros n NI. destruct (COL (index n) (map under n)) as [G1 G2]; [exact (map_nth_error (map under) (index n) (g_names g) (IDX n NI))|]. split; [exact G1|]. exists (index n). split; [exact (IDX n NI)|exact G2]. }
  destruct (fold_columns_read data (fun n => column (index n) rows) (g_names g) [] None [] (fun n NI => proj1 (GC n NI)) (under_distinct _ DN)) as (n' & t' & d' & R & A1 & A2 & A3 & A4 & A5 & A6). rewrite R. cbn [bind].
  assert (TC2 : column (index (str "Time")) rows = tc0).
  { destruct (GC (str "Time") (I2 _ IT)) as [_ (i & E1 & C1)]. destruct TC as (j & E2 & C2). assert (IJ : i = j). { apply (proj1 (NoDup_nth_error (g_names g)) (under_distinct _ DN)); [apply nth_error_Some; rewrite E1; discriminate|congruence]. } subst j. clear - C1 C2. revert tc0 C2. unfold is_column in *. induction C1 as [|r x rows l H1 F1 IH]; intros tc0 C2; inversion C2; subst; [reflexivity|]. f_equal; [congruence|apply IH; assumption]. }
  eexists. exists tc0, (column (index (str "Notes")) rows). split; [reflexivity|]. cbn [c_names c_header c_start c_time c_notes c_data]. split; [reflexivity|]. split; [split; [exact H1|split; [exact H2|split; [exact H3|exact H4]]]|]. split; [reflexivity|]. split; [exact TC|]. split; [exact TF|]. split; [exact (proj2 (GC _ (I2 _ IN)))|]. split; [rewrite (A3 (I2 _ IT)), TC2; reflexivity|]. split; [exact (A1 (I2 _ IN))|]. split.
  - intros q Q. assert (QI : In q (g_names g)) by (rewrite <- (firstn_skipn 2 (g_names g)); apply in_or_app; right; exact Q). pose proof (under_distinct _ DN) as ND. rewrite <- (firstn_skipn 2 (g_names g)) in ND.
    assert (SEP : forall x, In x (firstn 2 (g_names g)) -> q <> x). { intros x X ->. clear - ND X Q. unfold quantities in Q. induction (firstn 2 (g_names g)) as [|y l IH]; [destruct X|]. inversion ND; subst. destruct X as [<- | X]; [apply H1; apply in_or_app; right; exact Q|]. apply IH; assumption. }
    exists (column (index q) rows). split; [apply A5; [apply SEP; exact IN|apply SEP; exact IT|exact QI]|exact (proj2 (GC q QI))].
  - split; [intros up u U UP; exact (proj1 (proj2 (HU up u U UP)))|]. intros note U. exact (proj1 (proj2 (HN note U))).
Qed.
Lemma units_read : forall f g q u, header_of (c_header f) (g_params g) -> has_units g q u -> units f q = Ok u.
Proof. intros f g q u H (w & W & F). unfold units. rewrite (last_word_cell _ _ W), (attribute_lookup _ _ _ _ H F). reflexivity. Qed.
Lemma mapM_ok : forall A B (f : A -> res B) l, (forall x, In x l -> exists y, f x = Ok y) -> exists ys, mapM f l = Ok ys /\ Forall2 (fun x y => f x = Ok y) l ys.
Proof.
  intros A B f l. induction l as [|x l IH]; intro H; [exists []; split; [reflexivity|constructor]|]. destruct (H x (or_introl eq_refl)) as [y Y]. destruct (IH (fun z Z => H z (or_intror Z))) as (ys & E & F). exists (y :: ys). cbn [mapM]. rewrite Y. cbn [bind]. rewrite E. split; [reflexivity|constructor; assumption].
Qed.
Lemma dictionaries : forall g rows ts date time, (4 <= List.length rows)%nat -> head_ok g -> start_ok g date time -> table_ok g rows ts -> (exists up u, param_line (g_next g) up u /\ is_user up) \/ (exists note, note_line (g_next g) note) ->
  (exists u, final (is_attribute (str "time_units")) (g_params g) u) -> (forall q, In q (quantities g) -> exists u, has_units g q u) ->
  exists logs, protochips_reader float strptime false (whole g) = Ok logs /\ Forall2 (fun q l => (forall up u, param_line (g_next g) up u -> is_user up -> log_ok g rows ts date time (match u with [] => None | _ => Some u end) q l) /\ (forall note, note_line (g_next g) note -> log_ok g rows ts date time None q l)) (quantities g) logs.
Proof.
  intros g rows ts date time R4 H S T NEXT TU QU. destruct (opened g rows ts date time H S T NEXT) as (f & tc & nc & O & CN & HH & CS & TC & TF & NC & CT & CO & CD & UU & UN). unfold protochips_reader. rewrite O. cbn [bind]. rewrite CN. fold (quantities g).
  assert (LT : List.length tc = List.length rows /\ List.length nc = List.length rows) by (destruct TC as (i & _ & C1); destruct NC as (j & _ & C2); apply Forall2_length in C1; apply Forall2_length in C2; lia).
  assert (L4 : (4 <= List.length ts)%nat) by (apply Forall2_length in TF; lia).
  destruct (scale_read f g ts HH L4 TU) as (s & SC & SO).
  assert (USER : exists uo, h_user (c_header f) = Some uo) by (destruct NEXT as [(up & u & U & UP)|(note & U)]; eexists; [exact (UU up u U UP)|exact (UN note U)]). destruct USER as [uo UO].
  assert (ALLU : exists us, mapM (units f) (skipn 2 (c_names f)) = Ok us). { destruct (mapM_ok _ _ (units f) (skipn 2 (c_names f))) as (us & E & _); [|exists us; exact E]. rewrite CN. intros q Q. destruct (QU q Q) as [u U]. exists u. exact (units_read f g q u HH U). } destruct ALLU as [us US].
  assert (ONE : forall q, In q (quantities g) -> exists l, (match dictionary float f q with Ok d => Ok d | Err _ => Err IOError end) = Ok l /\ ((forall up u, param_line (g_next g) up u -> is_user up -> log_ok g rows ts date time (match u with [] => None | _ => Some u end) q l) /\ (forall note, note_line (g_next g) note -> log_ok g rows ts date time None q l))).
  { intros q Q. destruct (CD q Q) as (c & C1 & C2). destruct (QU q Q) as [u U]. pose proof U as (w & W & _). unfold dictionary. rewrite C1. cbn [bind]. rewrite CT. cbn [bind]. rewrite (floats_read tc ts TF). cbn [bind]. rewrite SC. cbn [bind]. rewrite (units_read f g q u HH U). cbn [bind]. rewrite US. cbn [bind]. rewrite UO. cbn [bind]. eexists. split; [reflexivity|].
    assert (BASE : forall user, match uo with Some [] => None | x => x end = user -> log_ok g rows ts date time user q {| l_data := c; l_title := q ++ str " (" ++ u ++ str ")"; l_quantity := last_cell (split_char 32 q) ++ str " (" ++ u ++ str ")"; l_size := zlen tc; l_scale := s; l_date := fst (c_start f); l_time := snd (c_start f); l_user := match uo with Some [] => None | x => x end; l_calibration := match h_calibration (c_header f) with Some c0 => c0 | None => no_calibration end; l_notes := filter (fun tn => negb (eqb_str (snd tn) [])) (combine tc (c_notes f)) |}).
    { intros user EU. exists u, w, tc, nc. cbn [l_data l_title l_quantity l_size l_scale l_date l_time l_user l_calibration l_notes]. split; [exact U|]. split; [exact W|]. split; [exact TC|]. split; [exact NC|]. split; [exact C2|]. split; [reflexivity|]. split; [rewrite (last_word_cell _ _ W); reflexivity|]. split; [unfold zlen; rewrite (proj1 LT); reflexivity|]. split; [exact SO|]. rewrite CS. split; [reflexivity|]. split; [reflexivity|]. split; [exact EU|]. destruct HH as (HC & _). split; [intros c0 FC; rewrite (proj2 (HC c0) FC); reflexivity|]. split.
      - intro NONE. destruct (h_calibration (c_header f)) as [c0|] eqn:E; [destruct (NONE c0); apply HC; reflexivity|reflexivity].
      - rewrite CO. apply as_text_notes. lia. }
    split; [intros up u2 U2 UP; apply BASE; rewrite (UU up u2 U2 UP) in UO; injection UO as <-; destruct u2; reflexivity|]. intros note NT. apply BASE. rewrite (UN note NT) in UO. injection UO as <-. reflexivity. }
  clear - ONE. induction (quantities g) as [|q l IH]; [exists []; split; [reflexivity|constructor]|]. destruct (ONE q (or_introl eq_refl)) as (x & X & P). destruct (IH (fun z Z => ONE z (or_intror Z))) as (xs & E & F). exists (x :: xs). cbn [mapM]. rewrite X. cbn [bind]. rewrite E. split; [reflexivity|constructor; assumption].
Qed.
(** Every quantity of a log with a user *)
Theorem C95_file : forall g rows ts date time up u, head_ok g -> start_ok g date time -> table_ok g rows ts -> (4 <= List.length rows)%nat -> param_line (g_next g) up u -> is_user up ->
  (exists tu, final (is_attribute (str "time_units")) (g_params g) tu) -> (forall q, In q (quantities g) -> exists qu, has_units g q qu) ->
  exists logs, protochips_reader float strptime false (whole g) = Ok logs /\ Forall2 (log_ok g rows ts date time (match u with [] => None | _ => Some u end)) (quantities g) logs.
Proof.
  intros g rows ts date time up u H S T R4 U UP TU QU. destruct (dictionaries g rows ts date time R4 H S T (or_introl (ex_intro _ up (ex_intro _ u (conj U UP)))) TU QU) as (logs & E & F). exists logs. split; [exact E|]. eapply Forall2_impl; [|exact F]. intros q l [A _]. exact (A up u U UP).
Qed.
(** In a log without a user the first row of the table, g_next, is lost *)
Theorem C95_first_row_refuted : forall g rows ts date time note, head_ok g -> start_ok g date time -> table_ok g rows ts -> (4 <= List.length rows)%nat -> note_line (g_next g) note ->
  (exists tu, final (is_attribute (str "time_units")) (g_params g) tu) -> (forall q, In q (quantities g) -> exists qu, has_units g q qu) ->
  exists logs, protochips_reader float strptime false (whole g) = Ok logs /\ Forall2 (log_ok g rows ts date time None) (quantities g) logs.
Proof.
  intros g rows ts date time note H S T R4 U TU QU. destruct (dictionaries g rows ts date time R4 H S T (or_intror (ex_intro _ note U)) TU QU) as (logs & E & F). exists logs. split; [exact E|]. eapply Forall2_impl; [|exact F]. intros q l [_ A]. exact (A note U).
Qed.
(** Fewer than four rows have no step *)
Theorem C95_few : forall g rows ts date time up u, head_ok g -> start_ok g date time -> table_ok g rows ts -> (List.length rows < 4)%nat -> param_line (g_next g) up u -> is_user up -> protochips_reader float strptime false (whole g) = Err IOError.
Proof.
  intros g rows ts date time up u H S T R4 U UP. pose proof H as (_ & N3 & _). destruct (opened g rows ts date time H S T (or_introl (ex_intro _ up (ex_intro _ u (conj U UP))))) as (f & tc & nc & O & CN & HH & CS & TC & TF & NC & CT & CO & CD & UU & UN). unfold protochips_reader. rewrite O. cbn [bind]. rewrite CN. fold (quantities g).
  destruct (quantities g) as [|q qs] eqn:Q; [unfold quantities in Q; pose proof (skipn_length 2 (g_names g)) as K; rewrite Q in K; cbn [List.length] in K; lia|]. cbn [mapM]. destruct (CD q (or_introl eq_refl)) as (c & C1 & C2). unfold dictionary. rewrite C1. cbn [bind]. rewrite CT. cbn [bind]. rewrite (floats_read tc ts TF). cbn [bind].
  assert (L : (List.length ts < 4)%nat) by (apply Forall2_length in TF; destruct TC as (i & _ & C); apply Forall2_length in C; lia). assert (E : time_scale f ts = Err ValueError) by (destruct ts as [|a [|b [|d [|e ts]]]]; try reflexivity; cbn [List.length] in L; lia). rewrite E. reflexivity.
Qed.
Theorem C95_lazy : forall file, protochips_reader float strptime true file = Err NotImplementedError.
Proof. reflexivity. Qed.
(** Files without the names of times and notes, and without a quantity *)
Theorem C95_refused : forall first names rest, listed first names -> ~ In (str "Time") names \/ ~ In (str "Notes") names \/ (List.length names < 3)%nat -> protochips_reader float strptime false (first :: rest) = Err IOError.
Proof.
  intros first names rest L H. unfold protochips_reader, open_protochips. assert (CNM : column_names first = names) by (apply listed_split; exact L). rewrite CNM. cbv zeta.
  assert (NM : forall s, ~ In (str s) names -> mem_name s names = false). { intros s N. unfold mem_name. destruct (existsb _ names) eqn:E; [|reflexivity]. apply existsb_exists in E. destruct E as [x [X E]]. apply eqb_str_spec in E. subst x. contradiction. }
  assert (B : mem_name "Time" names && mem_name "Notes" names && (3 <=? zlen names) = false). { destruct H as [H|[H|H]]; [rewrite (NM _ H); reflexivity|rewrite (NM _ H), andb_false_r; reflexivity|]. replace (3 <=? zlen names) with false by (unfold zlen; lia). apply andb_false_r. }
  rewrite B. reflexivity.
Qed.
End File.
