(** Property C80: line scans of EDAX files, their .csv files, and names of files. *)
From Coq Require Import QArith.
From Verif Require Import Base Text Bytes SfsModel SfsProps BcfUnpack HierModel RowMajor SurFloat SurQuantity EdaxModel EdaxHeader EdaxMap.
Local Open Scope Z_scope.

(** * Specification *)
Definition no_char (c : Z) (s : pystr) : Prop := ~ In c s.
(** A name of a file, without directory: not only dots, and an extension *)
Definition plain (root ext : pystr) : Prop := no_char 47 root /\ no_char 47 ext /\ no_char 46 ext /\ exists c, In c root /\ c <> 46.
(** A directory that is not the root *)
Definition directory (d : pystr) : Prop := exists a c, d = a ++ [c] /\ c <> 47.
(** A table of positions: names of columns, and rows as long *)
Definition table (names : list pystr) (rows : list (list pystr)) : list pystr := join_char 44 names :: map (join_char 44) rows.
Definition cell (s : pystr) : Prop := no_char 44 s /\ no_char 32 (firstn 1 s).
Definition row_ok (names row : list pystr) : Prop := List.length row = List.length names /\ Forall cell row /\ join_char 44 row <> [].

(** * Names of files *)
Lemma rfind_none : forall c s, no_char c s -> rfind c s = None.
Proof.
  intros c s. induction s as [|x s IH]; intro H; [reflexivity|]. cbn [rfind]. rewrite IH by (intro K; apply H; right; exact K). destruct (x =? c) eqn:E; [|reflexivity]. exfalso. apply H. left. lia.
Qed.
Lemma rfind_app : forall c a b, no_char c b -> rfind c (a ++ c :: b) = Some (List.length a).
Proof.
  intros c a b H. induction a as [|x a IH]; cbn [app rfind List.length].
  - rewrite rfind_none by exact H. rewrite Z.eqb_refl. reflexivity.
  - rewrite IH. reflexivity.
Qed.
Lemma skipn_app_at : forall A (a b : list A), skipn (List.length a) (a ++ b) = b.
Proof. intros. apply skipn_app_exact. reflexivity. Qed.
Lemma firstn_app_at : forall A (a b : list A), firstn (List.length a) (a ++ b) = a.
Proof. intros. apply firstn_app_exact. reflexivity. Qed.
Lemma no_char_app : forall c a b, no_char c a -> no_char c b -> no_char c (a ++ b).
Proof. intros c a b A B H. apply in_app_or in H. destruct H as [H|H]; [exact (A H)|exact (B H)]. Qed.
Lemma not_dots : forall root, (exists c, In c root /\ c <> 46) -> forallb (fun c => c =? 46) root = false.
Proof. intros root [c [I N]]. apply not_true_iff_false. intro H. rewrite forallb_forall in H. specialize (H c I). lia. Qed.
Lemma plain_name : forall root ext, plain root ext -> no_char 47 (root ++ 46 :: ext).
Proof. intros root ext (A & B & _). apply no_char_app; [exact A|]. intros [H|H]; [discriminate H|exact (B H)]. Qed.
(** os.path.splitext with and without directory *)
Lemma splitext_plain : forall root ext, plain root ext -> splitext (root ++ 46 :: ext) = (root, 46 :: ext).
Proof.
  intros root ext H. pose proof H as (A & B & C & D). unfold splitext. rewrite (rfind_none 47) by (apply plain_name; exact H). cbn [skipn]. rewrite rfind_app by exact C. rewrite firstn_app_at, (not_dots root D). cbn [Nat.add]. rewrite firstn_app_at, skipn_app_at. reflexivity.
Qed.
Lemma splitext_dir : forall d root ext, plain root ext -> splitext (d ++ 47 :: root ++ 46 :: ext) = (d ++ 47 :: root, 46 :: ext).
Proof.
  intros d root ext H. pose proof H as (A & B & C & D). unfold splitext. rewrite (rfind_app 47) by (apply plain_name; exact H). replace (d ++ 47 :: root ++ 46 :: ext) with ((d ++ [47]) ++ root ++ 46 :: ext) by (rewrite <- app_assoc; reflexivity).
  replace (S (List.length d)) with (List.length (d ++ [47])) by (rewrite app_length; cbn; lia). rewrite skipn_app_at. rewrite rfind_app by exact C. rewrite firstn_app_at, (not_dots root D).
  replace (List.length (d ++ [47%Z]) + List.length root)%nat with (List.length ((d ++ [47]) ++ root)) by (rewrite app_length; reflexivity). rewrite (app_assoc (d ++ [47])). rewrite firstn_app_at, skipn_app_at. rewrite <- app_assoc. reflexivity.
Qed.
Lemma basename_plain : forall s, no_char 47 s -> basename s = s.
Proof. intros s H. unfold basename. rewrite rfind_none by exact H. reflexivity. Qed.
Lemma dirname_plain : forall s, no_char 47 s -> dirname s = [].
Proof. intros s H. unfold dirname. rewrite rfind_none by exact H. reflexivity. Qed.
Lemma basename_dir : forall d s, no_char 47 s -> basename (d ++ 47 :: s) = s.
Proof. intros d s H. unfold basename. rewrite rfind_app by exact H. replace (d ++ 47 :: s) with ((d ++ [47]) ++ s) by (rewrite <- app_assoc; reflexivity). replace (S (List.length d)) with (List.length (d ++ [47])) by (rewrite app_length; cbn; lia). apply skipn_app_at. Qed.
Lemma dirname_dir : forall d s, directory d -> no_char 47 s -> dirname (d ++ 47 :: s) = d.
Proof.
  intros d s (a & c & Ed & Hc) H. unfold dirname. rewrite rfind_app by exact H. replace (d ++ 47 :: s) with ((d ++ [47]) ++ s) by (rewrite <- app_assoc; reflexivity). replace (S (List.length d)) with (List.length (d ++ [47])) by (rewrite app_length; cbn; lia). rewrite firstn_app_at. rewrite Ed.
  rewrite !rev_app_distr. cbn [rev app]. change (drop_slashes (47 :: c :: rev a)) with (drop_slashes (c :: rev a)). assert (E : drop_slashes (c :: rev a) = c :: rev a). { cbn [drop_slashes]. destruct c as [|p|p]; try reflexivity. repeat (destruct p as [p|p|]; try reflexivity). exfalso. apply Hc. reflexivity. }
  cbv zeta. rewrite E. rewrite <- (rev_involutive (a ++ [c])). rewrite rev_app_distr. reflexivity.
Qed.
Lemma join_dir : forall d s, directory d -> no_char 47 (firstn 1 s) -> path_join d s = d ++ 47 :: s.
Proof.
  intros d s (a & c & -> & Hc) H. unfold path_join. replace (startswith [47] s) with false; [|destruct s as [|x s]; [reflexivity|cbn -[Z.eqb]; destruct (47 =? x) eqn:E; [exfalso; apply H; left; lia|reflexivity]]].
  rewrite rev_app_distr. cbn [rev app]. replace (c =? 47) with false by lia. reflexivity.
Qed.
Lemma first_no : forall c s t, no_char c s -> s <> [] -> no_char c (firstn 1 (s ++ t)).
Proof. intros c [|x s] t H N; [contradiction|]. cbn. intros [E|[]]. apply H. left. exact E. Qed.
Lemma plain_nonempty : forall root ext, plain root ext -> root <> [].
Proof. intros root ext (_ & _ & _ & c & I & _) ->. destruct I. Qed.
(** The .spc file is next to the map, with the same name *)
Theorem C80_spc_name : forall d root ext, plain root ext -> directory d ->
  spc_name (root ++ 46 :: ext) = root ++ str ".spc" /\ spc_name (d ++ 47 :: root ++ 46 :: ext) = d ++ 47 :: root ++ str ".spc".
Proof.
  intros d root ext H HD. pose proof (plain_name root ext H) as N. unfold spc_name. rewrite basename_plain, dirname_plain by exact N. rewrite basename_dir, dirname_dir by assumption. rewrite splitext_plain by exact H. cbn [fst].
  rewrite (join_dir d _ HD) by (apply first_no; [exact (proj1 H)|exact (plain_nonempty _ _ H)]). split; [|reflexivity]. unfold path_join. destruct (startswith [47] (root ++ str ".spc")); reflexivity.
Qed.
(** The .csv file of a line scan without directory, or with an absolute one *)
Theorem C80_csv_name : forall d root ext, plain root ext -> directory d ->
  csv_name (root ++ 46 :: ext) = root ++ str ".csv" /\ csv_name (47 :: d ++ 47 :: root ++ 46 :: ext) = 47 :: d ++ 47 :: root ++ str ".csv".
Proof.
  intros d root ext H HD. pose proof (plain_name root ext H) as N. unfold csv_name. rewrite dirname_plain by exact N. rewrite splitext_plain by exact H. change (47 :: d ++ 47 :: root ++ 46 :: ext) with ((47 :: d) ++ 47 :: root ++ 46 :: ext).
  rewrite splitext_dir by exact H. cbn [fst]. split; [unfold path_join; destruct (startswith [47] (root ++ str ".csv")); reflexivity|]. unfold path_join. cbn [app startswith]. rewrite Z.eqb_refl. cbn. rewrite <- app_assoc. reflexivity.
Qed.
(** With a relative directory, the directory comes twice *)
Theorem C80_csv_relative : forall d root ext, plain root ext -> directory d -> no_char 47 (firstn 1 d) ->
  csv_name (d ++ 47 :: root ++ 46 :: ext) = d ++ 47 :: d ++ 47 :: root ++ str ".csv".
Proof.
  intros d root ext H HD HF. pose proof (plain_name root ext H) as N. unfold csv_name. rewrite dirname_dir by assumption. rewrite splitext_dir by exact H. cbn [fst]. rewrite (join_dir d); [rewrite <- app_assoc; reflexivity|exact HD|].
  destruct HD as (a & c & -> & _). destruct a as [|x a]; exact HF.
Qed.
Theorem C80_csv_name_refuted : csv_name (str "data/scan.lsd") = str "data/data/scan.csv" /\ spc_name (str "data/scan.lsd") = str "data/scan.spc" /\ plain (str "scan") (str "lsd") /\ directory (str "data").
Proof.
  split; [vm_compute; reflexivity|]. split; [vm_compute; reflexivity|]. split.
  - unfold plain, no_char. cbn. repeat split; try (intro K; repeat (destruct K as [K|K]; [discriminate K|]); exact K). exists 115. split; [left; reflexivity|discriminate].
  - exists (str "dat"), 97. split; [reflexivity|discriminate].
Qed.

(** * Positions in a .csv file *)
Lemma skip_spaces_ok : forall s, no_char 32 (firstn 1 s) -> skip_spaces s = s.
Proof. intros [|c s] H; [reflexivity|]. cbn [skip_spaces]. destruct c as [|p|p]; try reflexivity. repeat (destruct p as [p|p|]; try reflexivity). exfalso. apply H. left. reflexivity. Qed.
Lemma csv_row_ok : forall row, row <> [] -> Forall cell row -> join_char 44 row <> [] -> csv_row (join_char 44 row) = row.
Proof.
  intros row N H J. unfold csv_row. destruct (join_char 44 row) as [|c s] eqn:E; [contradiction|]. rewrite <- E. rewrite split_join; [|exact N|eapply Forall_impl; [|exact H]; intros a [A _]; exact A].
  rewrite <- (map_id row) at 2. apply map_ext_in. intros a Ha. apply skip_spaces_ok. exact (proj2 (proj1 (Forall_forall _ _) H a Ha)).
Qed.
Lemma dict_row_keep : forall names row d k, ~ In k names -> lookup k (dict_row names row d) = lookup k d.
Proof.
  induction names as [|n names IH]; intros row d k H; [destruct row; reflexivity|]. assert (N : eqb_str k n = false) by (destruct (eqb_str k n) eqn:E; [exfalso; apply H; left; apply eqb_str_spec in E; congruence|reflexivity]).
  destruct row as [|x row]; cbn [dict_row]; rewrite IH by (intro K; apply H; right; exact K); rewrite lookup_put, N; reflexivity.
Qed.
Lemma dict_row_at : forall names row d k j, NoDup names -> List.length row = List.length names -> nth_error names j = Some k -> lookup k (dict_row names row d) = option_map Some (nth_error row j).
Proof.
  induction names as [|n names IH]; intros row d k j ND L E; [destruct j; discriminate E|]. destruct row as [|x row]; [discriminate L|]. inversion ND as [|? ? NI ND']; subst. cbn [dict_row]. destruct j as [|j]; cbn [nth_error] in *.
  - injection E as ->. rewrite dict_row_keep by exact NI. rewrite lookup_put, eqb_str_refl. reflexivity.
  - apply IH; [exact ND'|cbn in L; lia|exact E].
Qed.
Definition distance : pystr := str "Distance (nm)".
Lemma position_at : forall float names row j, NoDup names -> List.length row = List.length names -> nth_error names j = Some distance -> csv_position float names row = float (nth j row []).
Proof.
  intros float names row j ND L E. unfold csv_position. change (str "Distance (nm)") with distance. rewrite (dict_row_at names row [] distance j ND L E). assert (HJ' : (j < List.length row)%nat) by (rewrite L; apply nth_error_Some; congruence).
  rewrite (nth_error_nth' row []) by exact HJ'. reflexivity.
Qed.
Lemma positions_read : forall float names rows j, NoDup names -> nth_error names j = Some distance -> Forall cell names -> Forall (row_ok names) rows ->
  csv_positions float (table names rows) = mapM (fun row => float (nth j row [])) rows.
Proof.
  intros float names rows j ND E HN HR. unfold csv_positions, table. assert (NN : names <> []) by (intros ->; destruct j; discriminate E).
  assert (NJ : join_char 44 names <> []). { intro K. assert (I : In distance names) by (eapply nth_error_In; exact E). pose proof (split_join 44 names NN ltac:(eapply Forall_impl; [|exact HN]; intros a [A _]; exact A)) as S. rewrite K in S. cbn in S. rewrite <- S in I. destruct I as [I|[]]. discriminate I. }
  rewrite (csv_row_ok names NN HN NJ). clear NJ. induction HR as [|row rows (L & HC & HJ) HR IH]; [reflexivity|]. cbn [map filter]. assert (NR : row <> []) by (intros ->; destruct names; [contradiction|discriminate L]).
  rewrite (csv_row_ok row NR HC HJ). replace (match row with [] => false | _ :: _ => true end) with true by (destruct row; [contradiction|reflexivity]). cbn [mapM]. rewrite (position_at float names row j ND L E). rewrite IH. reflexivity.
Qed.
Lemma header_lines : forall n d lines rest, List.length lines = n -> exists d', csv_header n d (lines ++ rest) = Ok (d', rest).
Proof. induction n as [|n IH]; intros d lines rest H; [destruct lines; [exists d; reflexivity|discriminate H]|]. destruct lines as [|l lines]; [discriminate H|]. cbn [app csv_header]. apply IH. cbn in H. lia. Qed.
(** Fourteen lines, then a table: offset and scale come from the first two positions *)
Theorem C80_csv : forall float head names rows j qs q0 q1 rest, List.length head = 14%nat -> NoDup names -> nth_error names j = Some distance -> Forall cell names -> Forall (row_ok names) rows ->
  Forall2 (fun row q => float (nth j row []) = Ok q) rows qs -> qs = q0 :: q1 :: rest -> exists d, read_csv float (head ++ table names rows) = Ok (q0, q1 - q0, d)%Q.
Proof.
  intros float head names rows j qs q0 q1 rest HL ND E HN HR HF EQ. unfold read_csv. destruct (header_lines 14 [] head (table names rows) HL) as [d Ed]. rewrite Ed. cbn [bind]. rewrite (positions_read float names rows j ND E HN HR).
  assert (EM : mapM (fun row => float (nth j row [])) rows = Ok qs) by (clear - HF; induction HF as [|row q rows qs Hq HF IH]; [reflexivity|]; cbn [mapM]; rewrite Hq; cbn [bind]; rewrite IH; reflexivity).
  rewrite EM. cbn [bind]. subst qs. exists d. reflexivity.
Qed.
(** Fewer than two positions *)
Theorem C80_csv_short : forall float head names rows j qs, List.length head = 14%nat -> NoDup names -> nth_error names j = Some distance -> Forall cell names -> Forall (row_ok names) rows ->
  Forall2 (fun row q => float (nth j row []) = Ok q) rows qs -> (List.length qs < 2)%nat -> read_csv float (head ++ table names rows) = Err IndexError.
Proof.
  intros float head names rows j qs HL ND E HN HR HF EQ. unfold read_csv. destruct (header_lines 14 [] head (table names rows) HL) as [d Ed]. rewrite Ed. cbn [bind]. rewrite (positions_read float names rows j ND E HN HR).
  assert (EM : mapM (fun row => float (nth j row [])) rows = Ok qs) by (clear - HF; induction HF as [|row q rows qs Hq HF IH]; [reflexivity|]; cbn [mapM]; rewrite Hq; cbn [bind]; rewrite IH; reflexivity).
  rewrite EM. cbn [bind]. destruct qs as [|? [|]]; try reflexivity. cbn in EQ. lia.
Qed.
(** Labels and values of the fourteen lines *)
Theorem C80_csv_label : forall d label value, no_char 44 label -> strip (label ++ 44 :: value) = label ++ 44 :: value -> csv_header_line d (label ++ 44 :: value) = put (strip label) (strip value) d.
Proof.
  intros d label value H HS. unfold csv_header_line. rewrite HS. rewrite split_char_app by exact H. pose proof (join_split 44 value) as J. pose proof (split_char_ne 44 value) as N. destruct (split_char 44 value) as [|v vs] eqn:E; [contradiction|]. cbn [rev].
  destruct (rev vs ++ [v]) as [|y r] eqn:ER; [destruct (rev vs); discriminate ER|]. cbn [app]. destruct (r ++ [label]) as [|z r'] eqn:EZ; [destruct r; discriminate EZ|]. rewrite J. reflexivity.
Qed.

(** * Line scans *)
Definition scan_axis (n : Z) (cal : option (Q * Q)) : axis :=
  {| a_name := "x"%string; a_size := n; a_index := 0; a_scale := match cal with Some (_, s) => Number s | None => Number 1 end; a_offset := match cal with Some (o, _) => Number o | None => Number 0 end;
     a_units := match cal with Some _ => Some "nm"%string | None => None end; a_navigate := true |}.
Theorem C80_scan : forall float fs lazy big all spc ipr csv filename f cal, let h := header_of big f in
  let spc_path := match spc with Some s => s | None => spc_name filename end in let csv_path := match csv with Some s => s | None => csv_name filename end in
  lower (tl (snd (splitext filename))) = str "lsd" -> complete h f -> ny h = 1 -> 1 < nx h -> 1 < nz h -> 0 <= spectra h -> lazy = true \/ big = false \/ bytes_per h = 1 ->
  spc_ok big all (bytes_file fs spc_path) ->
  match text_file fs csv_path with Some lines => exists o s d, read_csv float lines = Ok (o, s, d) /\ cal = Some (o, s) | None => cal = None end ->
  let n := Z.min (spectra h) (nx h) in
  exists m, meta_of big (bytes_file fs spc_path) m /\
    si_reader float fs lazy big all spc ipr csv filename f = Ok {| s_shape := [n; nz h]; s_data := words_from big (Z.to_nat (bytes_per h)) f (start h) (n * nz h);
      s_axes := [scan_axis n cal; map_energy big (nz h) (bytes_file fs spc_path)]; s_title := "EDS Line Scan"%string; s_meta := m |}.
Proof.
  intros float fs lazy big all spc ipr csv filename f cal h spc_path csv_path HE HC Hy1 Hx1 Hz1 Hn HB HS HT n. pose proof HC as (H1 & HW & Hx & _). unfold si_reader. rewrite HE, eqb_str_refl. cbv zeta.
  rewrite (number_get _ _ _ _ (spd_start big f H1)), (number_get _ _ _ _ (spd_nx big f H1)), (number_get _ _ _ _ (spd_ny big f H1)), (number_get _ _ _ _ (spd_nz big f H1)), (number_get _ _ _ _ (spd_spectra big f H1)), (number_get _ _ _ _ (spd_bytes big f H1)). cbn [bind]. fold h.
  rewrite (count_ok _ HW). cbn [bind]. replace (nx h <? 0) with false by lia. rewrite (data_read lazy big f h HC HB). cbn [bind]. rewrite (spd_name big f H1). cbn [bind]. fold spc_path.
  assert (ES : exists m, meta_of big (bytes_file fs spc_path) m /\
    match bytes_file fs spc_path with Some b => let! sh := spc_header big all b in let! m := spc_metadata sh in Ok (Some (sh, m)) | None => Ok None end =
    Ok (match bytes_file fs spc_path, m with Some b, Some m => Some (read_fields big (spc_layout all (hundredths (word big 4 b 0))) b, m) | _, _ => None end)).
  { destruct (bytes_file fs spc_path) as [b|]; [|exists None; split; [exact I|reflexivity]]. destruct HS as (S0 & S1 & S2). destruct (meta_read big all b S0 S1 S2) as [m [Em Hm]]. exists (Some m). split; [exact Hm|]. rewrite (header_ok big all b S0 S1). cbn [bind]. rewrite Em. reflexivity. }
  destruct ES as [m [Hm ES]]. exists m. split; [exact Hm|]. rewrite ES. cbn [bind].
  assert (EE : energy_axis (nz h) (-1) (option_map fst (match bytes_file fs spc_path, m with Some b, Some m => Some (read_fields big (spc_layout all (hundredths (word big 4 b 0))) b, m) | _, _ => None end)) = Ok (map_energy big (nz h) (bytes_file fs spc_path))).
  { destruct (bytes_file fs spc_path) as [b|]; [|reflexivity]. destruct m as [m|]; [|destruct Hm]. destruct HS as (S0 & S1 & S2). cbn [option_map fst energy_axis]. rewrite (number_get _ _ _ _ (get_ev big all b S0 S1)). cbn [bind]. rewrite (number_get _ _ _ _ (get_energy big all b S0 S1)). reflexivity. }
  rewrite EE. cbn [bind].
  assert (EM : option_map snd (match bytes_file fs spc_path, m with Some b, Some m => Some (read_fields big (spc_layout all (hundredths (word big 4 b 0))) b, m) | _, _ => None end) = m).
  { destruct (bytes_file fs spc_path), m; try reflexivity; destruct Hm. }
  rewrite EM. unfold first_spectra. cbn [filter]. rewrite Hy1. cbn [Z.eqb Pos.eqb negb]. replace (nx h =? 1) with false by lia. replace (nz h =? 1) with false by lia. cbn [negb]. replace (spectra h <? 0) with false by lia. fold n. cbn [bind].
  assert (EF : firstz (n * prodZ [nz h]) (words_from big (Z.to_nat (bytes_per h)) f (start h) (points h)) = words_from big (Z.to_nat (bytes_per h)) f (start h) (n * nz h)).
  { unfold prodZ. cbn [fold_right]. rewrite Z.mul_1_r, firstz_firstn. unfold words_from. rewrite firstn_map. f_equal. assert (LE : n * nz h <= points h) by (unfold points, n; nia). assert (LN : 0 <= n * nz h) by (unfold n; nia).
    replace (Z.to_nat (points h)) with (Z.to_nat (n * nz h) + Z.to_nat (points h - n * nz h))%nat by lia. rewrite zseq_app. apply firstn_app_exact. apply zseq_length. }
  rewrite EF. fold csv_path. destruct (text_file fs csv_path) as [lines|]; [destruct HT as (o & s & d & ER & ->); rewrite ER|subst cal]; reflexivity.
Qed.
(** One point, or one channel: an error.  Several lines: a signal with more dimensions than axes *)
Theorem C80_one_refuted : forall n sh data, sh = [1; 1; 5] \/ sh = [1; 5; 1] -> first_spectra n sh data = Err IndexError.
Proof. intros n sh data [-> | ->]; reflexivity. Qed.
Theorem C80_lines_refuted : exists s, si_reader (fun _ => Err ValueError) no_files false false false None None None (str "a.lsd") (demo_map false) = Ok s /\ List.length (s_shape s) = 3%nat /\ List.length (s_axes s) = 2%nat.
Proof. eexists. split; [vm_compute; reflexivity|]. split; reflexivity. Qed.
(** An example: three points, two of them with spectra *)
Definition demo_scan : list Z :=
  repeat 0 20 ++ le 4 2 ++ le 4 3 ++ le 4 1 ++ le 4 2 ++ le 4 4 ++ le 4 1068 ++ repeat 0 1024 ++ flat_map (le 4) (zseq 70000 6).
Definition demo_float (s : pystr) : res Q := let! z := parse_int s in Ok (inject_Z z).
Definition demo_csv : list pystr := repeat (str "Label, Value") 14 ++ table [str "Point"; distance] [[str "1"; str "10"]; [str "2"; str "35"]; [str "3"; str "60"]].
Definition scan_files : files := {| bytes_file := fun _ => None; text_file := fun s => if eqb_str s (str "a.csv") then Some demo_csv else None |}.
Example C80_example : complete (header_of false demo_scan) demo_scan /\
  exists s, si_reader demo_float scan_files true false false None None None (str "a.lsd") demo_scan = Ok s /\ s_shape s = [2; 2] /\ s_data s = zseq 70000 4 /\
    map a_scale (s_axes s) = [Number (25 # 1); Number 1] /\ map a_offset (s_axes s) = [Number (10 # 1); Number 1] /\ map a_units (s_axes s) = [Some "nm"%string; None].
Proof. split; [repeat split; try (vm_compute; discriminate); right; right; reflexivity|]. eexists. split; [vm_compute; reflexivity|]. repeat split. Qed.
Print Assumptions C80_spc_name.
Print Assumptions C80_csv_name.
Print Assumptions C80_csv_relative.
Print Assumptions C80_csv_name_refuted.
Print Assumptions C80_csv.
Print Assumptions C80_csv_short.
Print Assumptions C80_csv_label.
Print Assumptions C80_scan.
Print Assumptions C80_one_refuted.
Print Assumptions C80_lines_refuted.
