(** Properties C92 and C93: whole Jobin Yvon files, and examples. *)
From Coq Require Import QArith.
From Verif Require Import Base Text HierModel HierProps HierProof Dict SfsModel RowMajor XmlModel JyModel JyData JyMeta.
Local Open Scope Z_scope.

Definition axis_size (a : axis) : Z := match a_scale a with Uniform _ _ n => n | Values l => Z.of_nat (List.length l) | NoScale => 0 end.
(** Data of a file: one row for every position, of as many values as the signal axis *)
Definition is_matrix (numbers : pystr -> list Q) (f : found) (m : xml) (rows : list (list Q)) : Prop :=
  exists es, rows_of m es /\ es <> [] /\ Forall2 (is_row numbers) es rows /\ Forall (fun l => size l = size (l_values (f_signal f))) rows /\ Z.of_nat (List.length rows) = prodZ (nav_sizes f) /\
  match es with e :: _ :: _ => exists s, lookup (str "Size") (x_attrs e) = Some s /\ parse_int s = Ok (size (l_values (f_signal f))) | _ => True end.
Lemma nav_long : forall a b, long a = Some b -> 2 <= size (l_values b).
Proof. intros [a|] b H; cbn [long] in H; [|discriminate H]. destruct (2 <=? size (l_values a)) eqn:E; [|discriminate H]. injection H as <-. lia. Qed.
Lemma axes_sizes : forall fit uniform f, map axis_size (axes_of fit uniform f) = nav_sizes f ++ [size (l_values (f_signal f))].
Proof.
  intros fit uniform f. unfold axes_of, nav_sizes.
  assert (S : forall i, axis_size (signal_axis fit uniform (f_reversed f) (f_signal f) (f_name f) (f_shown f) i) = size (l_values (f_signal f))).
  { intro i. unfold axis_size, signal_axis, signal_scale, size. cbn [a_scale]. destruct uniform, (f_reversed f); rewrite ?rev_length; reflexivity. }
  destruct (long (f_y f)), (long (f_x f)); cbn [map app]; rewrite S; reflexivity.
Qed.
Lemma matrix_read : forall numbers f m rows t, is_matrix numbers f m rows -> t_reverse t = Some (f_reversed f) -> nav_shape t = nav_sizes f -> get_data numbers t m = Ok (nav_sizes f ++ [size (l_values (f_signal f))], List.concat (map (turned (f_reversed f)) rows)).
Proof.
  intros numbers f m rows t (es & R & NE & F & L & P & S) T NS. destruct es as [|e [|e' es]]; [contradiction| |].
  - inversion F as [|? l ? ls I F']; subst. inversion F'; subst. rewrite (C92_spectrum numbers t m e l (f_reversed f) R I T). inversion L as [|? ? L1 _]; subst. cbn [map List.concat]. rewrite app_nil_r, L1. cbn [List.length] in P.
    assert (N0 : nav_sizes f = []).
    { unfold nav_sizes in *. destruct (long (f_y f)) as [y|] eqn:Y; destruct (long (f_x f)) as [x|] eqn:X; [| | |reflexivity]; exfalso; try apply nav_long in Y; try apply nav_long in X; unfold prodZ in P; cbn [app fold_right] in P; nia. }
    rewrite N0. reflexivity.
  - destruct S as (s & S & N). rewrite (C92_data numbers t m e (e' :: es) rows (size (l_values (f_signal f))) (f_reversed f) s R) by (try assumption; try discriminate; rewrite NS; intros _; symmetry; exact P). rewrite NS. f_equal. f_equal. unfold shaped. destruct (nav_sizes f) as [|a l] eqn:NF; [|reflexivity]. exfalso. inversion F as [|? ? ? ? _ F2]; subst. inversion F2 as [|? ? ? ? _ F3]; subst. unfold prodZ in P. cbn [List.length fold_right] in P. lia.
Qed.
Lemma described_ext : forall name title file a b date q od slit m, (forall k, lookup k a = lookup k b) -> described name title file a date q od slit m -> described name title file b date q od slit m.
Proof. intros name title file a b date q od slit m E H. unfold described in *. rewrite <- !E. destruct H as (H1 & H2). split; [|exact H2]. intros path k I. rewrite <- E. exact (H1 path k I). Qed.
Theorem C92_file : forall float numbers fit uniform name root tree matrix e o f rows title date q od slit,
  first_child root "LSX_Tree" tree -> first_child root "LSX_Matrix" matrix -> Forall has_id (x_children tree) -> Forall has_id (inside "0x6C676EC6" (x_children tree)) -> Forall has_id (inside "0x7A74D9D6" (x_children tree)) ->
  get_original float (places_of tree) = Ok o -> p_axes (places_of tree) = Some e -> is_scan numbers e (o_setup o) f -> is_matrix numbers f matrix rows ->
  p_title (places_of tree) = Some title -> acquired (o_date o) date -> amount (f_setup f) q -> lookup (str "ND Filter (%)") (f_setup f) = Some (Num od) -> lookup (str "Hole") (f_setup f) = Some (Num slit) ->
  exists s, file_reader float numbers fit uniform name root = Ok s /\ s_axes s = axes_of fit uniform f /\ s_shape s = map axis_size (s_axes s) /\ s_data s = List.concat (map (turned (f_reversed f)) rows) /\
  o_date (s_original s) = o_date o /\ o_file (s_original s) = o_file o /\ (forall k, lookup k (o_setup (s_original s)) = lookup k (f_setup f)) /\ described name title (o_file o) (f_setup f) date q od slit (s_metadata s).
Proof.
  intros float numbers fit uniform name root tree matrix e o f rows title date q od slit T M H A X O PA SC MA TI AC AM ND HO. unfold file_reader. rewrite (C92_places root tree matrix) by assumption. cbn [bind]. rewrite O. cbn [bind].
  destruct (C92_axes numbers fit uniform (places_of tree) e (o_setup o) f PA SC) as (t & G & (R & NS) & L). rewrite G. cbn [bind]. rewrite (matrix_read numbers f matrix rows t MA R NS). cbn [bind].
  destruct (C93_metadata name (places_of tree) {| o_date := o_date o; o_setup := t_setup t; o_file := o_file o |} title date q od slit) as (m & MM & D); [exact TI|exact AC| |cbn [o_setup]; rewrite L; exact ND|cbn [o_setup]; rewrite L; exact HO|].
  { unfold amount. cbn [o_setup]. rewrite !L. exact AM. }
  rewrite MM. cbn [bind]. eexists. split; [reflexivity|]. cbn [s_axes s_shape s_data s_original s_metadata o_date o_file o_setup fst snd]. rewrite axes_sizes. repeat (split; [reflexivity|]). split; [exact L|]. exact (described_ext _ _ _ _ _ _ _ _ _ _ L D).
Qed.

(** * Examples *)
Definition ex_int (s : pystr) : option Q := match parse_int s with Ok z => Some (inject_Z z) | Err _ => None end.
Definition ex_numbers (s : pystr) : list Q := map (fun w => match ex_int w with Some q => q | None => 0%Q end) (split_char 32 s).
Definition ex_fit (l : list Q) : Q * Q := (first l, (second l - first l)%Q).
Definition el (id : string) (text : string) (l : list xml) : xml := Elem (str "LSX") [(str "ID", str id)] (str text) [] l.
Definition ex_entry (k : string) (v1 : string) (v2 : string) : xml := el "0xF" "" ([el KEY k []; el FIRST v1 []] ++ (if String.eqb v2 "" then [] else [el SECOND v2 []])).
Definition ex_line (name units values : string) : list xml := [el NAME name []; el UNITS units []; el VALUES values []].
Definition ex_meta : xml := el "0x6C62D4D9" ""
  [el DATE "" [ex_entry "Acquired" "27.06.2022 16:26:24" ""; ex_entry "Dated" "27.06.2022" ""];
   el SETUP "" [ex_entry "Acq. time (s)" "2" ""; ex_entry "Accumulations" "3" ""; ex_entry "Grating" "x" "150"; ex_entry "ND Filter" "y" "50"; ex_entry "Hole" "200" ""; ex_entry "Instrument" "LabRAM" ""];
   el FILE "" [ex_entry "Sample" "silicon" ""]].
Definition ex_scan (y x : string) : xml := el "0x7B697861" "" [el "0x0" "" (ex_line "Intens" "Cnt/sec" "0"); el "0x1" "" (ex_line "Spectr" "1/cm" "600 500"); el "0x2" "" (ex_line "X" "um" x); el "0x3" "" (ex_line "Y" "um" y)].
Definition ex_tree (y x : string) : xml := Elem (str "LSX_Tree") [] [] [] [ex_meta; el "0x6C7469D9" "my map" []; el "0x6D707974" "Spectrum" []; el "0x6C676EC6" "" [el "0x0" "1" []]; el "0x7A74D9D6" "" [ex_scan y x]].
Definition ex_row (s : string) : xml := Elem (str "LSX_Row") [(str "Size", str "2")] (str s) [] [].
Definition ex_matrix (l : list string) : xml := Elem (str "LSX_Matrix") [] [] [] (map ex_row l).
Definition ex_root (y x : string) (l : list string) : xml := Elem (str "LSX_Data") [] [] [] [ex_tree y x; ex_matrix l].
Definition ex_map : xml := ex_root "10 20" "1 2 3" ["1 2"; "3 4"; "5 6"; "7 8"; "9 10"; "11 12"]%string.
Definition ints (l : list Z) : list Q := map inject_Z l.
Definition ex_read (root : xml) := file_reader ex_int ex_numbers ex_fit false (str "a.xml") root.
Example ex_reads : match ex_read ex_map with Ok s => Some (map a_scale (s_axes s), s_shape s, s_data s) | Err _ => None end =
  Some ([Uniform 10 10 2; Uniform 1 1 3; Values (ints [500; 600])], [2; 3; 2], ints [2; 1; 4; 3; 6; 5; 8; 7; 10; 9; 12; 11]).
Proof. vm_compute. reflexivity. Qed.
Example ex_lines : match ex_read (ex_root "10" "1 2" ["1 2"; "3 4"]%string) with Ok s => Some (map a_scale (s_axes s), s_shape s, s_data s) | Err _ => None end = Some ([Uniform 1 1 2; Values (ints [500; 600])], [2; 2], ints [2; 1; 4; 3]).
Proof. vm_compute. reflexivity. Qed.
Example ex_single : match ex_read (ex_root "10" "1" ["1 2"]%string) with Ok s => Some (map a_scale (s_axes s), s_shape s, s_data s) | Err _ => None end = Some ([Values (ints [500; 600])], [2], ints [2; 1]).
Proof. vm_compute. reflexivity. Qed.
Definition ex_original : original := match get_original ex_int (places_of (ex_tree "10 20" "1 2 3")) with Ok o => o | Err _ => {| o_date := []; o_setup := []; o_file := [] |} end.
Definition ex_setup : dict := o_setup ex_original ++ [(str "signal type", Text (str "Intens")); (str "signal units", Text (str "Cnt/sec"))].
Definition ex_found : found := {| f_setup := ex_setup; f_signal := {| l_values := ints [600; 500]; l_name := Some (str "Spectr"); l_units := Some (str "1/cm") |}; f_reversed := true; f_name := Some (str "Raman Shift"); f_shown := Some (str "1/cm");
  f_x := Some {| l_values := ints [1; 2; 3]; l_name := Some (str "X"); l_units := Some (str "um") |}; f_y := Some {| l_values := ints [10; 20]; l_name := Some (str "Y"); l_units := Some (str "um") |} |}.
Ltac ids := repeat constructor; eexists; reflexivity.
Lemma ex_line_ok : forall id name units values, id <> VALUES -> values <> ""%string -> is_line ex_numbers (el id "" (ex_line name units values)) {| l_values := ex_numbers (strip (str values)); l_name := Some (str name); l_units := Some (str units) |}.
Proof.
  intros id name units values _ V. split; [ids|]. split; [|split; reflexivity]. exists (el VALUES values []). split; [reflexivity|]. split; [|reflexivity]. cbn. destruct values; [contradiction|discriminate].
Qed.
Lemma ex_is_scan : is_scan ex_numbers (ex_scan "10 20" "1 2 3") (o_setup ex_original) ex_found.
Proof.
  exists (Some (el "0x0" "" (ex_line "Intens" "Cnt/sec" "0"))), (el "0x1" "" (ex_line "Spectr" "1/cm" "600 500")), (Some (el "0x2" "" (ex_line "X" "um" "1 2 3"))), (Some (el "0x3" "" (ex_line "Y" "um" "10 20"))).
  split; [ids|]. split; [reflexivity|]. split; [reflexivity|]. split; [reflexivity|]. split; [reflexivity|]. split; [ids|]. split; [apply (ex_line_ok "0x1" "Spectr" "1/cm" "600 500"); discriminate|].
  split; [repeat constructor; discriminate|]. split; [vm_compute; discriminate|]. split; [split; [intros _; reflexivity|intros _; reflexivity]|].
  split; [exists (str "Raman Shift"), (str "1/cm"); split; [|split; reflexivity]; right; left; split; [right; left; reflexivity|split; [exists (str "1/c"); reflexivity|split; reflexivity]]|].
  split; [apply (ex_line_ok "0x2" "X" "um" "1 2 3"); discriminate|]. split; [apply (ex_line_ok "0x3" "Y" "um" "10 20"); discriminate|].
  intros d T k. cbn [typed] in T. rewrite T. cbn [f_setup ex_found]. unfold ex_setup. rewrite lookup_app. change (text_of UNITS (x_children (el "0x0" "" (ex_line "Intens" "Cnt/sec" "0")))) with (Some (str "Cnt/sec")). change (text_of NAME (x_children (el "0x0" "" (ex_line "Intens" "Cnt/sec" "0")))) with (Some (str "Intens")).
  destruct (eqb_str k (str "signal units")) eqn:E1; [apply eqb_str_spec in E1; subst k; reflexivity|]. destruct (eqb_str k (str "signal type")) eqn:E2; [apply eqb_str_spec in E2; subst k; reflexivity|]. cbn [lookup fst snd]. rewrite E1, E2. destruct (lookup k (o_setup ex_original)); reflexivity.
Qed.
Example ex_file : exists s, ex_read ex_map = Ok s /\ s_axes s = axes_of ex_fit false ex_found /\ s_shape s = [2; 3; 2] /\ s_data s = ints [2; 1; 4; 3; 6; 5; 8; 7; 10; 9; 12; 11] /\
  lookup (str "Signal.quantity") (s_metadata s) = Some (Const (str "Intensity (Counts/s)")) /\ lookup (str "Spectrometer.pinhole") (s_metadata s) = Some (Exact (200 / 100)) /\ lookup (str "Detector.integration_time") (s_metadata s) = Some (Exact (3 * 2)).
Proof.
  destruct (C92_file ex_int ex_numbers ex_fit false (str "a.xml") ex_map (ex_tree "10 20" "1 2 3") (ex_matrix ["1 2"; "3 4"; "5 6"; "7 8"; "9 10"; "11 12"]%string) (ex_scan "10 20" "1 2 3") ex_original ex_found
    (map ints [[1; 2]; [3; 4]; [5; 6]; [7; 8]; [9; 10]; [11; 12]]) (str "my map") (Some (str "27.06.2022", str "16:26:24")) (Some (str "Intensity (Counts/s)")) 50 200) as (s & R & A & SH & D & _ & _ & _ & M).
  - exists [], [ex_matrix ["1 2"; "3 4"; "5 6"; "7 8"; "9 10"; "11 12"]%string]. split; [reflexivity|]. split; [reflexivity|constructor].
  - exists [ex_tree "10 20" "1 2 3"], []. split; [reflexivity|]. split; [reflexivity|]. repeat constructor. discriminate.
  - ids.
  - ids.
  - ids.
  - vm_compute. reflexivity.
  - reflexivity.
  - exact ex_is_scan.
  - exists (map ex_row ["1 2"; "3 4"; "5 6"; "7 8"; "9 10"; "11 12"]%string). split; [exists (fun e => eqb_str (x_tag e) (str "LSX_Row")); split; [intros e _; apply eqb_str_spec|reflexivity]|]. split; [discriminate|]. split; [repeat constructor; discriminate|]. split; [repeat constructor|]. split; [reflexivity|]. exists (str "2"). split; reflexivity.
  - reflexivity.
  - split; [reflexivity|]. split; intro I; cbn in I; intuition discriminate.
  - unfold amount. replace (lookup (str "signal type") (f_setup ex_found)) with (Some (Text (str "Intens"))) by (vm_compute; reflexivity). replace (lookup (str "signal units") (f_setup ex_found)) with (Some (Text (str "Cnt/sec"))) by (vm_compute; reflexivity).
    exists (str "Intensity"), (str "Counts/s"). split; [left; exists "Intens"%string, "Intensity"%string; split; [left; reflexivity|split; reflexivity]|]. split; [left; exists "Cnt/sec"%string, "Counts/s"%string; split; [left; reflexivity|split; reflexivity]|reflexivity].
  - vm_compute. reflexivity.
  - vm_compute. reflexivity.
  - exists s. split; [exact R|]. split; [exact A|]. split; [rewrite SH, A; reflexivity|]. split; [rewrite D; reflexivity|]. destruct M as (_ & (_ & _ & _ & _ & _ & _ & _ & Q & _ & _ & P) & (_ & _ & _ & _ & I) & _). rewrite Q, P, I. repeat split.
Qed.
(** original metadata of this file *)
Example ex_cleaned : get_original ex_int (places_of (ex_tree "10 20" "1 2 3")) = Ok {| o_date := [(str "Acquired", Text (str "27.06.2022 16:26:24")); (str "Dated", Text (str "27.06.2022"))];
  o_setup := renamed [(str "Acq. time (s)", Num 2); (str "Accumulations", Num 3); (str "Grating", Num 150); (str "ND Filter", Num 50); (str "Hole", Num 200); (str "Instrument", Text (str "LabRAM")); (str "measurement_type", Text (str "Spectrum")); (str "title", Text (str "my map")); (str "rotation angle (rad)", Num 1)];
  o_file := [(str "Sample", Text (str "silicon"))] |}.
Proof.
  assert (ED : forall k v, is_entry (ex_entry k v "") (str k) (Some (str v)) None) by (intros; split; [ids|repeat split]). assert (E2 : forall k v c w, is_entry (ex_entry k v (String c w)) (str k) (Some (str v)) (Some (str (String c w)))) by (intros; split; [ids|repeat split]).
  apply C93_original with (m := ex_meta) (date := el DATE "" [ex_entry "Acquired" "27.06.2022 16:26:24" ""; ex_entry "Dated" "27.06.2022" ""])
    (setup := el SETUP "" [ex_entry "Acq. time (s)" "2" ""; ex_entry "Accumulations" "3" ""; ex_entry "Grating" "x" "150"; ex_entry "ND Filter" "y" "50"; ex_entry "Hole" "200" ""; ex_entry "Instrument" "LabRAM" ""]) (file := el FILE "" [ex_entry "Sample" "silicon" ""])
    (ld := [(str "Acquired", (Some (str "27.06.2022 16:26:24"), None)); (str "Dated", (Some (str "27.06.2022"), None))])
    (ls := [(str "Acq. time (s)", (Some (str "2"), None)); (str "Accumulations", (Some (str "3"), None)); (str "Grating", (Some (str "x"), Some (str "150"))); (str "ND Filter", (Some (str "y"), Some (str "50"))); (str "Hole", (Some (str "200"), None)); (str "Instrument", (Some (str "LabRAM"), None))])
    (lf := [(str "Sample", (Some (str "silicon"), None))]).
  - reflexivity.
  - ids.
  - reflexivity.
  - reflexivity.
  - reflexivity.
  - repeat constructor; cbn [fst snd]; try (apply ED); ids.
  - unfold entries_of. cbn [x_children el]. repeat (constructor; [first [apply ED|apply E2]|]). constructor.
  - unfold entries_of. cbn [x_children el]. repeat (constructor; [first [apply ED|apply E2]|]). constructor.
  - apply distinct_nodup. reflexivity.
  - apply distinct_nodup. reflexivity.
  - apply distinct_nodup. vm_compute. reflexivity.
  - repeat (constructor; [split; [reflexivity|left; eexists; eexists; split; reflexivity]|]); constructor.
  - repeat (constructor; [split; [reflexivity|left; eexists; eexists; split; reflexivity]|]); constructor.
  - assert (N : forall k, ~ In (str k) seconds -> forall v, chosen (str k) (Pair (Some v) None) (Some v)) by (intros k N v; right; split; [intros [I _]; contradiction|reflexivity]).
    assert (X : forall k (l : list pystr), mem k l = false -> ~ In k l) by (intros k l H I; apply mem_in in I; rewrite I in H; discriminate H).
    assert (NU : forall k s q, mem (str k) seconds = false -> mem (str k) numeric = true -> s <> [] -> ex_int s = Some q -> ends_as ex_int (str k) (Pair (Some s) None) (Num q)).
    { intros k s q H1 H2 H3 H4. exists (Some s). split; [apply N; apply X; exact H1|]. left. split; [apply mem_in; exact H2|]. exists s, q. auto. }
    assert (SE : forall k v s q, mem (str k) seconds = true -> mem (str k) numeric = true -> s <> [] -> ex_int s = Some q -> ends_as ex_int (str k) (Pair v (Some s)) (Num q)).
    { intros k v s q H1 H2 H3 H4. exists (Some s). split; [left; split; [apply mem_in; exact H1|exists s; split; reflexivity]|]. left. split; [apply mem_in; exact H2|]. exists s, q. auto. }
    assert (TX : forall k s, mem (str k) seconds = false -> mem (str k) numeric = false -> ends_as ex_int (str k) (Pair (Some s) None) (Text s)).
    { intros k s H1 H2. exists (Some s). split; [apply N; apply X; exact H1|]. right. split; [apply X; exact H2|]. left. exists s. auto. }
    assert (TT : forall k s, mem (str k) numeric = false -> ends_as ex_int (str k) (Text s) (Text s)).
    { intros k s H2. exists (Some s). split; [reflexivity|]. right. split; [apply X; exact H2|]. left. exists s. auto. }
    assert (TN : forall k s q, mem (str k) numeric = true -> s <> [] -> ex_int s = Some q -> ends_as ex_int (str k) (Text s) (Num q)).
    { intros k s q H2 H3 H4. exists (Some s). split; [reflexivity|]. left. split; [apply mem_in; exact H2|]. exists s, q. auto. }
    cbn [map pair_of app added opt_text fst snd]; unfold cleaned; repeat (constructor; [split; [reflexivity|]; cbn [fst snd]|]); first [constructor | apply TX; reflexivity | apply NU; (reflexivity || discriminate) | apply SE; (reflexivity || discriminate) | apply TT; reflexivity | apply TN; (reflexivity || discriminate)].
Qed.
Example ex_units : signal_units (str "1/cm abs") = (str "Wavenumber", str "1/cm") /\ signal_units (str "1/cm") = (str "Raman Shift", str "1/cm") /\ signal_units (str "meV") = (str "Energy", str "meV") /\ signal_units (str "nm") = (str "Wavelength", str "nm").
Proof. vm_compute. repeat split. Qed.
Definition ex_twice : xml := el "0x7B697861" "" [el "0x1" "" (ex_line "Spectr" "1/cm" "600 500"); el "0x2" "" (ex_line "X" "um" "1 2"); el "0x2" "" (ex_line "X" "um" "1")].
Example ex_twice_axes : exists a b, x_children ex_twice = a ++ [b] /\ marked "0x2" b = true /\ foldM (axis_step ex_numbers ex_fit false) {| t_setup := []; t_signal := None; t_reverse := None; t_nav1 := None; t_has1 := false; t_size1 := 0; t_nav2 := None; t_has2 := false; t_size2 := 0 |} a <> Err KeyError /\
  (let! t := foldM (axis_step ex_numbers ex_fit false) {| t_setup := []; t_signal := None; t_reverse := None; t_nav1 := None; t_has1 := false; t_size1 := 0; t_nav2 := None; t_has2 := false; t_size2 := 0 |} (a ++ [b]) in sort_axes t) = Err KeyError.
Proof. exists (firstn 2 (x_children ex_twice)), (el "0x2" "" (ex_line "X" "um" "1")). split; [reflexivity|]. split; [reflexivity|]. split; [vm_compute; discriminate|vm_compute; reflexivity]. Qed.
Definition shapes (r : res signal) : res (list Z * list Z * list Q) := let! s := r in Ok (map axis_size (s_axes s), s_shape s, s_data s).
Example ex_misfit : shapes (ex_read (ex_root "10 20" "1 2 3" ["1 2"; "3 4"; "5 6"; "7 8"]%string)) = Err ValueError.
Proof. vm_compute. reflexivity. Qed.
Example ex_ragged : shapes (ex_read (ex_root "10" "1 2" ["1 2"; "3 4 5"]%string)) = Err ValueError.
Proof. vm_compute. reflexivity. Qed.
Example ex_repeat : shapes (ex_read (ex_root "10" "1 2" ["1 2"; "7"]%string)) = Ok ([2; 2], [2; 2], ints [2; 1; 7; 7]).
Proof. vm_compute. reflexivity. Qed.
Example ex_no_axes : shapes (ex_read (ex_root "10" "1" ["1 2"; "3 4"]%string)) = Ok ([2], [2; 2], ints [2; 1; 4; 3]).
Proof. vm_compute. reflexivity. Qed.
Definition ex_state (rv : option bool) : state := {| t_setup := []; t_signal := None; t_reverse := rv; t_nav1 := None; t_has1 := false; t_size1 := 0; t_nav2 := None; t_has2 := false; t_size2 := 0 |}.
Example ex_no_order : get_data ex_numbers (ex_state None) (ex_matrix ["1"]%string) = Err AttributeError.
Proof. vm_compute. reflexivity. Qed.
Definition no_key (v1 v2 : string) : xml := el "0xF" "" [el FIRST v1 []; el SECOND v2 []].
Example ex_keys : metadata_values (el SETUP "" [ex_entry "Hole" "200" ""; no_key "a" "b"]) = Ok [(str "Hole", Pair (Some (str "a")) (Some (str "b")))] /\ metadata_values (el SETUP "" [no_key "a" "b"; ex_entry "Hole" "200" ""]) = Err NameError.
Proof. vm_compute. split; reflexivity. Qed.
Example ex_second : clean_up ex_int [(str "Acquired", Pair None (Some (str "b")))] [(str "Laser (nm)", Pair None (Some (str "532")))] [] = Err KeyError /\
  clean_up ex_int [] [(str "Laser (nm)", Pair None (Some (str "532")))] [] = Ok {| o_date := []; o_setup := [(str "Laser (nm)", Num 532)]; o_file := [] |}.
Proof. vm_compute. split; reflexivity. Qed.
Definition ex_places (t : option pystr) : places := {| p_metadata := None; p_title := t; p_type := None; p_angle := None; p_axes := None |}.
Example ex_missing : map_metadata [] (ex_places (Some (str "t"))) {| o_date := []; o_setup := [(str "Hole", Num 200)]; o_file := [] |} = Err TypeError /\
  map_metadata [] (ex_places (Some (str "t"))) {| o_date := [(str "Acquired", Text (str "today"))]; o_setup := [(str "Hole", Num 200)]; o_file := [] |} = Err ValueError /\
  map_metadata [] (ex_places None) {| o_date := []; o_setup := [(str "Hole", Num 200)]; o_file := [] |} = Err AttributeError.
Proof. vm_compute. repeat split. Qed.

Print Assumptions C92_units.
Print Assumptions C92_axes.
Print Assumptions C92_places.
Print Assumptions C92_spectrum.
Print Assumptions C92_data.
Print Assumptions C92_misfit.
Print Assumptions C92_ragged.
Print Assumptions C92_repeat_refuted.
Print Assumptions C92_no_axes_refuted.
Print Assumptions C92_single_refuted.
Print Assumptions C92_twice_refuted.
Print Assumptions C92_file.
Print Assumptions C93_entries.
Print Assumptions C93_key_refuted.
Print Assumptions C93_no_key_refuted.
Print Assumptions C93_clean.
Print Assumptions C93_renamed.
Print Assumptions C93_original.
Print Assumptions C93_second_refuted.
Print Assumptions C93_metadata.
Print Assumptions C93_filter_refuted.
Print Assumptions C93_date_refuted.
Print Assumptions C93_title_refuted.
