(** Files of the theorems on EMD (Berkeley) files, and what is read wrongly (C112-C114). *)
From Coq Require Import QArith.
From Verif Require Import Base Text HierModel Dict DistModel RowMajor RplModel SfsModel ImgModel LogText NcemModel NcemProps NcemWrite NcemFile.
Local Open Scope Z_scope.

(** The path of a dataset is its group and its name *)
Lemma join_last : forall c l, (1 < List.length l)%nat -> join_char c (removelast l) ++ c :: last l [] = join_char c l.
Proof.
  intros c l. induction l as [|a l IH]; intro L; [cbn in L; lia|]. destruct l as [|b l]; [cbn in L; lia|]. destruct l as [|d l].
  - reflexivity.
  - assert (H : (1 < List.length (b :: d :: l))%nat) by (cbn; lia). specialize (IH H). change (removelast (a :: b :: d :: l)) with (a :: removelast (b :: d :: l)). change (last (a :: b :: d :: l) []) with (last (b :: d :: l) []). change (join_char c (a :: b :: d :: l)) with (a ++ c :: join_char c (b :: d :: l)). rewrite <- IH. change (removelast (b :: d :: l)) with (b :: removelast (d :: l)). change (join_char c (a :: b :: removelast (d :: l))) with (a ++ c :: join_char c (b :: removelast (d :: l))). rewrite <- app_assoc. reflexivity.
Qed.
Lemma join_split : forall c s, join_char c (split_char c s) = s.
Proof.
  intros c s. induction s as [|x s IH]; [reflexivity|]. cbn [split_char]. pose proof (split_char_ne c s) as N. destruct (x =? c) eqn:E.
  - destruct (split_char c s) as [|w ws]; [congruence|]. change (join_char c ([] :: w :: ws)) with (c :: join_char c (w :: ws)). rewrite IH. f_equal. lia.
  - destruct (split_char c s) as [|w ws]; [congruence|]. destruct ws as [|v ws]; cbn [join_char] in *; [rewrite IH; reflexivity|]. cbn [app]. rewrite IH. reflexivity.
Qed.
Lemma split_long : forall c s, In c s -> (1 < List.length (split_char c s))%nat.
Proof.
  intros c s. induction s as [|x s IH]; intro H; [destruct H|]. cbn [split_char]. pose proof (split_char_ne c s) as N. destruct (x =? c) eqn:E; [destruct (split_char c s); [congruence|cbn; lia]|]. destruct H as [H|H]; [lia|]. specialize (IH H). destruct (split_char c s) as [|w ws]; [congruence|]. cbn [List.length] in *. exact IH.
Qed.
Theorem C113_path : forall p, In 47 p -> dirname p ++ slash ++ basename p = p.
Proof. intros p H. unfold dirname, basename, parts, slash. cbn [app]. rewrite join_last by (apply split_long; exact H). apply join_split. Qed.

(** * Files *)
Definition no_units : pystr -> option pystr := fun _ => None.
Definition ar (sh : list Z) (k : Z) : array := {| a_shape := sh; a_at := fun i => k + row_major sh i |}.
Definition data_at (p : string) (sh : list Z) (k : Z) : pystr * object := (str p, Dataset {| d_array := ar sh k; d_values := None; d_name := None; d_units := None |}).
Definition dim_at (p : string) (v : list Q) (name units : string) : pystr * object := (str p, Dataset {| d_array := ar [zlen v] 0; d_values := Some v; d_name := Some (str name); d_units := Some (str units) |}).
Definition group_at (p : string) : pystr * object := (str p, Group true []).
Definition of_items (l : list (pystr * object)) : file := {| f_major := Some (str "0"); f_minor := Some (str "5"); f_items := l |}.
Definition elements (a : array) : list Z := map (a_at a) (box_indices (a_shape a)).
Definition summary (r : res (list signal)) : res (list (pystr * list Z * list Z * list (Z * option pystr * option pystr * Z))) :=
  let! l := r in Ok (map (fun s => (s_title s, a_shape (s_data s), elements (s_data s), map (fun x => (x_index x, x_name x, x_units x, x_size x)) (s_axes s))) l).

(** * Writing and reading *)
Definition picture : to_write := {| t_title := str "image"; t_data := ar [2; 3] 10; t_om := [(str "user", [(str "age", Number 42)])]; t_signal := [];
  t_axes := [{| w_name := Some (str "y"); w_units := Some (str "1/nm"); w_offset := 1 # 2; w_scale := 1 # 4 |}; {| w_name := None; w_units := None; w_offset := 0%Q; w_scale := 2%Q |}] |}.
Example C112_example : plain_title (t_title picture) /\ List.length (t_axes picture) = List.length (a_shape (t_data picture)) /\ Forall (fun a => match w_units a with None => True | Some u => units_ok u end) (t_axes picture).
Proof. split; [split; [vm_compute; intuition discriminate|reflexivity]|]. split; [reflexivity|]. repeat constructor; vm_compute; intuition discriminate. Qed.
Example C112_example_read : summary (let! f := write_ncem picture in ncem_reader no_units f All None) = Ok [(str "image", [2; 3], [10; 11; 12; 13; 14; 15], [(0, Some (str "y"), Some (str "1/nm"), 2); (1, Some [], Some [], 3)])].
Proof. reflexivity. Qed.
Example C112_example_stored : (let! f := write_ncem picture in Ok (match get f (str "signals/image/dim2") with Some (Dataset d) => d_units d | _ => None end)) = Ok (Some (str "[1_/_n_m]")).
Proof. reflexivity. Qed.
(** Fewer axes than dimensions *)
Example C112_axes_missing : forall t, (List.length (t_axes t) < List.length (a_shape (t_data t)))%nat -> write_ncem t = Err IndexError.
Proof. intros t H. unfold write_ncem. apply Nat.ltb_lt in H. rewrite H. reflexivity. Qed.
Definition with_units (u : string) : to_write := {| t_title := str "x"; t_data := ar [2] 0; t_om := []; t_signal := []; t_axes := [{| w_name := Some (str "y"); w_units := Some (str u); w_offset := 0%Q; w_scale := 1%Q |}] |}.
Definition units_read (t : to_write) : res (list (option pystr)) := let! f := write_ncem t in let! l := ncem_reader no_units f All None in Ok (flat_map (fun s => map x_units (s_axes s)) l).
(** Empty units, and units with an underscore or a closing bracket, are changed *)
Theorem C112_units_refuted : units_read (with_units "") = Ok [Some (str "[]")] /\ units_read (with_units "counts_s") = Ok [Some (str "countss")] /\ units_read (with_units "m[1]x") = Ok [Some (str "m[1")].
Proof. repeat split; reflexivity. Qed.
Definition with_title (s : string) : to_write := {| t_title := str s; t_data := ar [2] 0; t_om := []; t_signal := []; t_axes := [{| w_name := Some (str "y"); w_units := None; w_offset := 0%Q; w_scale := 1%Q |}] |}.
Definition title_read (t : to_write) : res (list pystr) := let! f := write_ncem t in let! l := ncem_reader no_units f All None in Ok (map s_title l).
(** Titles with a slash, or with _depth, are changed *)
Theorem C112_title_refuted : title_read (with_title "a/b") = Ok [str "b"] /\ title_read (with_title "etch_depth") = Ok [str "etch"].
Proof. split; reflexivity. Qed.

(** * Reading *)
Definition cube : file := of_items [group_at "4DSTEM_experiment"; group_at "4DSTEM_experiment/a"; data_at "4DSTEM_experiment/a/data" [2; 3] 10; dim_at "4DSTEM_experiment/a/dim0" [0; 2]%Q "Rx" "A"; dim_at "4DSTEM_experiment/a/dim1" [1; 2; 3]%Q "Qx" "A^-1";
  group_at "4DSTEM_experiment/b"; data_at "4DSTEM_experiment/b/data" [4] 100; dim_at "4DSTEM_experiment/b/dim1" [0; 1; 2; 3]%Q "z" "[n_m]"; (str "4DSTEM_experiment/b/dim_mask", Group true [])].
Example C113_example_read : summary (ncem_reader no_units cube All None) =
  Ok [(str "a", [2; 3], [10; 11; 12; 13; 14; 15], [(0, Some (str "Rx"), Some [197], 2); (1, Some (str "Qx"), Some (197 :: str "^-1"), 3)]); (str "b", [4], [100; 101; 102; 103], [(0, Some (str "z"), Some (str "nm"), 4)])].
Proof. reflexivity. Qed.
Example C113_example_one : exists d, get cube (str "4DSTEM_experiment/a/data") = Some (Dataset d) /\ List.length (a_shape (d_array d)) = 2%nat /\ from_zero cube (str "4DSTEM_experiment/a") /\
  forall m, (m < 2)%nat -> exists dim, get cube (dim_path (str "4DSTEM_experiment/a") (0 + Z.of_nat m)) = Some (Dataset dim) /\ d_values dim <> Some [].
Proof. eexists. split; [reflexivity|]. split; [reflexivity|]. split; [vm_compute; discriminate|]. intros m M. destruct m as [|[|m]]; [| |lia]; (eexists; split; [reflexivity|discriminate]). Qed.
Example C113_example_found : to_read cube (str "4DSTEM_experiment/b/data") /\ forall p d, In (p, Dataset d) (f_items cube) -> get cube (dirname p) <> None.
Proof.
  split.
  - split; [eexists; do 6 right; left; reflexivity|]. split; [exists (str "data"); split; [left; reflexivity|exists []; reflexivity]|]. eexists. reflexivity.
  - intros p d H. repeat (destruct H as [H|H]; [try discriminate H; injection H as <- _; vm_compute; discriminate|]). destruct H.
Qed.
Definition slice (k : string) (c : Z) : list (pystr * object) :=
  [(str ("4DSTEM_simulation/data/realslices/annular_detector_depth" ++ k), Group true []); data_at ("4DSTEM_simulation/data/realslices/annular_detector_depth" ++ k ++ "/realslice") [2; 3] c;
   dim_at ("4DSTEM_simulation/data/realslices/annular_detector_depth" ++ k ++ "/dim1") [0; 1]%Q "R_x" "[n_m]"; dim_at ("4DSTEM_simulation/data/realslices/annular_detector_depth" ++ k ++ "/dim2") [0; 1; 2]%Q "R_y" "[n_m]"]%string.
Definition simulation : file := of_items (slice "0000" 0 ++ slice "0001" 10 ++ slice "0002" 20 ++
  [(str "4DSTEM_simulation/metadata/metadata_0/original/simulation_parameters", Group false (map (fun p => (str (fst p), snd p)) [("c", Numbers [6; 5; 5]%Q); ("ns", Number 2); ("s", Number 1); ("t", Numbers [3; 3; 1]%Q); ("zs", Number 0)]%string))]).
Example C113_example_stack : summary (ncem_reader no_units simulation All None) =
  Ok [(str "annular_detector", [3; 3; 2], [0; 3; 1; 4; 2; 5; 10; 13; 11; 14; 12; 15; 20; 23; 21; 24; 22; 25],
       [(0, Some (str "annular_detector_depth"), Some [197], 3); (1, Some (str "R_y"), Some (str "nm"), 3); (2, Some (str "R_x"), Some (str "nm"), 2)])].
Proof. reflexivity. Qed.
Definition slice_path (k : string) : pystr := str ("4DSTEM_simulation/data/realslices/annular_detector_depth" ++ k ++ "/realslice").
Lemma occurs_by : forall p s, contains p s = true -> occurs p s.
Proof. intros p s H. apply contains_spec. exact H. Qed.
Example C113_example_classes : find_paths simulation (f_items simulation) = Ok (List.concat [[slice_path "0000"; slice_path "0001"; slice_path "0002"]]) /\ classes simulation [[slice_path "0000"; slice_path "0001"; slice_path "0002"]].
Proof.
  split; [reflexivity|]. apply (one_class _ _ _ (str "4DSTEM_simulation/data/realslices/annular_detector_depth")); [| | |constructor].
  - split; [intros _; exists (str "0000"); split; reflexivity|]. intro N. exfalso. apply N. split; [reflexivity|]. apply contains_not. reflexivity.
  - repeat constructor; try (vm_compute; discriminate); apply occurs_by; reflexivity.
  - constructor.
Qed.
Example C114_example_depth : (let! l := ncem_reader no_units simulation All None in Ok (map (fun s => map (fun x => (Qred (x_offset x), option_map Qred (x_scale x), x_navigate x)) (s_axes s)) l)) = Ok [[(2%Q, Some 2%Q, true); (0%Q, Some 1%Q, false); (0%Q, Some 1%Q, false)]] /\
  is_prismatic simulation = true /\ close (1 * 6) (inject_Z 3 * (2 * 1)) (1 # 10000).
Proof. split; [reflexivity|]. split; [reflexivity|]. vm_compute. discriminate. Qed.
Example C114_example_kind : is_ncem (Some (str "0"), None) [(None, None); (Some (str "0"), Some (str "5"))] = true /\ is_ncem (Some (str "0"), None) [(None, None)] = false.
Proof. split; reflexivity. Qed.
Example C114_example_title : contains (str "_depth") (str "annular_detector" ++ str "_dept") = false.
Proof. reflexivity. Qed.

(** * What is read wrongly *)
Definition two (a b : string) (sa sb : list Z) : file := of_items [group_at ("signals/" ++ a); data_at ("signals/" ++ a ++ "/data") sa 10; dim_at ("signals/" ++ a ++ "/dim1") [0; 1]%Q "x" ""; group_at ("signals/" ++ b); data_at ("signals/" ++ b ++ "/data") sb 20; dim_at ("signals/" ++ b ++ "/dim1") [0; 5]%Q "y" ""].
(** Signals whose group is named with the name of another group and more characters are stacked with it, or nothing is read *)
Theorem C113_prefix_refuted : summary (ncem_reader no_units (two "a" "ab" [2] [2]) All None) = Ok [(str "a", [2; 2], [10; 11; 20; 21], [(0, Some (str "a"), None, 2); (1, Some (str "x"), Some [], 2)])] /\
  ncem_reader no_units (two "a" "ab" [2] [3]) All None = Err ValueError /\
  summary (ncem_reader no_units (two "a" "b" [2] [3]) All None) = Ok [(str "a", [2], [10; 11], [(0, Some (str "x"), Some [], 2)]); (str "b", [3], [20; 21; 22], [(0, Some (str "y"), Some [], 3)])].
Proof. repeat split; reflexivity. Qed.
(** Of two datasets in one group the first is read twice, the second is lost *)
Theorem C113_second_refuted : summary (ncem_reader no_units (of_items [group_at "g"; data_at "g/data" [2] 10; data_at "g/data_error" [2] 20; dim_at "g/dim1" [0; 1]%Q "x" ""]) All None) =
  Ok [(str "g", [2; 2], [10; 11; 10; 11], [(0, Some (str "g"), None, 2); (1, Some (str "x"), Some [], 2)])].
Proof. reflexivity. Qed.
(** Dimensions counted from zero are not found in a stack *)
Theorem C113_zero_stack_refuted : ncem_reader no_units (of_items [group_at "g"; data_at "g/data" [2; 3] 10; data_at "g/data_error" [2; 3] 20; dim_at "g/dim0" [0; 1]%Q "x" ""; dim_at "g/dim1" [0; 1; 2]%Q "y" ""]) All None = Err AttributeError /\
  exists s, ncem_reader no_units (of_items [group_at "g"; data_at "g/data" [2; 3] 10; dim_at "g/dim0" [0; 1]%Q "x" ""; dim_at "g/dim1" [0; 1; 2]%Q "y" ""]) All None = Ok [s].
Proof. split; [reflexivity|]. eexists. reflexivity. Qed.
(** In a stack of images with one line the axis has the name of the other dimension *)
Theorem C113_line_refuted : summary (ncem_reader no_units (of_items [group_at "a1"; data_at "a1/data" [1; 3] 10; dim_at "a1/dim1" [0]%Q "y" ""; dim_at "a1/dim2" [0; 1; 2]%Q "x" ""; group_at "b/a1"; data_at "b/a1/data" [1; 3] 20]) All None) =
  Ok [(str "a1", [2; 3], [10; 11; 12; 20; 21; 22], [(0, Some (str "a1"), None, 2); (1, Some (str "y"), Some [], 3)])].
Proof. reflexivity. Qed.
(** A dimension with one value has no scale *)
Theorem C113_one_value_refuted : exists s x, ncem_reader no_units (of_items [group_at "g"; data_at "g/data" [1] 10; dim_at "g/dim1" [3]%Q "x" ""]) All None = Ok [s] /\ s_axes s = [x] /\ x_offset x = 3%Q /\ x_scale x = None.
Proof. do 2 eexists. split; [reflexivity|]. split; [reflexivity|]. split; reflexivity. Qed.
(** A simulation without the size of its cell: depth sections are not read *)
Theorem C114_no_cell_refuted : forall om, lookup (str "cellDimension") om = None -> lookup (str "numSlices") om = None -> lookup (str "sliceThickness") om = None -> lookup (str "zStart") om = None -> stack_axis simulation 3 (str "annular_detector_depth") om = Err TypeError \/ stack_axis simulation 3 (str "annular_detector_depth") om = Err IndexError.
Proof.
  intros om H1 H2 H3 H4. unfold stack_axis. replace (is_prismatic simulation && contains (str "depth") (str "annular_detector_depth")) with true by reflexivity. unfold depth, number, component. rewrite H1, H2, H3, H4. cbn [bind]. destruct (lookup (str "tile") om) as [[q|l|z]|]; try (left; reflexivity). unfold item. destruct (nth_error l 2); cbn [bind]; [left|right]; reflexivity.
Qed.
Print Assumptions C112_round_trip.
Print Assumptions C112_units_refuted.
Print Assumptions C112_title_refuted.
Print Assumptions C113_one.
Print Assumptions C113_stack.
Print Assumptions C113_found.
Print Assumptions C113_classes.
Print Assumptions C113_separate.
Print Assumptions C113_missing.
Print Assumptions C113_path.
Print Assumptions C113_prefix_refuted.
Print Assumptions C113_second_refuted.
Print Assumptions C113_zero_stack_refuted.
Print Assumptions C113_line_refuted.
Print Assumptions C113_one_value_refuted.
Print Assumptions C114_depth.
Print Assumptions C114_plain_stack.
Print Assumptions C114_parameters.
Print Assumptions C114_short_names.
Print Assumptions C114_title.
Print Assumptions C114_kind.
Print Assumptions C114_angstrom.
Print Assumptions C114_no_brackets.
Print Assumptions C114_no_cell_refuted.
