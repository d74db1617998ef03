(** Topspin files: examples, and what is lost (C87, C88). *)
From Coq Require Import QArith.
From Verif Require Import Base Text Bytes RowMajor HierModel SfsModel SurFloat XmlModel QuadModel QuadSac TopModel TopScan TopFile TopTasks.
Local Open Scope Z_scope.

(** Numbers are written as picometres *)
Definition pm : positive := 1000000000000.
Definition el (tag text : string) (cs : list xml) : xml := Elem (str tag) [] (str text) [] cs.
Definition eli (tag : string) (n : Z) : xml := Elem (str tag) [] (str_int n) [] [].
Definition typed (tag typ text : string) (cs : list xml) : xml := Elem (str tag) [(str "Serializer", str typ)] (str text) [] cs.
Definition k_axis (scale offset : Z) : xml := el "Axis" "" [eli "Offset" offset; eli "Scale" scale; el "Unit" "" [el "Name" "" []; el "Symbol" "mrad" []]].
Definition frame_meta (x y : Z) : xml := el "Metadata" "" [el "Calibration" "" [k_axis 5 (-35); k_axis 7 (-42)]; el "Scan" "" [el "Item" "" [el "Name" "" []; el "Position" "" [eli "X" x; eli "Y" y]]]].
Definition frame_node (x y offset : Z) : h5 := Group [(str "Data", Array 2 [1; 2] (Some offset) []); (str "Metadata", Meta (frame_meta x y))].
(** Two lines of three points; names in alphabetical order *)
Definition demo_scan : list (pystr * h5) :=
  [(str "0", frame_node 1000 500 0); (str "1", frame_node 3000 500 8); (str "2", frame_node 5000 500 4); (str "3", frame_node 1000 1500 12); (str "4", frame_node 3000 1500 16); (str "5", frame_node 5000 1500 20)].
Definition demo_file : list Z := zseq 0 24.
Definition demo_setup : setup := {| nx := 3; ny := 2; x0 := 1000; y0 := 500; dx := 2000; dy := 1000 |}.
Ltac in_range i := match goal with H : 0 <= i < _ |- _ => cbn [nx ny demo_setup] in H; assert (i = 0 \/ i = 1 \/ i = 2) as [-> | [-> | ->]] by lia; try lia end.
Ltac numbered := eexists; split; [reflexivity|split; [discriminate|reflexivity]].
Example C87_demo_raster : raster parse_int demo_scan demo_setup.
Proof.
  split; [reflexivity|]. split; [reflexivity|]. split; [reflexivity|]. split; [reflexivity|]. split.
  { repeat constructor; cbn [map fst In]; intuition discriminate. }
  split; [reflexivity|]. intros i j I J. cbn [nx ny x0 y0 dx dy demo_setup] in *. assert (i = 0 \/ i = 1 \/ i = 2) as [-> | [-> | ->]] by lia; assert (j = 0 \/ j = 1) as [-> | ->] by lia; eexists _, _, _, _; (split; [eexists _, _; split; [reflexivity|split; reflexivity]|split; numbered]).
Qed.
Definition demo_root : xml := frame_meta 1000 500.
Example C87_demo_first : first_root demo_scan demo_root 2 1 2.
Proof. exists (str "0"). eexists _, _, _, _. split; [reflexivity|split; reflexivity]. Qed.
Example C87_demo_pattern : pattern_ok parse_int demo_root.
Proof. intros p P. assert (p = 0 \/ p = 1)%nat as [-> | ->] by lia; (split; [eexists; reflexivity|split; eexists; numbered]). Qed.
Example C87_demo_stored : stored demo_file demo_scan 2 1 2 (fun k => nth (Z.to_nat k) [0; 8; 4; 12; 16; 20] 0).
Proof.
  split; [reflexivity|]. split; [discriminate|]. split; [discriminate|]. intros k K. change (zlen demo_scan) with 6 in K. assert (k = 0 \/ k = 1 \/ k = 2 \/ k = 3 \/ k = 4 \/ k = 5) as [-> | [-> | [-> | [-> | [-> | ->]]]]] by lia;
    (split; [vm_compute; discriminate|split; [vm_compute; discriminate|eexists _, _, _; eexists _, _; split; [reflexivity|split; reflexivity]]]).
Qed.
(** A session with that scan and an image *)
Definition scan_name : pystr := str "11111111-2222-3333-4444-555555555555".
Definition image_name : pystr := str "aaaaaaaa-bbbb-cccc-dddd-eeeeeeeeeeee".
Definition image_meta : xml := typed "Value" "ImageDataSerializer" "" [Elem (str "Id") [] image_name [] []; el "Calibration" "" [el "X" "" [eli "Scale" 3; eli "Offset" 4]; el "Y" "" [eli "Scale" 5; eli "Offset" 6]]].
Definition demo_meta : xml :=
  el "Metadata" "" [el "Id" "x1" []; el "Title" "SPED" []; el "CreatedDateTime" "1/20/2023 3:25:01 PM" []; el "Comments" "" [];
    el "ProcedureData" "" [el "Item" "" [el "Name" "Count" []; typed "Value" "Int32" "12" []]; el "Item" "" [el "Name" "Image" []; image_meta];
      el "Item" "" [el "Name" "Stage" []; typed "Value" "Stage" "" [typed "X" "Double" "7" []; typed "On" "Boolean" "False" []; el "Note" "z" []]];
      el "Item" "" [el "Name" "Live" []; typed "Value" "Boolean" "False" []]]].
Definition demo_session : list (pystr * h5) := [(scan_name, Group demo_scan); (str "Metadata", Meta demo_meta); (image_name, Array 1 [2; 2] None [[1]; [2]; [3]; [4]])].
Definition demo_all : list (pystr * mval) :=
  [(str "Id", MText (str "x1")); (str "Title", MText (str "SPED")); (str "CreatedDateTime", MText (str "1/20/2023 3:25:01 PM")); (str "Comments", MText []);
   (str "ProcedureData", MDict [(str "Count", MInt 12); (str "Image", MDict []); (str "Stage", MDict [(str "X", MFloat 7); (str "On", MBool true)]); (str "Live", MText (str "False"))])].
Ltac absent := let H := fresh in intro H; vm_compute in H; intuition discriminate.
Example C88_demo_metadata : Forall2 (branch parse_int) (x_children demo_meta) demo_all /\ NoDup (map fst demo_all).
Proof.
  split; [|repeat constructor; absent]. unfold demo_meta, demo_all. cbn [x_children el]. do 4 (constructor; [split; [reflexivity|]; destruct (in_dec _ _ _) as [I|I]; [vm_compute in I; exfalso; intuition discriminate|reflexivity]|]). constructor; [|constructor].
  split; [reflexivity|]. destruct (in_dec _ _ _) as [_|I]; [|exfalso; apply I; left; reflexivity]. eexists. split; [|split; [|reflexivity]]; [|repeat constructor; absent].
  constructor; [eexists _, _, _; split; [reflexivity|split; [reflexivity|]]; left; eexists; split; [reflexivity|]; right; right; right; split; [right; reflexivity|exists 12; split; reflexivity]|].
  constructor; [eexists _, _, _; split; [reflexivity|split; [reflexivity|]]; right; eexists _, []; split; [reflexivity|split; [absent|split; [constructor|split; [constructor|reflexivity]]]]|].
  constructor; [|constructor; [|constructor]].
  - eexists _, _, _. split; [reflexivity|split; [reflexivity|]]. right. eexists _, _. split; [reflexivity|split; [absent|split; [|split; [|reflexivity]]]]; [|repeat constructor; absent].
    constructor; [split; [reflexivity|]; eexists; split; [reflexivity|]; right; left; split; [reflexivity|split; [discriminate|exists 7; split; reflexivity]]|]. constructor; [|constructor]. split; [reflexivity|]. eexists. split; [reflexivity|]. left. split; reflexivity.
  - eexists _, _, _. split; [reflexivity|split; [reflexivity|]]. left. eexists. split; [reflexivity|]. left. split; reflexivity.
Qed.
Example C88_demo_image : calibration parse_int demo_meta image_name (Some (3, 4, 5, 6)).
Proof.
  exists [typed "Value" "Int32" "12" []], image_meta. eexists _, _. split; [reflexivity|]. split; [constructor; [eexists; split; [reflexivity|left; discriminate]|constructor]|]. split; [split; [reflexivity|eexists _, _; split; reflexivity]|].
  assert (ONLY : forall x tag c a b, x_children x = a ++ c :: b -> x_tag c = str tag -> forallb (fun e => negb (eqb_str (x_tag e) (str tag))) (a ++ b) = true -> only x tag c).
  { intros x tag c a b E T F. exists a, b. split; [exact E|]. split; [exact T|]. apply Forall_forall. rewrite forallb_forall in F. intros e I. specialize (F e I). apply eqb_str_neq. destruct (eqb_str _ _); [discriminate F|reflexivity]. }
  split; [apply (ONLY _ _ _ [Elem (str "Id") [] image_name [] []] []); reflexivity|].
  split; [|split; [|split]]; eexists _, _.
  - split; [apply (ONLY _ _ _ [] [el "Y" "" [eli "Scale" 5; eli "Offset" 6]]); reflexivity|]. split; [apply (ONLY _ _ _ [] [eli "Offset" 4]); reflexivity|]. split; [discriminate|reflexivity].
  - split; [apply (ONLY _ _ _ [] [el "Y" "" [eli "Scale" 5; eli "Offset" 6]]); reflexivity|]. split; [apply (ONLY _ _ _ [eli "Scale" 3] []); reflexivity|]. split; [discriminate|reflexivity].
  - split; [apply (ONLY _ _ _ [el "X" "" [eli "Scale" 3; eli "Offset" 4]] []); reflexivity|]. split; [apply (ONLY _ _ _ [] [eli "Offset" 6]); reflexivity|]. split; [discriminate|reflexivity].
  - split; [apply (ONLY _ _ _ [el "X" "" [eli "Scale" 3; eli "Offset" 4]] []); reflexivity|]. split; [apply (ONLY _ _ _ [eli "Scale" 5] []); reflexivity|]. split; [discriminate|reflexivity].
Qed.
Example C88_demo_session : session_ok parse_int demo_file demo_session demo_meta.
Proof.
  split; [reflexivity|]. split; [repeat constructor; absent|]. split; [repeat constructor; absent|]. split.
  { exists demo_all. eexists. split; [apply C88_metadata; apply C88_demo_metadata|reflexivity]. }
  intros p [<- | [<- | [<- | []]]] G; [|discriminate G|].
  - exists demo_setup, demo_root, 2, 1, 2. eexists. split; [apply C87_demo_raster|split; [apply C87_demo_first|split; [apply C87_demo_pattern|apply C87_demo_stored]]].
  - split; [exists 2, 2; reflexivity|]. exists (Some (3, 4, 5, 6)). apply C88_demo_image.
Qed.
Example C88_demo_guid : guid scan_name = true /\ guid (str "1111-22223333-3333-4444-555555555555") = false.
Proof. split; reflexivity. Qed.
Definition demo_tops : list (pystr * h5) := [(str "Backup", Group []); (scan_name, Group demo_session); (image_name, Group demo_session)].
Example C88_demo_sessions : sessions_ok parse_int demo_file demo_tops (fun _ => demo_meta) /\ List.length (members demo_tops) = 4%nat.
Proof.
  split; [|reflexivity]. split; [repeat constructor; absent|]. split; [absent|]. intros k n [E | [E | [E | []]]] G; injection E as <- <-; [discriminate G| |]; (split; [absent|exists demo_session; split; [reflexivity|apply C88_demo_session]]).
Qed.
(** axes of the scan: 2 nm and 1 nm steps *)
Example C87_demo : match file_reader parse_int pm demo_file (Group demo_session) None false with
  | Ok [a; b] => d_shape a = [2; 3; 1; 2] /\ d_data a = [[0; 1]; [2; 3]; [8; 9]; [10; 11]; [4; 5]; [6; 7]; [12; 13]; [14; 15]; [16; 17]; [18; 19]; [20; 21]; [22; 23]] /\ map a_size (d_axes a) = [2; 3; 1; 2] /\
      match map a_scale (d_axes a) with [Some p; Some q; _; _] => Qeq_bool p 1 && Qeq_bool q 2 | _ => false end = true /\ map (fun x => Qred (a_offset x)) (firstn 2 (d_axes a)) = [1 # 2; 1]%Q /\
      d_shape b = [2; 2] /\ d_data b = [[1]; [2]; [3]; [4]] /\ e_date (n_general (d_entry b)) = Some (str "2023-1-20", str "3:25:01")
  | _ => False end.
Proof. vm_compute. repeat split; reflexivity. Qed.

(** * What goes wrong *)
(** Lines from bottom to top: the step of y is the whole height *)
Definition falling : list (pystr * h5) := [(str "0", frame_node 0 4000 0); (str "1", frame_node 1000 4000 4); (str "2", frame_node 0 2000 8); (str "3", frame_node 1000 2000 12); (str "4", frame_node 0 0 16); (str "5", frame_node 1000 0 20)].
Theorem C87_falling_refuted : match axes_4d parse_int pm (Group falling) with Ok (y :: _) => a_size y = 3 /\ (exists q, a_scale y = Some q /\ (q == 4)%Q) | _ => False end.
Proof. vm_compute. split; [reflexivity|]. eexists. split; [reflexivity|reflexivity]. Qed.
(** Data in chunks cannot be read *)
Theorem C87_chunks_refuted : file_reader parse_int pm demo_file (Group [(scan_name, Group [(str "0", Group [(str "Data", Array 2 [1; 2] None []); (str "Metadata", Meta (frame_meta 0 0))])]); (str "Metadata", Meta demo_meta)]) None false = Err TypeError.
Proof. vm_compute. reflexivity. Qed.
(** The scale of X is given to the axis y *)
Theorem C88_swapped_refuted : match axes_2d parse_int pm demo_meta image_name with Ok [y; x] => a_name y = str "y" /\ (exists q, a_scale y = Some q /\ (q == 3 # 1000)%Q) /\ exists q, a_scale x = Some q /\ (q == 5 # 1000)%Q | _ => False end.
Proof. vm_compute. split; [reflexivity|]. split; eexists; (split; [reflexivity|reflexivity]). Qed.
(** An image cannot be chosen by its address *)
Theorem C88_image_refuted : file_reader parse_int pm demo_file (Group demo_session) (Some image_name) false = Err ValueError.
Proof. vm_compute. reflexivity. Qed.
(** The half of the day is lost, nested texts False are true, and numbers of inner elements replace each other *)
Theorem C88_noon_refuted : date_time (str "1/20/2023 3:25:01 PM") = date_time (str "1/20/2023 3:25:01 AM").
Proof. reflexivity. Qed.
Theorem C88_false_refuted : decode parse_int (typed "On" "Boolean" "False" []) = Ok [(str "On", MBool true)].
Proof. reflexivity. Qed.
Theorem C88_inner_refuted : decode parse_int (typed "Stage" "Stage" "" [typed "X" "Axis" "" [typed "Scale" "Int32" "1" []]; typed "Y" "Axis" "" [typed "Scale" "Int32" "2" []]]) = Ok [(str "Scale", MInt 2)].
Proof. reflexivity. Qed.

Print Assumptions C87_axes.
Print Assumptions C87_load.
Print Assumptions C87_column_refuted.
Print Assumptions C87_falling_refuted.
Print Assumptions C87_chunks_refuted.
Print Assumptions C88_guid.
Print Assumptions C88_metadata.
Print Assumptions C88_date.
Print Assumptions C88_general.
Print Assumptions C88_image.
Print Assumptions C88_session.
Print Assumptions C88_chosen.
Print Assumptions C88_sessions.
Print Assumptions C88_one.
Print Assumptions C88_dry.
Print Assumptions C88_swapped_refuted.
Print Assumptions C88_image_refuted.
Print Assumptions C88_noon_refuted.
Print Assumptions C88_false_refuted.
Print Assumptions C88_inner_refuted.
