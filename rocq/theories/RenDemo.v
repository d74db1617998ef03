(** Properties C81 to C84: concrete Renishaw files that meet the hypotheses. *)
From Coq Require Import QArith.
From Verif Require Import Base Text Bytes Utf8 SfsModel SfsProps BcfUnpack HierModel SurFloat SurQuantity RenModel RenBlocks RenPset RenData RenMeta.
Local Open Scope Z_scope.

Definition pad (n : nat) (s : string) : list Z := str s ++ repeat 0 (n - List.length (str s)).
Definition header_body (points capacity spectra origins type : Z) : list Z :=
  le 8 0 ++ flat_map (le 4) [1; 2; 3; 4] ++ repeat 7 12 ++ le 4 0 ++ le 4 0 ++ le 4 points ++ le 8 capacity ++ le 8 spectra ++ le 4 5 ++ le 4 1 ++ le 4 points ++ le 4 origins ++ pad 24 "WiRE" ++ flat_map (le 2) [4; 4; 0; 6602] ++
  le 4 2 ++ le 4 type ++ le 8 132223104000000000 ++ le 8 132223104100000000 ++ le 4 6 ++ le 4 1 ++ repeat 0 48 ++ pad 32 "Rad" ++ pad 160 "A map".
Definition block_of (name : string) (uid : Z) (body : list Z) : blk := {| b_name := str name; b_uid := uid; b_body := body |}.
Definition one32 : Z := 127 * 2 ^ 23.
Definition two32 : Z := 128 * 2 ^ 23.
Definition four32 : Z := 129 * 2 ^ 23.
Definition xs : list Z := [four32; two32; one32].
Definition sp : list (list Z) := [[11; 12; 13]; [21; 22; 23]; [31; 32; 33]; [41; 42; 43]].
Definition times : list Z := [1000; 1010; 1020; 1030].
Definition origins : list orig := [{| r_type := 11; r_unit := 24; r_note := pad 16 "Time"; r_data := times |}; {| r_type := 3; r_unit := 5; r_note := pad 16 "X"; r_data := [0; 0; 0; 0] |}; {| r_type := 16; r_unit := 0; r_note := pad 16 "Sum"; r_data := [9; 9; 9; 9] |}].
Definition the_grid : grid := {| g_flag := 0; g_offset := [one32; two32; 0]; g_scale := [two32; four32; 0]; g_size := [2; 2; 1] |}.
Definition map_file : list blk :=
  [block_of "WDF1" 1 (header_body 3 4 4 3 3); block_of "DATA" 0 (words 4 (List.concat sp)); block_of "XLST" 0 (le 4 1 ++ le 4 1 ++ words 4 xs); block_of "ORGN" 0 (le 4 3 ++ List.concat (map orig_bytes origins)); block_of "WMAP" 0 (grid_bytes 0 0 the_grid)].
Definition get_header (bs : list blk) : header := match parse_header (table_of 0 bs) (file_of bs) with Ok h => h | Err _ => {| h_flags := 0; h_uuid := []; h_tracks := 0; h_status := 0; h_points := 0; h_capacity := 0; h_spectra := 0; h_accumulations := 0; h_ylist := 0; h_xlist := 0; h_origins := 0; h_app := []; h_version := []; h_scan := 0; h_type := UnknownType; h_start := []; h_end := []; h_unit := 0; h_laser := 0; h_user := []; h_title := [] |} end.
Definition map_parts : parts := {| p_header := get_header map_file; p_unit := 1; p_list := xs; p_spectra := sp; p_origins := origins |}.

Example C81_map_blocks : Forall blk_ok map_file.
Proof. repeat (apply Forall_cons; [repeat split; try (cbn; lia); repeat constructor; cbn; lia|]). constructor. Qed.
Example C81_map_keys : NoDup (map key_of map_file).
Proof. vm_compute. repeat constructor; cbn [In]; intro K; repeat (destruct K as [K|K]; [discriminate K|]); destruct K. Qed.
Example C81_locate_example : locate (file_of map_file) = Ok [(str "WDF1_1", (16, 400)); (str "DATA_0", (416, 64)); (str "XLST_0", (480, 36)); (str "ORGN_0", (516, 188)); (str "WMAP_0", (704, 64))].
Proof. vm_compute. reflexivity. Qed.
Example C81_header_example : parse_header (table_of 0 map_file) (file_of map_file) = Ok (get_header map_file) /\ h_points (get_header map_file) = 3 /\ h_spectra (get_header map_file) = 4 /\ h_type (get_header map_file) = Mapping /\ h_title (get_header map_file) = str "A map" /\
  h_user (get_header map_file) = str "Rad" /\ h_app (get_header map_file) = str "WiRE" /\ h_version (get_header map_file) = [4; 4; 0; 6602] /\ h_scan (get_header map_file) = 2 /\ h_uuid (get_header map_file) = [1; 2; 3; 4].
Proof. vm_compute. repeat split; reflexivity. Qed.
Example C81_tail_example : locate (file_of map_file ++ [255; 0; 0]) = locate (file_of map_file).
Proof. vm_compute. reflexivity. Qed.

Lemma without_check : forall bs keys, forallb (fun k => negb (existsb (eqb_str (str k)) (map key_of bs))) keys = true -> without bs keys.
Proof. intros bs keys H k K I. rewrite forallb_forall in H. apply H in K. rewrite negb_true_iff in K. assert (E : existsb (eqb_str (str k)) (map key_of bs) = true) by (apply existsb_exists; exists (str k); split; [exact I|apply eqb_str_refl]). congruence. Qed.
Example C83_map_is_file : is_file map_file map_parts.
Proof.
  split; [exact C81_map_blocks|]. split; [exact C81_map_keys|]. split.
  { apply without_check. vm_compute. reflexivity. }
  split; [vm_compute; reflexivity|]. split; [|split].
  - exists 1. split; [unfold word_ok; lia|]. exists (nth 2 map_file (block_of "" 0 [])), []. repeat split; [right; right; left; reflexivity].
  - exists (nth 1 map_file (block_of "" 0 [])), []. repeat split; [right; left; reflexivity].
  - exists (nth 3 map_file (block_of "" 0 [])), []. repeat split; [right; right; right; left; reflexivity].
Qed.
Lemma forallb_range : forall n l, forallb (fun x => (0 <=? x) && (x <? 2 ^ n)) l = true -> Forall (word_ok n) l.
Proof. intros n l H. rewrite forallb_forall in H. apply Forall_forall. intros x I. apply H in I. unfold word_ok. lia. Qed.
Example C83_map_parts_ok : parts_ok map_parts.
Proof.
  assert (H : h_points (p_header map_parts) = 3 /\ h_spectra (p_header map_parts) = 4) by (vm_compute; split; reflexivity). destruct H as [H1 H2]. unfold parts_ok. cbv zeta. rewrite H1, H2.
  split; [cbn; lia|]. split; [reflexivity|]. split; [apply forallb_range; reflexivity|]. split; [unfold word_ok; cbn; lia|]. split; [reflexivity|]. split; [lia|]. split; [repeat (constructor; [split; [reflexivity|apply forallb_range; reflexivity]|]); constructor|].
  split; [|split; [cbn; repeat constructor; cbn; intuition discriminate|cbn; lia]].
  repeat (apply Forall_cons; [repeat split; try (cbn; lia); try (apply forallb_range; reflexivity); try reflexivity|]); try constructor.
  all: try (cbn; tauto). all: try (vm_compute; tauto). all: repeat constructor; cbn; lia.
Qed.
Example C83_map_has_grid : has_grid map_file the_grid.
Proof.
  split.
  - split; [unfold word_ok; cbn; lia|]. do 3 (split; [reflexivity|]). apply forallb_range. reflexivity.
  - exists 0, 0. split; [unfold word_ok; lia|]. split; [unfold word_ok; lia|]. exists (nth 4 map_file (block_of "" 0 [])), []. repeat split; [right; right; right; right; left; reflexivity].
Qed.
(** Spectra run from the shortest shift on although the file has them the other way round *)
Definition nofit (l : list Z) : number * number := (NaN, NaN).
Definition nomean (l : list Z) : Z := 0.
Example C83_map_example : exists sig, read_file nofit nomean false (file_of map_file) = Ok sig /\ s_shape sig = [2; 2; 3] /\ s_data sig = [13; 12; 11; 23; 22; 21; 33; 32; 31; 43; 42; 41] /\
  map a_size (s_axes sig) = [2; 2; 3] /\ map a_name (s_axes sig) = [str "Y"; str "X"; str "Raman Shift"] /\ map a_scaling (s_axes sig) = [Uniform (Word4 two32) (Word4 four32); Uniform (Word4 one32) (Word4 two32); Values [one32; two32; four32]] /\
  s_date sig = (str "2020-01-01", str "00:00:00") .
Proof.
  eexists. split.
  - apply (C83_map nofit nomean false map_file map_parts the_grid (nth 1 origins {| r_type := 0; r_unit := 0; r_note := []; r_data := [] |}) [] 2 2 1 one32 two32 0 two32 four32 0 C83_map_is_file C83_map_parts_ok C83_map_has_grid); try reflexivity; try (vm_compute; reflexivity); cbn; discriminate.
  - vm_compute. repeat split; reflexivity.
Qed.
(** The same numbers as a series over time *)
Definition series_file : list blk :=
  [block_of "WDF1" 1 (header_body 3 4 4 1 2); block_of "DATA" 0 (words 4 (List.concat sp)); block_of "XLST" 0 (le 4 1 ++ le 4 1 ++ words 4 (rev xs)); block_of "ORGN" 0 (le 4 1 ++ orig_bytes (hd {| r_type := 0; r_unit := 0; r_note := []; r_data := [] |} origins))].
Example C83_series_example : match read_file nofit nomean false (file_of series_file) with
  | Ok sig => (s_shape sig, s_data sig, map a_name (s_axes sig), map a_units (s_axes sig)) = ([4; 3], List.concat sp, [str "Time"; str "Raman Shift"], [Some (str "ns"); Some (str "1/cm")]) /\ map (fun a => match a_scaling a with Uniform (Exact p) (Exact q) => Qeq_bool p 0 && Qeq_bool q 10 | _ => false end) (s_axes sig) = [true; false]
  | Err _ => False end.
Proof. vm_compute. split; reflexivity. Qed.

(** * Sets of properties *)
Definition demo_set : list (Z * body) :=
  [(1, Name (str "Laser")); (2, Name (str "Power")); (1, Text (str "532 nm")); (2, Number I4 (-5)); (3, Name (str "Spare")); (4, Nested [(1, Name (str "Count")); (1, Array I2 [3; 4]); (9, Number U1 1)]); (4, Name (str "Inner")); (8, Binary [171; 5])].
Definition all_ok (l : list (Z * body)) : Prop := Forall (fun ib => 0 <= fst ib < 2 ^ 16 /\ body_ok (snd ib)) l.
Lemma text_ascii : forall s, forallb (fun c => (0 <? c) && (c <? 128)) (str s) = true -> text_ok (str s).
Proof. intros s H. rewrite forallb_forall in H. apply Forall_forall. intros c I. apply H in I. unfold scalar. lia. Qed.
Example C82_demo_ok : set_ok demo_set.
Proof.
  split; [|split; [vm_compute; reflexivity|]].
  2:{ vm_compute. repeat split; repeat constructor; cbn [In]; intro K; repeat (destruct K as [K|K]; [discriminate K|]); destruct K. }
  repeat (apply Forall_cons; [split; [cbn; lia|]|]); try apply Forall_nil.
  all: try (split; [apply text_ascii; reflexivity|vm_compute; reflexivity]).
  - cbn. lia.
  - cbn [snd]. apply nested_ok. split; [|split; [vm_compute; reflexivity|]].
    2:{ vm_compute. repeat split; repeat constructor; cbn [In]; intro K; repeat (destruct K as [K|K]; [discriminate K|]); destruct K. }
    repeat (apply Forall_cons; [split; [cbn; lia|]|]); try apply Forall_nil.
    + split; [apply text_ascii; reflexivity|vm_compute; reflexivity].
    + split; [repeat constructor; cbn; lia|]. split; [cbn; lia|vm_compute; reflexivity].
    + cbn. lia.
  - vm_compute. reflexivity.
Qed.
Example C82_demo : read_pset (str "WXIS_0") (zlen (set_bytes demo_set)) [] (set_bytes demo_set ++ [1; 2]) =
  Ok (Dict [(str "Laser", Txt (str "532 nm")); (str "Power", Num I4 (-5)); (str "Inner", Dict [(str "Count", Nums I2 [3; 4])])],
      [(str "WXIS_0_57", {| u_keys := []; u_values := [(str "9", Num U1 1)] |}); (str "WXIS_0", {| u_keys := [(str "3", str "Spare")]; u_values := [(str "8", Txt (str "binary: AB05"))] |})], [1; 2]).
Proof. vm_compute. reflexivity. Qed.
