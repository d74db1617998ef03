(** Property C96: an example of an Impulse log, and a log of one row. *)
From Coq Require Import QArith.
From Verif Require Import Base Text Bytes HierModel HierProps SfsModel RplModel RplProps RenModel QuadModel HamText SurQuantity LogModel DensText DensFile LogText LogTable ProtoFile ProtoDemo ImpProps ImpFile.
Local Open Scope Z_scope.

Definition imp_names : list string := ["TimeStamp"; "Experiment time"; "Temperature Measured (degC)"; "MixValve"; "% Gas1 Measured"; "Channel#1"]%string.
Definition imp_rows : list (list string) := [["13:40:26.849"; "0"; "9.05"; "0; 0; 0"; "0"; "2.7E-10"]; ["13:40:27.350"; "10"; "11.2"; "0; 1; 0"; "0"; "2.7E-10"]; ["13:40:27.863"; "40"; "13.4"; "3; -1; 0"; "5"; "2.8E-10"]; ["13:40:28.374"; "60"; "14.8"; "0; 0; 12"; "7"; "2.9E-10"]; ["13:40:28.886"; "61"; "16.2"; "0; 0; 0"; "9"; "3.2E-10"]]%string.
Definition imp_log : imp_file := {| m_first := row imp_names; m_names := map str imp_names; m_rest := map row imp_rows |}.
Definition imp_metadata : list pystr := map str ["Experiment date, 06-08-2021"; "Experiment time, 13:40:19"; "Sample, 'Gold'"; "Live notes, 13:46:46: Live note one"; "13:46:52: Live note two"]%string.
Definition imp_folder (s : pystr) : option (list pystr) := if eqb_str s (str "data/Stub_Metadata.log") then Some imp_metadata else None.
Definition imp_name : pystr := str "data\Stub_Synchronized data.csv".
Definition imp_pairs : list (pystr * pystr) := map (fun p => (str (fst p), str (snd p))) [("Experiment_date", "06-08-2021"); ("Experiment_time", "13:40:19"); ("Sample", "'Gold'")]%string.

Example C96_name_demo : plain_name (str "% Gas/Fl (ml) #1 in " ++ [176; 67]) = str "Perc_Gas_Fl_ml_No1_in_C".
Proof. vm_compute. reflexivity. Qed.
Example C96_units_demo : quantity_units (str "Temperature Measured (degC)") = str "degC" /\ quantity_units (str "Pin Measured") = [] /\ quantity_units (str "MixValve") = [].
Proof.
  assert (P : forall s, padded s s) by (intro s; exists [], []; rewrite app_nil_r; repeat split; constructor). split; [|split].
  - destruct (C96_units (str "Temperature Measured (degC)") (str "Temperature Measured (degC)")) as [A _]; [split; reflexivity|discriminate|apply P|]. rewrite (A (str "Temperature Measured") (str "degC") eq_refl); [reflexivity|vm_compute; no_member].
  - destruct (C96_units (str "Pin Measured") (str "Pin Measured")) as (_ & _ & A); [split; reflexivity|discriminate|apply P|]. apply (A (str "Pin") 77 (str "easured") eq_refl); [vm_compute; no_member|left; lia].
  - destruct (C96_units (str "MixValve") (str "MixValve")) as (_ & A & _); [split; reflexivity|discriminate|apply P|]. apply A. vm_compute. no_member.
Qed.
Lemma valves_demo : forall a b c, valves (str_int a ++ [59; 32] ++ str_int b ++ [59; 32] ++ str_int c) a b c.
Proof.
  intros a b c. assert (B : forall n, padded (32 :: str_int n) (str_int n)) by (intro n; exists [32], []; rewrite app_nil_r; repeat split; repeat constructor). exists (str_int a), (32 :: str_int b), (32 :: str_int c). split; [reflexivity|]. split; [exists [], []; rewrite app_nil_r; repeat split; constructor|]. split; apply B.
Qed.
Example C96_valves_demo : mix_valve 8 (str "3; -1; 0") = Ok 512.
Proof. apply (C96_valves _ 3 (-1) 0); [apply (valves_demo 3 (-1) 0)|cbn; lia|unfold in_32_bits; lia]. Qed.
Example C96_distinct_demo : position 3 /\ position (-1) /\ position 0 /\ code 3 (-1) 0 <> code 3 0 (-1).
Proof. unfold position, code. lia. Qed.
Lemma entry_demo : forall a b, a <> str "Live notes" -> entry [a; b] (map under a) (strip b).
Proof. intros a b N. exists a, b, []. auto. Qed.
Lemma imp_described : described imp_metadata imp_pairs.
Proof.
  exists (map csv_row (firstn 3 imp_metadata)). split.
  - apply Forall2_cons; [exact (entry_demo (str "Experiment date") (str " 06-08-2021") ltac:(discriminate))|]. apply Forall2_cons; [exact (entry_demo (str "Experiment time") (str " 13:40:19") ltac:(discriminate))|]. apply Forall2_cons; [exact (entry_demo (str "Sample") (str " 'Gold'") ltac:(discriminate))|]. apply Forall2_nil.
  - right. exists (str " 13:46:46: Live note one"), [], [[str "13:46:52: Live note two"]]. split; [reflexivity|]. constructor; [discriminate|constructor].
Qed.
Example C96_metadata_demo : exists d, metadata_rows None [] (map csv_row imp_metadata) = Ok (d, map str ["13:46:46: Live note one"; "13:46:52: Live note two"]%string) /\ lookup (str "Sample") d = Some (str "'Gold'").
Proof. eexists. split; vm_compute; reflexivity. Qed.
Lemma imp_names_ok : names_ok imp_log.
Proof.
  split; [exists [], []; rewrite app_nil_r; repeat split; constructor|]. split; [split; reflexivity|]. split; [discriminate|]. all_cons ltac:(vm_compute; no_member).
Qed.
Lemma imp_columns_ok : columns_ok imp_log.
Proof.
  split; [left; reflexivity|]. split; [right; left; reflexivity|]. split; [cbn; lia|]. split; [all_cons ltac:(apply clean_demo; vm_compute; reflexivity)|]. repeat (apply NoDup_cons; [vm_compute; no_member|]); apply NoDup_nil.
Qed.
Lemma imp_table_ok : m_table demo_float imp_log (map (map str) imp_rows) [0; 10; 40; 60; 61]%Q.
Proof.
  split; [|split; [repeat constructor|split]].
  - unfold imp_log, m_rest, imp_rows. cbn [map]. repeat (apply table_line; [apply line_demo; vm_compute; reflexivity|]). constructor.
  - exists (map str ["0"; "10"; "40"; "60"; "61"]%string). split; [exists 1%nat; split; [reflexivity|repeat constructor]|]. repeat constructor; vm_compute; reflexivity.
  - intros c (i & I & C). assert (i = 3%nat) by (do 6 (destruct i as [|i]; [try discriminate I; reflexivity|]); destruct i; discriminate I). subst i. assert (c = map str ["0; 0; 0"; "0; 1; 0"; "3; -1; 0"; "0; 0; 12"; "0; 0; 0"]%string) as ->.
    { unfold is_column, imp_rows in C. cbn [map] in C. repeat match goal with H : Forall2 _ (_ :: _) _ |- _ => inversion H; clear H; subst | H : Forall2 _ [] _ |- _ => inversion H; clear H; subst | H : nth_error _ _ = Some _ |- _ => injection H as <- end. reflexivity. }
    exists [222; 232; 512; 234; 222]. repeat (apply Forall2_cons; [|]); [exists 0, 0, 0; split; [apply (valves_demo 0 0 0)|unfold in_32_bits; lia]|exists 0, 1, 0; split; [apply (valves_demo 0 1 0)|unfold in_32_bits; lia]|exists 3, (-1), 0; split; [apply (valves_demo 3 (-1) 0)|unfold in_32_bits; lia]|exists 0, 0, 12; split; [apply (valves_demo 0 0 12)|unfold in_32_bits; lia]|exists 0, 0, 0; split; [apply (valves_demo 0 0 0)|unfold in_32_bits; lia]|apply Forall2_nil].
Qed.
Lemma imp_beside : named imp_name /\ beside imp_name (str "data/Stub_Metadata.log").
Proof. split; [left; apply contains_spec; vm_compute; reflexivity|]. exists (str "data\Stub"), (str "Synchronized data.csv"). split; [reflexivity|]. split; [vm_compute; no_member|reflexivity]. Qed.
Example C96_demo : exists l, impulse_reader demo_float imp_folder false imp_name (m_first imp_log :: m_rest imp_log) = Ok l /\ Forall2 (impulse_ok imp_log (map (map str) imp_rows) [0; 10; 40; 60; 61]%Q (str "06-08-2021") (str "13:40:19")) (m_quantities imp_log) l.
Proof.
  destruct imp_beside as [N B]. apply (C96_file demo_float imp_folder imp_log _ _ imp_name _ imp_metadata imp_pairs _ _ imp_names_ok imp_columns_ok imp_table_ok ltac:(cbn; lia) N B eq_refl imp_described).
  - exists [], (tl imp_pairs). split; [reflexivity|vm_compute; no_member].
  - exists (firstn 1 imp_pairs), (skipn 2 imp_pairs). split; [reflexivity|vm_compute; no_member].
Qed.
Example C96_no_metadata_demo : impulse_reader demo_float (fun _ => None) false imp_name (m_first imp_log :: m_rest imp_log) = Err KeyError.
Proof. destruct imp_beside as [N B]. exact (C96_no_metadata_refuted demo_float _ imp_log _ _ imp_name _ imp_names_ok imp_columns_ok imp_table_ok ltac:(cbn; lia) N B eq_refl). Qed.
Example C96_refused_demo : ~ named (str "Stub.csv") /\ names_ok imp_log.
Proof. split; [intros [K|K]; apply contains_spec in K; discriminate K|exact imp_names_ok]. Qed.
Example C96_wide_demo : mix_valve 20 (str "99999999;0;0") = Err OverflowError.
Proof. assert (P : forall n, padded (str_int n) (str_int n)) by (intro n; exists [], []; rewrite app_nil_r; repeat split; constructor). apply (C96_wide _ 99999999 0 0); [exists (str_int 99999999), (str_int 0), (str_int 0); auto|vm_compute; lia|unfold in_32_bits; lia]. Qed.
Example C95_refused_table_demo : genfromtxt [str "a"; str "b"] [str "1,2"; str "3"] = Err ValueError /\ genfromtxt [str "a"] [str "# no rows"] = Err ValueError.
Proof. split; reflexivity. Qed.
(** A log of one row is not read *)
Definition short_log : list pystr := map row [["TimeStamp"; "Experiment time"; "Pin"]; ["13:40:26.849"; "0"; "9"]]%string.
Theorem C96_one_row_refuted : forall float, impulse_reader float imp_folder false imp_name short_log = Err IndexError.
Proof. intro float. vm_compute. reflexivity. Qed.
Print Assumptions C96_name.
Print Assumptions C96_valves.
Print Assumptions C96_wide.
Print Assumptions C95_refused_table.
Print Assumptions C96_distinct.
Print Assumptions C96_collision_refuted.
Print Assumptions C96_units.
Print Assumptions C96_metadata.
Print Assumptions C96_empty_row_refuted.
Print Assumptions C96_notes_refuted.
Print Assumptions C96_file.
Print Assumptions C96_no_metadata_refuted.
Print Assumptions C96_lazy.
Print Assumptions C96_refused.
Print Assumptions C96_one_row_refuted.
