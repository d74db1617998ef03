(** Property C95: an example of a Protochips log, and logs that are not read as they should be. *)
From Coq Require Import QArith.
From Verif Require Import Base Text Bytes HierModel HierProps SfsModel RplModel RplProps RenModel QuadModel HamText SurQuantity LogModel DensText DensFile LogText LogTable ProtoProps ProtoFile.
Local Open Scope Z_scope.

Definition row (l : list string) : pystr := join_char 44 (map str l).
Definition demo_start (s : pystr) : option (pystr * pystr) := if eqb_str s (str "2014.12.0317:15:37.192") then Some (str "2014-12-03", str "17:15:37.192000") else None.
Definition demo_params : list (string * string) := [("Calibration file", "E:\x_8.cal"); ("Date (yyyy.mm.dd)", "2014.12.03"); ("Time (hh:mm:ss.ms)", "17:15:37.192"); ("Time units", "Milliseconds"); ("Temperature units", "Degrees C"); ("Current units", "Amps")]%string.
Definition demo_line (pv : string * string) : pystr := join_char 44 [str "0"; str (fst pv) ++ str " = " ++ str (snd pv); str "25"; str "0"].
Definition demo_rows : list (list string) := [["0"; ""; "25"; "1"]; ["10"; "note"; "26"; "1"]; ["40"; ""; "27"; "2"]; ["60"; " "; "28"; "3"]; ["61"; ""; "29"; "3"]]%string.
Definition demo_log : log_file := {| g_first := str "Time, Notes,Channel A Temperature, Channel B Current"; g_names := map str ["Time"; "Notes"; "Channel A Temperature"; "Channel B Current"]%string; g_lines := map demo_line demo_params; g_params := map (fun pv => (str (fst pv), str (snd pv))) demo_params; g_next := demo_line ("User agreeing to terms", "me")%string; g_rest := map row demo_rows |}.
Ltac all_cons t := repeat (apply Forall_cons; [t|]); apply Forall_nil.
Ltac all2_cons t := repeat (apply Forall2_cons; [t|]); apply Forall2_nil.
Ltac no_member := let K := fresh in intro K; repeat (destruct K as [K|K]; [discriminate K|]); exact K.
Lemma listed_join : forall l, l <> [] -> Forall plain_cell l -> listed (join_char 44 l) l.
Proof.
  intros l N F. induction F as [|s l S F IH]; [congruence|]. destruct l as [|t l]; [constructor; exact S|]. change (join_char 44 (s :: t :: l)) with (s ++ [44] ++ join_char 44 (t :: l)). constructor; [exact S|left; reflexivity|apply IH; discriminate].
Qed.
Definition plainb (s : pystr) : bool := negb (existsb (Z.eqb 44) s) && match s with c :: _ => negb (c =? 32) | [] => true end.
Lemma plainb_spec : forall s, plainb s = true -> plain_cell s.
Proof.
  intros s H. apply andb_true_iff in H. destruct H as [H1 H2]. split.
  - intro K. assert (E : existsb (Z.eqb 44) s = true) by (apply existsb_exists; exists 44; split; [exact K|reflexivity]). rewrite E in H1. discriminate H1.
  - intros c r ->. lia.
Qed.
Lemma param_demo : forall a p v c d, forallb plainb [a; p ++ str " = " ++ v; c; d] = true -> contains (str " = ") (p ++ str " =") = false -> contains (str " = ") v = false -> param_line (join_char 44 [a; p ++ str " = " ++ v; c; d]) p v.
Proof.
  intros a p v c d B P V. exists a, c, [d]. split; [|split; apply contains_not; assumption]. apply listed_join; [discriminate|]. rewrite Forall_forall. rewrite forallb_forall in B. intros x X. apply plainb_spec. apply B. exact X.
Qed.
Lemma line_demo : forall l, forallb (fun s => negb (existsb (Z.eqb 44) s) && negb (existsb (Z.eqb 35) s)) l = true -> match join_char 44 l with [] => false | c :: _ => negb (is_space c) && negb (is_space (last (join_char 44 l) 0)) end = true -> existsb (Z.eqb 35) (join_char 44 l) = false -> is_line (join_char 44 l) l.
Proof.
  intros l A B C. exists (join_char 44 l). split; [split; [|left; reflexivity]|].
  - intro K. assert (E : existsb (Z.eqb 35) (join_char 44 l) = true) by (apply existsb_exists; exists 35; split; [exact K|reflexivity]). congruence.
  - split; [exists [], []; rewrite app_nil_r; repeat split; constructor|]. destruct (join_char 44 l) as [|c r] eqn:E; [discriminate B|]. apply andb_true_iff in B. destruct B as [B1 B2]. split; [split; [destruct (is_space c); [discriminate B1|reflexivity]|destruct (is_space (last (c :: r) 0)); [discriminate B2|reflexivity]]|]. split; [discriminate|]. rewrite Forall_forall. rewrite forallb_forall in A. intros s S. specialize (A s S). apply andb_true_iff in A. destruct A as [A _]. intro K. assert (X : existsb (Z.eqb 44) s = true) by (apply existsb_exists; exists 44; split; [exact K|reflexivity]). rewrite X in A. discriminate A.
Qed.
Lemma clean_demo : forall s, negb (eqb_str s []) && forallb (fun c => negb (existsb (Z.eqb c) special) && negb (is_space c)) s && negb (existsb (eqb_str s) (map str ["return"; "file"; "print"]%string)) = true -> clean_name s.
Proof.
  intros s H. apply andb_true_iff in H. destruct H as [H H3]. apply andb_true_iff in H. destruct H as [H1 H2]. split; [intros ->; discriminate H1|]. split.
  - rewrite Forall_forall. rewrite forallb_forall in H2. intros c C. specialize (H2 c C). apply andb_true_iff in H2. destruct H2 as [A B]. split; [|destruct (is_space c); [discriminate B|reflexivity]]. intro K. assert (E : existsb (Z.eqb c) special = true) by (apply existsb_exists; exists c; split; [exact K|apply Z.eqb_refl]). rewrite E in A. discriminate A.
  - intro K. assert (E : existsb (eqb_str s) (map str ["return"; "file"; "print"]%string) = true) by (apply existsb_exists; exists s; split; [exact K|apply eqb_str_refl]). rewrite E in H3. discriminate H3.
Qed.
Lemma final_demo : forall (P : pystr -> Prop) (ps a : list (pystr * pystr)) p v b, ps = a ++ (p, v) :: b -> P p -> Forall (fun q => ~ P (fst q)) b -> final P ps v.
Proof. intros P ps a p v b E H F. exists a, b, p. split; [exact E|]. split; [exact H|]. intros q w I. rewrite Forall_forall in F. exact (F (q, w) I). Qed.
Ltac occurs_yes := apply contains_spec; vm_compute; reflexivity.
Ltac occurs_no := apply contains_not; vm_compute; reflexivity.
Lemma demo_head : head_ok demo_log.
Proof.
  unfold head_ok. split.
  { change (g_first demo_log) with (str "Time" ++ [44; 32] ++ str "Notes" ++ [44] ++ str "Channel A Temperature" ++ [44; 32] ++ str "Channel B Current"). unfold demo_log, g_names. cbn [map]. repeat (first [apply listed_more; [apply plainb_spec; vm_compute; reflexivity|unfold comma; auto|]|apply listed_one; apply plainb_spec; vm_compute; reflexivity]). }
  split; [cbn; lia|]. split; [left; reflexivity|]. split; [right; left; reflexivity|]. split; [all_cons ltac:(apply clean_demo; vm_compute; reflexivity)|]. split; [repeat (apply NoDup_cons; [vm_compute; no_member|]); apply NoDup_nil|]. split; [discriminate|]. split.
  - unfold demo_log, g_lines, g_params, demo_params. unfold demo_line. cbn [map fst snd]. all2_cons ltac:(apply param_demo; vm_compute; reflexivity).
  - unfold demo_log, g_params, demo_params. cbn [map fst snd]. all_cons ltac:(occurs_no).
Qed.
Lemma demo_user : param_line (g_next demo_log) (str "User agreeing to terms") (str "me") /\ is_user (str "User agreeing to terms").
Proof. split; [apply param_demo; vm_compute; reflexivity|occurs_yes]. Qed.
Lemma demo_started : start_ok demo_start demo_log (str "2014-12-03") (str "17:15:37.192000").
Proof.
  exists (str "2014.12.03"), (str "17:15:37.192"). split; [|split].
  - eapply (final_demo _ _ [_] _ _ [_; _; _; _]); [reflexivity|split; [occurs_no|occurs_yes]|]. all_cons ltac:(intros [_ K]; revert K; occurs_no).
  - eapply (final_demo _ _ [_; _] _ _ [_; _; _]); [reflexivity|split; [occurs_no|split; [occurs_no|occurs_yes]]|]. all_cons ltac:(intros (_ & _ & K); revert K; occurs_no).
  - vm_compute. reflexivity.
Qed.
Lemma demo_table : table_ok demo_float demo_log (map (map str) demo_rows) [0; 10; 40; 60; 61]%Q.
Proof.
  split; [|split; [|split; [discriminate|]]].
  - unfold demo_log, g_rest, demo_rows. cbn [map]. repeat (apply table_line; [apply line_demo; vm_compute; reflexivity|]). constructor.
  - repeat constructor.
  - exists (map str ["0"; "10"; "40"; "60"; "61"]%string). split; [exists 0%nat; split; [reflexivity|repeat constructor]|]. repeat constructor; vm_compute; reflexivity.
Qed.
Lemma demo_units : (exists tu, final (is_attribute (str "time_units")) (g_params demo_log) tu) /\ (forall q, In q (quantities demo_log) -> exists qu, has_units demo_log q qu).
Proof.
  split.
  - exists (str "Milliseconds"). eapply (final_demo _ _ [_; _; _] _ _ [_; _]); [reflexivity|repeat split; try occurs_no; vm_compute; reflexivity|]. all_cons ltac:(intros (_ & _ & _ & K); discriminate K).
  - intros q [<- | [<- | []]].
    + exists (str "Degrees C"), (str "Temperature"). split; [split; [vm_compute; no_member|right; exists (str "Channel A"); reflexivity]|]. eapply (final_demo _ _ [_; _; _; _] _ _ [_]); [reflexivity|repeat split; try occurs_no; vm_compute; reflexivity|]. all_cons ltac:(intros (_ & _ & _ & K); discriminate K).
    + exists (str "Amps"), (str "Current"). split; [split; [vm_compute; no_member|right; exists (str "Channel B"); reflexivity]|]. eapply (final_demo _ _ [_; _; _; _; _] _ _ []); [reflexivity|repeat split; try occurs_no; vm_compute; reflexivity|]. constructor.
Qed.
Example C95_demo : exists logs, protochips_reader demo_float demo_start false (whole demo_log) = Ok logs /\ Forall2 (log_ok demo_log (map (map str) demo_rows) [0; 10; 40; 60; 61]%Q (str "2014-12-03") (str "17:15:37.192000") (Some (str "me"))) (quantities demo_log) logs.
Proof.
  destruct demo_user as [U1 U2]. destruct demo_units as [T Q]. exact (C95_file demo_float demo_start demo_log _ _ _ _ _ _ demo_head demo_started demo_table ltac:(cbn; lia) U1 U2 T Q).
Qed.
Example C95_values : match protochips_reader demo_float demo_start false (whole demo_log) with Ok [a; b] => l_data a = map str ["25"; "26"; "27"; "28"; "29"]%string /\ l_title b = str "Channel B Current (Amps)" /\ Qred (l_scale a) = (1 # 40)%Q /\ l_notes a = [(str "10", str "note"); (str "60", str " ")] /\ l_calibration a = str "E:\x_8.cal" | _ => False end.
Proof. vm_compute. repeat split; reflexivity. Qed.
Definition short_log : log_file := {| g_first := g_first demo_log; g_names := g_names demo_log; g_lines := g_lines demo_log; g_params := g_params demo_log; g_next := g_next demo_log; g_rest := map row (firstn 3 demo_rows) |}.
Example C95_few_demo : protochips_reader demo_float demo_start false (whole short_log) = Err IOError.
Proof. vm_compute. reflexivity. Qed.
Example C95_refused_demo : protochips_reader demo_float demo_start false [str "Time,a,b"; str "0,1,2"] = Err IOError.
Proof. vm_compute. reflexivity. Qed.
(** A log without a user: the row at time 0 is lost *)
Definition old_log : list pystr := g_first demo_log :: g_lines demo_log ++ g_rest demo_log.
Example C95_first_row_demo : match protochips_reader demo_float demo_start false old_log with Ok (a :: _) => l_data a = map str ["26"; "27"; "28"; "29"]%string /\ l_user a = None | _ => False end.
Proof. vm_compute. split; reflexivity. Qed.
(** Without notes every row has the note False *)
Theorem C95_no_notes_refuted : exists logs a, protochips_reader demo_float demo_start false (g_first demo_log :: g_lines demo_log ++ g_next demo_log :: map row [["0"; ""; "25"; "1"]; ["10"; ""; "26"; "1"]; ["40"; ""; "27"; "2"]; ["60"; " "; "28"; "3"]]%string) = Ok (a :: logs) /\ l_notes a = map (fun t => (str t, str "False")) ["0"; "10"; "40"; "60"]%string.
Proof. eexists. eexists. vm_compute. split; reflexivity. Qed.
(** Names that differ in blanks only: both have the data of the first *)
Theorem C95_names_refuted : exists a b, protochips_reader demo_float demo_start false (str "Time,Notes,A Current,A_Current" :: g_lines demo_log ++ [str "0,Temperature A_Current units = x,0,0"; str "0,A_Current units = V,0,0"] ++ g_next demo_log :: map row demo_rows) = Ok [a; b] /\ l_data a = l_data b /\ l_data b <> map str ["1"; "1"; "2"; "3"; "3"]%string.
Proof. eexists. eexists. vm_compute. split; [reflexivity|]. split; [reflexivity|discriminate]. Qed.
Print Assumptions C95_parameter.
Print Assumptions C95_note.
Print Assumptions C95_header.
Print Assumptions C95_file.
Print Assumptions C95_first_row_refuted.
Print Assumptions C95_few.
Print Assumptions C95_lazy.
Print Assumptions C95_refused.
Print Assumptions C95_no_notes_refuted.
Print Assumptions C95_names_refuted.
