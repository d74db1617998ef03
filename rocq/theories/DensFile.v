(** Property C94: DENS heater logs as a whole. *)
From Coq Require Import QArith.
From Verif Require Import Base Text Bytes HierModel SfsModel RplModel RplProps RenModel QuadModel HamText SurQuantity LogModel DensProps DensText.
Local Open Scope Z_scope.

(** A line, without the comment after # *)
Definition uncommented (line text : pystr) : Prop := ~ In 35 text /\ (line = text \/ exists comment, line = text ++ 35 :: comment).
Lemma before_text : forall line text, uncommented line text -> before 35 line = text.
Proof.
  intros line text [N H]. destruct H as [-> | [c ->]]; [apply before_id; exact N|]. induction text as [|x text IH]; [reflexivity|]. cbn [app before]. replace (x =? 35) with false by (destruct (x =? 35) eqn:E; [exfalso; apply N; left; lia|reflexivity]). rewrite IH; [reflexivity|]. intro K. apply N. right. exact K.
Qed.
Section File.
Variable float : pystr -> option Q.
Variable fit : list Q -> Q * Q.
(** * Specification *)
(** Words between blanks *)
Inductive words : pystr -> list pystr -> Prop :=
| no_words : forall b, blank_text b -> words b []
| one_word : forall b w rest ws, blank_text b -> w <> [] -> Forall (fun c => is_space c = false) w -> (rest = [] \/ exists c r, rest = c :: r /\ is_space c = true) -> words rest ws -> words (b ++ w ++ rest) (w :: ws).
Definition moment (s : pystr) (t : Q) : Prop := (exists us, is_clock s us /\ t = us # 1000000) \/ ((forall us, ~ is_clock s us) /\ float s = Some t).
Definition is_row (line : pystr) (t v : Q) : Prop := exists text ws a b, uncommented line text /\ words text ws /\ nth_error ws 1 = Some a /\ nth_error ws 3 = Some b /\ moment a t /\ float b = Some v.
Definition is_empty (line : pystr) : Prop := exists text, uncommented line text /\ blank_text text.
Inductive rows : list pystr -> list (Q * Q) -> Prop :=
| rows_end : rows [] []
| rows_empty : forall line lines l, is_empty line -> rows lines l -> rows (line :: lines) l
| rows_row : forall line lines t v l, is_row line t v -> rows lines l -> rows (line :: lines) ((t, v) :: l).
(** name = value, four times *)
Definition is_item (s : pystr) (q : Q) : Prop := exists name value, s = name ++ 61 :: value /\ ~ In 61 (name ++ value) /\ float value = Some q.
Definition calibration_line (line : pystr) (cs : list Q) : Prop := exists a b c d, line ++ [10] = a ++ [9] ++ b ++ [9] ++ c ++ [9] ++ d /\ ~ In 9 (a ++ b ++ c ++ d) /\ Forall2 is_item [a; b; c; d] cs.
Definition padded (s t : pystr) : Prop := exists a b, s = a ++ t ++ b /\ blank_text a /\ blank_text b.
Definition titles : pystr := str "sample" ++ [9] ++ str "time" ++ [9] ++ str "Tset[C]" ++ [9] ++ str "Tmeas[C]" ++ [9] ++ str "Rheat[ohm]" ++ [9] ++ str "Vheat[V]" ++ [9] ++ str "Iheat[mA]" ++ [9] ++ str "Pheat [mW]" ++ [9] ++ str "c".

(** * Rows *)
Lemma word_run : forall w cur rest, Forall (fun c => is_space c = false) w -> word_list (w ++ rest) cur = word_list rest (rev w ++ cur).
Proof. intros w cur rest H. revert cur. induction H as [|c w C H IH]; intro cur; [reflexivity|]. cbn [app word_list]. rewrite C. rewrite IH. cbn [rev]. rewrite <- app_assoc. reflexivity. Qed.
Lemma blank_run : forall b rest, blank_text b -> word_list (b ++ rest) [] = word_list rest [].
Proof. intros b rest H. induction H as [|c b C H IH]; [reflexivity|]. cbn [app word_list]. rewrite C. exact IH. Qed.
Lemma words_list : forall s ws, words s ws -> word_list s [] = ws.
Proof.
  intros s ws W. induction W as [b B|b w rest ws B N F R W IH].
  - rewrite <- (app_nil_r b), blank_run by exact B. reflexivity.
  - rewrite blank_run, word_run by assumption. rewrite app_nil_r. assert (NE : rev w <> []) by (intro K; apply N; rewrite <- (rev_involutive w), K; reflexivity). destruct R as [-> | (c & r & -> & C)].
    + cbn [word_list] in IH |- *. subst ws. destruct (rev w) eqn:E; [congruence|]. rewrite <- E, rev_involutive. reflexivity.
    + cbn [word_list] in IH |- *. rewrite C in IH |- *. destruct (rev w) eqn:E; [congruence|]. rewrite <- E, rev_involutive, IH. reflexivity.
Qed.
Lemma moment_seconds : forall s t, moment s t <-> seconds_of float s = Some t.
Proof.
  intros s t. unfold seconds_of. split.
  - intros [(us & C & ->)|[N F]]; [apply C94_clock in C; rewrite C; reflexivity|]. destruct (clock s) as [us|] eqn:E; [apply C94_clock in E; destruct (N us E)|exact F].
  - intro H. destruct (clock s) as [us|] eqn:E; [injection H as <-; left; exists us; split; [apply C94_clock; exact E|reflexivity]|]. right. split; [|exact H]. intros us C. apply C94_clock in C. rewrite E in C. discriminate C.
Qed.
Lemma row_read : forall line t v, is_row line t v -> dens_row float line = Some (Ok (t, v)).
Proof.
  intros line t v (text & ws & a & b & U & W & A & B & M & F). unfold dens_row. rewrite (before_text _ _ U), (words_list _ _ W). destruct ws as [|w ws]; [discriminate A|]. rewrite A, B. apply moment_seconds in M. rewrite M, F. reflexivity.
Qed.
Lemma empty_read : forall line, is_empty line -> dens_row float line = None.
Proof. intros line (text & U & B). unfold dens_row. rewrite (before_text _ _ U), (words_list text []) by (constructor; exact B). reflexivity. Qed.
Lemma rows_read : forall lines l, rows lines l -> dens_rows float lines = Ok l.
Proof.
  intros lines l R. induction R as [|line lines l E R IH|line lines t v l H R IH]; [reflexivity| |]; cbn [dens_rows].
  - rewrite empty_read by exact E. exact IH.
  - rewrite (row_read _ _ _ H). cbn [bind]. rewrite IH. reflexivity.
Qed.
(** * The head of the file *)
Lemma strip_blank : forall s, blank_text s -> strip s = [].
Proof. intros s B. unfold strip. rewrite <- (app_nil_r s), lstrip_spaces by exact B. reflexivity. Qed.
Lemma strip_none : forall s, strip s = [] -> blank_text s.
Proof.
  intros s H. destruct (lstrip_split s) as [b [B E]]. unfold strip, rstrip in H. assert (K : lstrip (rev (lstrip s)) = []) by (rewrite <- (rev_involutive (lstrip (rev (lstrip s)))), H; reflexivity).
  destruct (lstrip_split (rev (lstrip s))) as [b2 [B2 E2]]. rewrite K, app_nil_r in E2. rewrite E. apply Forall_app. split; [exact B|]. rewrite <- (rev_involutive (lstrip s)), E2. apply Forall_rev. exact B2.
Qed.
Lemma skip_blank : forall bs l file, Forall blank_text bs -> ~ blank_text l -> skip_empty (bs ++ l :: file) = Ok (newline l, file).
Proof.
  intros bs l file F N. induction F as [|b bs B F IH]; cbn [app skip_empty]; [|rewrite (strip_blank b B); exact IH]. destruct (strip l) eqn:E; [|reflexivity]. exfalso. apply N. apply strip_none. exact E.
Qed.
Lemma strip_inner : forall s t, trimmed t -> t <> [] -> padded s t -> strip s = t.
Proof.
  intros s t T N (a & b & -> & A & B). unfold strip. rewrite lstrip_spaces by exact A. destruct t as [|c t]; [congruence|]. destruct T as [T1 T2]. cbn [app]. rewrite lstrip_id by exact T1. change (c :: t ++ b) with ((c :: t) ++ b). apply rstrip_end; [|exact B]. right. destruct (exists_last (l := c :: t)) as [i [z E]]; [discriminate|]. exists i, z. rewrite E in T2 |- *. rewrite last_last in T2. split; [reflexivity|exact T2].
Qed.
Lemma item_read : forall s q, is_item s q -> (let! c := nth_cell (split_char 61 s) 1 in match float c with Some q => Ok q | None => bad_file end) = Ok q.
Proof.
  intros s q (name & value & -> & N & F). rewrite split_char_app by (intro K; apply N; apply in_or_app; left; exact K). rewrite split_char_nosep by (intro K; apply N; apply in_or_app; right; exact K). cbn [nth_cell nth_error bind]. rewrite F. reflexivity.
Qed.
Lemma calibration_read : forall line cs, calibration_line line cs -> calibration float (newline line) = Ok cs.
Proof.
  intros line cs (a & b & c & d & E & N & F). unfold calibration, newline. rewrite E. rewrite !in_app_iff in N. cbn [app]. rewrite !split_char_app by tauto. rewrite split_char_nosep by tauto.
  inversion F as [|? qa ? ? Fa F1]; subst. inversion F1 as [|? qb ? ? Fb F2]; subst. inversion F2 as [|? qc ? ? Fc F3]; subst. inversion F3 as [|? qd ? ? Fd F4]; subst. inversion F4; subst. cbn [mapM]. rewrite (item_read _ _ Fa), (item_read _ _ Fb), (item_read _ _ Fc), (item_read _ _ Fd). reflexivity.
Qed.
Definition version_name : pystr := str "Digiheater 3.1".
(** The parts of a file *)
Record parts := { p_blank : list pystr; p_date : pystr; p_version : pystr; p_calibration : pystr; p_delta : pystr; p_header : pystr; p_lines : list pystr }.
Definition whole (p : parts) : list pystr := p_blank p ++ (p_date p ++ [9] ++ p_version p) :: p_calibration p :: p_delta p :: p_header p :: p_lines p.
Definition good (p : parts) (date time : pystr) (cs : list Q) (l : list (Q * Q)) : Prop :=
  Forall blank_text (p_blank p) /\ ~ In 9 (p_date p ++ p_version p) /\ is_date (p_date p) date time /\ padded (p_version p) version_name /\ calibration_line (p_calibration p) cs /\ padded (p_header p) titles /\ rows (p_lines p) l.
Lemma head_read : forall p date time cs l, good p date time cs l ->
  skip_empty (whole p) = Ok (newline (p_date p ++ [9] ++ p_version p), p_calibration p :: p_delta p :: p_header p :: p_lines p) /\ split_char 9 (newline (p_date p ++ [9] ++ p_version p)) = [p_date p; p_version p ++ [10]] /\ strip (p_version p ++ [10]) = version_name /\ strip (newline (p_header p)) = dens_header /\ calibration float (newline (p_calibration p)) = Ok cs /\ dens_date (p_date p) = Some (date, time) /\ dens_rows float (p_lines p) = Ok l.
Proof.
  intros p date time cs l (B & N & D & V & C & H & R). rewrite in_app_iff in N.
  assert (NV : strip (p_version p ++ [10]) = version_name /\ strip (newline (p_header p)) = dens_header).
  { split; apply strip_inner; try discriminate.
    - split; reflexivity.
    - destruct V as (a & b & -> & A & B2). exists a, (b ++ [10]). rewrite <- !app_assoc. split; [reflexivity|]. split; [exact A|]. apply Forall_app. split; [exact B2|repeat constructor].
    - split; reflexivity.
    - destruct H as (a & b & -> & A & B2). exists a, (b ++ [10]). unfold newline. rewrite <- !app_assoc. split; [reflexivity|]. split; [exact A|]. apply Forall_app. split; [exact B2|repeat constructor]. }
  split; [|split; [|split; [exact (proj1 NV)|split; [exact (proj2 NV)|split; [apply calibration_read; exact C|split; [apply C94_date; exact D|apply rows_read; exact R]]]]]].
  - apply skip_blank; [exact B|]. intro K. apply Forall_app in K. destruct K as [_ K]. inversion K as [|? ? _ K2]; subst. destruct V as (a & b & E & _ & _). rewrite E in K2. apply Forall_app in K2. destruct K2 as [_ K2]. apply Forall_app in K2. destruct K2 as [K2 _]. inversion K2 as [|? ? K3 _]. discriminate K3.
  - unfold newline. rewrite <- app_assoc. cbn [app]. rewrite split_char_app by tauto. rewrite split_char_nosep; [reflexivity|]. rewrite in_app_iff. intros [K|[K|[]]]; [tauto|lia].
Qed.
(** A file with two rows or more is read *)
Theorem C94_file : forall p date time cs l, good p date time cs l -> (2 <= List.length l)%nat ->
  exists d, dens_reader float fit false (whole p) = Ok d /\ d_data d = map snd l /\ d_size d = zlen l /\ List.length (d_times d) = List.length l /\ (forall i t, nth_error (map fst l) i = Some t -> at_pos (d_times d) i (t + 86400 * inject_Z (falls (map fst l) i))) /\
    (d_offset d, d_scale d) = fit (d_times d) /\ d_date d = date /\ d_time d = time /\ d_calibration d = cs /\ d_version d = p_version p ++ [10].
Proof.
  intros p date time cs l G L. destruct (head_read p date time cs l G) as (E1 & E2 & E3 & E4 & E5 & E6 & E7). unfold dens_reader. rewrite E1. cbn [bind]. rewrite E2, E3. change (eqb_str version_name (str "Digiheater 3.1")) with true. cbn [negb readline]. rewrite E5. cbn [bind]. rewrite E6, E4, eqb_str_refl. cbn [negb]. rewrite E7.
  destruct l as [|x [|y l]]; [cbn [List.length] in L; lia|cbn [List.length] in L; lia|]. destruct (C94_rollover (map fst (x :: y :: l))) as [RL RT]. rewrite map_length in RL. eexists. split; [reflexivity|]. cbn [d_data d_size d_times d_offset d_scale d_date d_time d_calibration d_version]. split; [reflexivity|]. split; [unfold zlen; rewrite RL; reflexivity|]. split; [exact RL|]. split; [exact RT|]. split; [symmetry; apply surjective_pairing|]. auto.
Qed.
(** Files with fewer rows, and files without lines, do not fail as files that are no logs do *)
Theorem C94_few_refuted : forall p date time cs l, good p date time cs l -> (l = [] -> dens_reader float fit false (whole p) = Err TypeError) /\ (List.length l = 1%nat -> dens_reader float fit false (whole p) = Err ValueError).
Proof.
  intros p date time cs l G. destruct (head_read p date time cs l G) as (E1 & E2 & E3 & E4 & E5 & E6 & E7). unfold dens_reader. rewrite E1. cbn [bind]. rewrite E2, E3. change (eqb_str version_name (str "Digiheater 3.1")) with true. cbn [negb readline]. rewrite E5. cbn [bind]. rewrite E6, E4, eqb_str_refl. cbn [negb]. rewrite E7.
  split; intro H; [subst l; reflexivity|]. destruct l as [|x [|y l]]; try discriminate H. reflexivity.
Qed.
Theorem C94_empty_refuted : forall file, Forall blank_text file -> dens_reader float fit false file = Err OutOfFuel.
Proof. intros file F. unfold dens_reader. assert (E : skip_empty file = Err OutOfFuel) by (induction F as [|b file B F IH]; [reflexivity|]; cbn [skip_empty]; rewrite (strip_blank b B); exact IH). rewrite E. reflexivity. Qed.
Theorem C94_item_refuted : forall bs date version calib file, Forall blank_text bs -> ~ In 9 (date ++ version) -> padded version version_name -> ~ In 61 calib -> dens_reader float fit false (bs ++ (date ++ [9] ++ version) :: calib :: file) = Err IndexError.
Proof.
  intros bs date version calib file B N V C. rewrite in_app_iff in N. unfold dens_reader. rewrite skip_blank; [|exact B|].
  - cbn [bind]. unfold newline at 1. rewrite <- app_assoc. cbn [app]. rewrite split_char_app by tauto. rewrite split_char_nosep by (rewrite in_app_iff; intros [K|[K|[]]]; [tauto|lia]).
    assert (S : strip (version ++ [10]) = version_name). { apply strip_inner; [split; reflexivity|discriminate|]. destruct V as (a & b & -> & A & B2). exists a, (b ++ [10]). rewrite <- !app_assoc. split; [reflexivity|]. split; [exact A|]. apply Forall_app. split; [exact B2|repeat constructor]. }
    rewrite S. change (eqb_str version_name (str "Digiheater 3.1")) with true. cbn [negb readline].
    assert (K : calibration float (newline calib) = Err IndexError).
    { unfold calibration. destruct (split_char 9 (newline calib)) as [|w ws] eqn:E; [destruct (split_char_ne _ _ E)|]. cbn [mapM]. assert (NW : ~ In 61 w). { intro K. apply C. assert (I : In 61 (newline calib)). { rewrite <- (join_split 9 (newline calib)), E. destruct ws as [|w2 ws]; [exact K|]. cbn [join_char]. apply in_or_app. left. exact K. } apply in_app_or in I. destruct I as [I|[I|[]]]; [exact I|lia]. }
      rewrite (split_char_nosep 61 w NW). reflexivity. }
    destruct (readline file) as [u f]. destruct (readline f) as [u2 f2]. rewrite K. reflexivity.
  - intro K. apply Forall_app in K. destruct K as [_ K]. inversion K as [|? ? _ K2]; subst. destruct V as (a & b & E & _ & _). rewrite E in K2. apply Forall_app in K2. destruct K2 as [_ K2]. apply Forall_app in K2. destruct K2 as [K2 _]. inversion K2 as [|? ? K3 _]. discriminate K3.
Qed.
(** What is read as a log is one *)
Theorem C94_only : forall file d, dens_reader float fit false file = Ok d ->
  exists bs first calib delta header lines date version, file = bs ++ first :: calib :: delta :: header :: lines /\ Forall blank_text bs /\ first ++ [10] = date ++ [9] ++ version /\ strip version = version_name /\ is_date date (d_date d) (d_time d) /\ strip header = titles /\ zlen (d_calibration d) = 4 /\ (2 <= List.length (d_data d))%nat /\ d_version d = version.
Proof.
  intros file d H. unfold dens_reader in H. destruct (skip_empty file) as [[line rest]|e] eqn:S; [|discriminate H]. cbn [bind] in H.
  assert (SK : exists bs first, Forall blank_text bs /\ file = bs ++ first :: rest /\ line = newline first).
  { clear H. revert line rest S. induction file as [|l file IH]; intros line rest S; [discriminate S|]. cbn [skip_empty] in S. destruct (strip l) eqn:E; [|injection S as <- <-; exists [], l; repeat split; constructor]. destruct (IH _ _ S) as (bs & first & B & -> & ->). exists (l :: bs), first. repeat split; [constructor; [apply strip_none; exact E|exact B]]. }
  destruct SK as (bs & first & B & -> & ->). destruct (split_char 9 (newline first)) as [|date [|version [|? ?]]] eqn:E; try discriminate H.
  destruct (eqb_str (strip version) (str "Digiheater 3.1")) eqn:V; [|discriminate H]. apply eqb_str_spec in V. cbn [negb] in H.
  destruct rest as [|calib rest]; [discriminate H|]. cbn [readline] in H. destruct (readline rest) as [delta r2] eqn:R2. destruct (readline r2) as [header r3] eqn:R3. destruct (calibration float (newline calib)) as [c|e] eqn:C; [|discriminate H]. cbn [bind] in H. destruct (dens_date date) as [[dt tm]|] eqn:D; [|discriminate H]. destruct (eqb_str (strip header) dens_header) eqn:T; [|discriminate H]. apply eqb_str_spec in T. cbn [negb] in H.
  destruct rest as [|delta0 rest]; [cbn [readline] in R2; injection R2 as <- <-; cbn [readline] in R3; injection R3 as <- <-; discriminate T|]. cbn [readline] in R2. injection R2 as <- <-. destruct rest as [|header0 rest]; [cbn [readline] in R3; injection R3 as <- <-; discriminate T|]. cbn [readline] in R3. injection R3 as <- <-.
  destruct (dens_rows float rest) as [l|] eqn:R; [|discriminate H]. destruct l as [|x [|y l]]; try discriminate H. injection H as <-. cbn [d_data d_size d_times d_offset d_scale d_date d_time d_calibration d_version].
  exists bs, first, calib, delta0, header0, rest, date, version. split; [reflexivity|]. split; [exact B|]. split; [pose proof (join_split 9 (newline first)) as J; rewrite E in J; cbn [join_char] in J; symmetry; exact J|]. split; [exact V|]. split; [apply C94_date; exact D|]. split.
  { assert (ST : strip (newline header0) = strip header0). { unfold strip. unfold newline. destruct (lstrip_split header0) as [b [Bb Eb]]. destruct (lstrip header0) as [|z r] eqn:Z; [rewrite Eb, app_nil_r; rewrite lstrip_spaces by exact Bb; reflexivity|]. assert (ZN : is_space z = false). { destruct (is_space z) eqn:K; [|reflexivity]. exfalso. clear - Z K. revert r Z. induction header0 as [|h0 t IH]; intros r Z; [discriminate Z|]. cbn [lstrip] in Z. destruct (is_space h0) eqn:X; [exact (IH r Z)|]. injection Z as -> ->. congruence. } rewrite Eb, <- app_assoc, lstrip_spaces by exact Bb. cbn [app]. rewrite lstrip_id by exact ZN. unfold rstrip. change (z :: r ++ [10]) with ((z :: r) ++ [10]). rewrite rev_app_distr. reflexivity. }
    rewrite <- ST. exact T. }
  split; [|split; [cbn [map List.length]; lia|reflexivity]]. unfold calibration in C. destruct (mapM _ _) as [l4|] in C; [|discriminate C]. cbn [bind] in C. destruct (List.length l4 =? 4)%nat eqn:L4; [|discriminate C]. injection C as <-. apply Nat.eqb_eq in L4. unfold zlen. rewrite L4. reflexivity.
Qed.
End File.

(** * Examples *)
Definition demo_float (s : pystr) : option Q := match undec (filter (fun c => negb (is_space c)) s) with Some z => Some (inject_Z z) | None => None end.
Definition demo_fit (l : list Q) : Q * Q := (hd 0 l, 1)%Q.
Definition tabs (l : list string) : pystr := join_char 9 (map str l).
Definition demo_lines : list pystr := [tabs ["1"; "23:59:59.5"; "25"; "26"; "1"]%string; str "# nothing"; tabs ["2"; "00:00:00.5"; "25"; "27"; "1 # x"]%string; []; tabs ["3"; "7"; "25"; "28"]%string].
Definition demo_parts : parts := {| p_blank := [[]; str "  "]; p_date := str "6/11/'15 10:27"; p_version := str "Digiheater 3.1 "; p_calibration := tabs ["R0=31"; "a=2"; "b=3"; "c=4"]%string; p_delta := str "delta"; p_header := titles; p_lines := demo_lines |}.
Lemma words_of : forall s, exists ws, words s ws.
Proof.
  assert (G : forall n s, (List.length s <= n)%nat -> exists ws, words s ws).
  { induction n as [|n IH]; intros s L. { destruct s; [|cbn [List.length] in L; lia]. exists []. constructor. constructor. }
    destruct (lstrip_split s) as [b [B E]]. destruct (lstrip s) as [|c r] eqn:LS; [exists []; rewrite E, app_nil_r; constructor; exact B|].
    assert (C : is_space c = false). { destruct (is_space c) eqn:K; [|reflexivity]. exfalso. clear - LS K. revert r LS. induction s as [|h t IH]; intros r LS; [discriminate LS|]. cbn [lstrip] in LS. destruct (is_space h) eqn:X; [exact (IH r LS)|]. injection LS as -> ->. congruence. }
    assert (RUN : exists w rest, r = w ++ rest /\ Forall (fun c => is_space c = false) w /\ (rest = [] \/ exists c0 r0, rest = c0 :: r0 /\ is_space c0 = true)).
    { clear. induction r as [|x r (w & rest & -> & F & D)]; [exists [], []; repeat split; [constructor|left; reflexivity]|]. destruct (is_space x) eqn:X; [exists [], (x :: w ++ rest); repeat split; [constructor|right; exists x, (w ++ rest); auto]|]. exists (x :: w), rest. repeat split; [constructor; assumption|exact D]. }
    destruct RUN as (w & rest & -> & F & D). destruct (IH rest) as [ws W]; [rewrite E, app_length in L; cbn [List.length] in L; rewrite app_length in L; lia|]. exists ((c :: w) :: ws). rewrite E. change (b ++ c :: w ++ rest) with (b ++ (c :: w) ++ rest). constructor; [exact B|discriminate|constructor; assumption|exact D|exact W]. }
  intro s. exact (G _ s (le_n _)).
Qed.
Lemma words_is : forall s ws, word_list s [] = ws -> words s ws.
Proof. intros s ws <-. destruct (words_of s) as [ws W]. rewrite (words_list s ws W). exact W. Qed.
Ltac no_char := let H := fresh in intro H; repeat (destruct H as [H|H]; [discriminate H|]); exact H.
Example C94_demo : good demo_float demo_parts (str "2015-11-06") (str "10:27:00") [31; 2; 3; 4]%Q [(86399500000 # 1000000, 26); (500000 # 1000000, 27); (7, 28)]%Q.
Proof.
  unfold good. split; [repeat constructor|]. split; [vm_compute; no_char|]. split; [apply C94_date; vm_compute; reflexivity|]. split; [exists [], [32]; repeat split; repeat constructor|]. split.
  { exists (str "R0=31"), (str "a=2"), (str "b=3"), (str "c=4" ++ [10]). split; [reflexivity|]. split; [vm_compute; no_char|]. repeat constructor; [exists (str "R0"), (str "31")|exists (str "a"), (str "2")|exists (str "b"), (str "3")|exists (str "c"), (str "4" ++ [10])]; (split; [reflexivity|split; [vm_compute; no_char|vm_compute; reflexivity]]). }
  split; [exists [], []; repeat split; try constructor; rewrite app_nil_r; reflexivity|].
  unfold p_lines, demo_parts, demo_lines.
  apply rows_row. { exists (tabs ["1"; "23:59:59.5"; "25"; "26"; "1"]%string), (map str ["1"; "23:59:59.5"; "25"; "26"; "1"]%string), (str "23:59:59.5"), (str "26"). split; [split; [vm_compute; no_char|left; reflexivity]|]. split; [apply words_is; vm_compute; reflexivity|]. repeat split; try reflexivity. apply moment_seconds. vm_compute. reflexivity. }
  apply rows_empty. { exists []. split; [split; [intros []|right; exists (str " nothing"); reflexivity]|constructor]. }
  apply rows_row. { exists (tabs ["2"; "00:00:00.5"; "25"; "27"; "1 "]%string), (map str ["2"; "00:00:00.5"; "25"; "27"; "1"]%string), (str "00:00:00.5"), (str "27"). split; [split; [vm_compute; no_char|right; exists (str " x"); reflexivity]|]. split; [apply words_is; vm_compute; reflexivity|]. repeat split; try reflexivity. apply moment_seconds. vm_compute. reflexivity. }
  apply rows_empty. { exists []. split; [split; [intros []|left; reflexivity]|constructor]. }
  apply rows_row; [|constructor]. exists (tabs ["3"; "7"; "25"; "28"]%string), (map str ["3"; "7"; "25"; "28"]%string), (str "7"), (str "28"). split; [split; [vm_compute; no_char|left; reflexivity]|]. split; [apply words_is; vm_compute; reflexivity|]. repeat split; try reflexivity. apply moment_seconds. vm_compute. reflexivity.
Qed.
Example C94_item_demo : dens_reader demo_float demo_fit false (map str ["6/11/'15 10:27"; "R0 31"]%string) = Err OtherError /\ dens_reader demo_float demo_fit false [tabs ["6/11/'15 10:27"; "Digiheater 3.1"]%string; str "R0 31"] = Err IndexError.
Proof. split; vm_compute; reflexivity. Qed.
Example C94_whole_demo : match dens_reader demo_float demo_fit false (whole demo_parts) with Ok d => map Qred (d_times d) = [172799 # 2; 172801 # 2; 86407]%Q /\ d_data d = [26; 27; 28]%Q /\ d_version d = str "Digiheater 3.1 " ++ [10] | Err _ => False end.
Proof. vm_compute. repeat split; reflexivity. Qed.
Print Assumptions C94_file.
Print Assumptions C94_few_refuted.
Print Assumptions C94_empty_refuted.
Print Assumptions C94_item_refuted.
Print Assumptions C94_only.
