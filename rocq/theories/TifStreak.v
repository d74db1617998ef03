(** Streak images of Hamamatsu in TIFF files (C133) and conversion of metadata (C134). *)
From Coq Require Import QArith Qfield.
From Verif Require Import Base Text HierModel HierProps HierProof SfsModel ArrayModel TifModel TifCal TifRead.
Local Open Scope Z_scope.

(** * C133: the description *)
(** Sections in lines, entries between commas: [name],key="value",key="value" *)
Definition entry (p : pystr * pystr) : pystr := fst p ++ [61; 34] ++ snd p ++ [34].
Definition section_line (s : pystr * list (pystr * pystr)) : pystr := [91] ++ fst s ++ [93] ++ List.concat (map (fun p => 44 :: entry p) (snd s)).
Fixpoint crlf (l : list pystr) : pystr := match l with [] => [] | s :: l => s ++ [13; 10] ++ crlf l end.
Definition clean (s : pystr) : Prop := Forall (fun c => ~ In c [10; 13; 34; 44; 61; 32; 91; 93]) s.

Lemma line_char : forall c s acc, c <> 13 -> c <> 10 -> split_lines (c :: s) acc = split_lines s (c :: acc).
Proof.
  intros c s acc N1 N2. destruct c as [|p|p]; try reflexivity.
  do 5 (try (destruct p as [p|p|]; try reflexivity; try (exfalso; apply N1; reflexivity); try (exfalso; apply N2; reflexivity))).
Qed.
Lemma line_chars : forall l s acc, ~ In 13 l -> ~ In 10 l -> split_lines (l ++ s) acc = split_lines s (rev l ++ acc).
Proof.
  induction l as [|c l IH]; intros s acc H1 H2; [reflexivity|]. cbn [app]. rewrite line_char by (intro Z; subst; first [apply H1; left; reflexivity|apply H2; left; reflexivity]).
  rewrite IH by (intro Z; first [apply H1; right; exact Z|apply H2; right; exact Z]). cbn [rev]. rewrite <- app_assoc. reflexivity.
Qed.
Lemma lines_back : forall ls, Forall (fun l => ~ In 13 l /\ ~ In 10 l) ls -> split_lines (crlf ls) [] = ls.
Proof.
  induction ls as [|l ls IH]; intro H; [reflexivity|]. inversion H as [|? ? [H1 H2] H3]; subst. cbn [crlf]. rewrite line_chars by assumption. rewrite app_nil_r. change ([13; 10] ++ crlf ls) with (13 :: 10 :: crlf ls).
  cbn [split_lines]. rewrite rev_involutive, IH by exact H3. reflexivity.
Qed.
Definition word (w : pystr) : Prop := ~ In 44 w /\ match w with c :: _ => c <> 34 | [] => False end.
Lemma in_field : forall w fs f, ~ In 44 w -> fold_left step w (fs, f, InField) = (fs, rev w ++ f, InField).
Proof.
  induction w as [|c w IH]; intros fs f H; [reflexivity|]. cbn [fold_left step]. destruct (Z.eqb_spec c 44) as [->|N]; [exfalso; apply H; left; reflexivity|].
  rewrite IH by (intro Z; apply H; right; exact Z). cbn [rev]. rewrite <- app_assoc. reflexivity.
Qed.
Lemma one_word : forall w fs, word w -> fold_left step w (fs, [], AtStart) = (fs, rev w, InField).
Proof.
  intros [|c w] fs [H1 H2]; [contradiction|]. cbn [fold_left step]. destruct (Z.eqb_spec c 34) as [->|N]; [contradiction|]. destruct (Z.eqb_spec c 44) as [->|M]; [exfalso; apply H1; left; reflexivity|].
  rewrite in_field by (intro Z; apply H1; right; exact Z). reflexivity.
Qed.
Lemma words : forall ws w fs, word w -> Forall word ws -> exists fields f, fold_left step (w ++ List.concat (map (cons 44) ws)) (fs, [], AtStart) = (fields, f, InField) /\ fields ++ [rev f] = fs ++ w :: ws.
Proof.
  induction ws as [|v ws IH]; intros w fs HW H; rewrite fold_left_app, one_word by exact HW.
  - exists fs, (rev w). split; [reflexivity|]. rewrite rev_involutive. reflexivity.
  - inversion H as [|? ? HV H']; subst. cbn [map List.concat app fold_left step]. change (44 =? 44) with true. cbv iota. rewrite rev_involutive. destruct (IH v (fs ++ [w]) HV H') as (fields & f & A & B).
    exists fields, f. split; [exact A|]. rewrite B, <- app_assoc. reflexivity.
Qed.
Lemma csv_words : forall rows, Forall (fun ws => match ws with w :: ws => word w /\ Forall word ws | [] => False end) rows ->
  csv_rows (map (fun ws => match ws with w :: ws => w ++ List.concat (map (cons 44) ws) | [] => [] end) rows) ([], [], AtStart) = rows.
Proof.
  induction rows as [|ws rows IH]; intro H; [reflexivity|]. inversion H as [|? ? HW H']; subst. destruct ws as [|w ws]; [contradiction|]. destruct HW as [HW HS]. cbn [map csv_rows].
  destruct (words ws w [] HW HS) as (fields & f & A & B). rewrite A. rewrite IH by exact H'. destruct w as [|c w]; [destruct (proj2 HW)|]. cbn [app] in *. rewrite B. reflexivity.
Qed.
Lemma lstrip_keep : forall cs s, Forall (fun c => ~ In c cs) s -> lstrip_of cs s = s.
Proof.
  intros cs [|c s] H; [reflexivity|]. inversion H as [|? ? HC _]; subst. cbn [lstrip_of]. destruct (existsb (Z.eqb c) cs) eqn:X; [|reflexivity]. apply existsb_exists in X. destruct X as (d & I & Q). apply Z.eqb_eq in Q. subst d. contradiction.
Qed.
Lemma strip_both : forall cs a b s, In a cs -> In b cs -> Forall (fun c => ~ In c cs) s -> strip_of cs (a :: s ++ [b]) = s.
Proof.
  intros cs a b s HA HB H. assert (X : forall c, In c cs -> existsb (Z.eqb c) cs = true) by (intros c I; apply existsb_exists; exists c; split; [exact I|apply Z.eqb_refl]).
  unfold strip_of. cbn [lstrip_of]. rewrite X by exact HA. destruct s as [|c s].
  - cbn [app lstrip_of]. rewrite X by exact HB. reflexivity.
  - inversion H as [|? ? HC HS]; subst. cbn [app lstrip_of]. destruct (existsb (Z.eqb c) cs) eqn:Q; [apply existsb_exists in Q; destruct Q as (d & I & Q); apply Z.eqb_eq in Q; subst d; contradiction|].
    change (c :: s ++ [b]) with ((c :: s) ++ [b]). rewrite rev_app_distr. cbn [rev app lstrip_of]. rewrite X by exact HB. change (rev s ++ [c]) with (rev (c :: s)). rewrite lstrip_keep by (apply Forall_rev; exact H). apply rev_involutive.
Qed.
Lemma clean_not : forall s c, clean s -> In c [10; 13; 34; 44; 61; 32; 91; 93] -> ~ In c s.
Proof. intros s c H I J. unfold clean in H. rewrite Forall_forall in H. exact (H c J I). Qed.
Lemma pairs_back : forall ps acc, Forall (fun p => clean (fst p) /\ clean (snd p)) ps -> NoDup (map fst acc ++ map fst ps) ->
  fold_left (fun d e => match split_char 61 e with [k; v] => put k (VText (strip_of [34] v)) d | _ => d end) (map entry ps) acc = acc ++ map (fun p => (fst p, VText (snd p))) ps.
Proof.
  induction ps as [|[k v] ps IH]; intros acc H N; [cbn; rewrite app_nil_r; reflexivity|]. inversion H as [|? ? [HK HV] H']; subst. cbn [fst snd] in HK, HV. cbn [map fold_left].
  assert (S : split_char 61 (entry (k, v)) = [k; 34 :: v ++ [34]]).
  { unfold entry. cbn [fst snd app]. rewrite split_first by (apply clean_not; [exact HK|cbn; tauto]). rewrite split_none; [reflexivity|]. cbn [In]. rewrite in_app_iff. cbn [In]. pose proof (clean_not v 61 HV ltac:(cbn; tauto)). intuition lia. }
  rewrite S. rewrite strip_both by first [left; reflexivity|apply Forall_forall; intros c I [<-|[]]; exact (clean_not v 34 HV ltac:(cbn; tauto) I)].
  cbn [map fst] in N. rewrite put_fresh by (intro K; apply NoDup_remove_2 in N; apply N; apply in_or_app; left; exact K). rewrite IH; [rewrite <- app_assoc; reflexivity|exact H'|]. rewrite map_app. cbn [map fst]. rewrite <- app_assoc. exact N.
Qed.
Definition row_of (s : pystr * list (pystr * pystr)) : list pystr := ([91] ++ fst s ++ [93]) :: map entry (snd s).
Definition section_ok (s : pystr * list (pystr * pystr)) : Prop := clean (fst s) /\ Forall (fun p => clean (fst p) /\ clean (snd p)) (snd s) /\ NoDup (map fst (snd s)).
Definition parsed (s : pystr * list (pystr * pystr)) : pystr * dict := (fst s, map (fun p => (fst p, VText (snd p))) (snd s)).
Lemma rows_back : forall ss acc, Forall section_ok ss -> NoDup (map fst acc ++ map fst ss) -> streak_rows (map row_of ss) acc = Ok (acc ++ map parsed ss).
Proof.
  induction ss as [|s ss IH]; intros acc H N; [cbn; rewrite app_nil_r; reflexivity|]. inversion H as [|? ? (HN & HP & HD) H']; subst. cbn [map streak_rows row_of].
  assert (ST : strip_of [32; 91; 93] ([91] ++ fst s ++ [93]) = fst s).
  { apply (strip_both [32; 91; 93] 91 93); [cbn; tauto|cbn; tauto|]. unfold clean in HN. eapply Forall_impl; [|exact HN]. cbn. intros c A B. apply A. tauto. }
  cbn [row_of]. rewrite ST. unfold streak_pairs. rewrite pairs_back by (exact HP || exact HD). cbn [map fst] in N. rewrite put_fresh by (intro K; apply NoDup_remove_2 in N; apply N; apply in_or_app; left; exact K).
  rewrite IH; [rewrite <- app_assoc; reflexivity|exact H'|]. rewrite map_app. cbn [map fst]. rewrite <- app_assoc. exact N.
Qed.
Lemma entry_word : forall p, clean (fst p) -> clean (snd p) -> word (entry p).
Proof.
  intros [k v] HK HV. cbn [fst snd] in HK, HV. unfold entry. cbn [fst snd]. split.
  - rewrite !in_app_iff. cbn [In]. pose proof (clean_not k 44 HK ltac:(cbn; tauto)). pose proof (clean_not v 44 HV ltac:(cbn; tauto)). intuition lia.
  - destruct k as [|c k]; cbn [app]; [lia|]. intros ->. apply (clean_not _ 34 HK); [cbn; tauto|left; reflexivity].
Qed.
(** Every section and every entry is found, in order, without the quotes *)
Theorem C133_description : forall ss, Forall section_ok ss -> NoDup (map fst ss) -> streak_rows (csv_rows (split_lines (crlf (map section_line ss)) []) ([], [], AtStart)) [] = Ok (map parsed ss).
Proof.
  intros ss H N. rewrite lines_back.
  - assert (R : map section_line ss = map (fun ws => match ws with w :: ws => w ++ List.concat (map (cons 44) ws) | [] => [] end) (map row_of ss)).
    { rewrite map_map. apply map_ext. intro s. unfold section_line, row_of. rewrite map_map, <- !app_assoc. reflexivity. }
    rewrite R, csv_words; [rewrite rows_back by (exact H || exact N); reflexivity|]. apply Forall_forall. intros ws I. apply in_map_iff in I. destruct I as (s & <- & I). rewrite Forall_forall in H. destruct (H s I) as (HN & HP & _). unfold row_of. split.
    + split; [|cbn; lia]. rewrite !in_app_iff. cbn [In]. pose proof (clean_not _ 44 HN ltac:(cbn; tauto)). intuition lia.
    + apply Forall_forall. intros e J. apply in_map_iff in J. destruct J as (p & <- & J). rewrite Forall_forall in HP. destruct (HP p J). apply entry_word; assumption.
  - apply Forall_forall. intros l I. apply in_map_iff in I. destruct I as (s & <- & I). rewrite Forall_forall in H. destruct (H s I) as (HN & HP & _). unfold section_line.
    assert (G : forall c, c = 13 \/ c = 10 -> ~ In c ([91] ++ fst s ++ [93] ++ List.concat (map (fun p => 44 :: entry p) (snd s)))).
    { intros c HC J. rewrite !in_app_iff in J. cbn [In] in J. rewrite in_concat in J. pose proof (clean_not _ c HN ltac:(cbn; lia)). destruct J as [[J|[]]|[J|[[J|[]]|(e & J & K)]]]; try lia; try contradiction.
      apply in_map_iff in J. destruct J as (p & <- & J). rewrite Forall_forall in HP. destruct (HP p J) as [HK HV]. unfold entry in K. cbn [In] in K. rewrite !in_app_iff in K. cbn [In] in K.
      pose proof (clean_not _ c HK ltac:(cbn; lia)). pose proof (clean_not _ c HV ltac:(cbn; lia)). intuition lia. }
    split; apply G; [left|right]; reflexivity.
Qed.
Example c133_description : let ss := [(str "Camera", [(str "Gain", str "3"); (str "Mode", str "x/y")]); (str "Scaling", [(str "ScalingXUnit", str "nm")])] in
  Forall section_ok ss /\ NoDup (map fst ss) /\ crlf (map section_line ss) <> [].
Proof. cbn [map fst]. split; [|split; [|discriminate]]. - repeat constructor; cbn; intuition lia || (repeat constructor; cbn; intuition (try lia; try discriminate)). - repeat constructor; cbn; intuition discriminate. Qed.
(** Commas inside of quotes are not kept (quotes in csv begin fields) *)
Theorem C133_comma_refuted : ~ forall name k v, clean name -> clean k -> ~ In 34 v -> ~ In 61 v -> ~ In 10 v -> ~ In 13 v ->
  streak_rows (csv_rows (split_lines (crlf [section_line (name, [(k, v)])]) []) ([], [], AtStart)) [] = Ok [(name, [(k, VText v)])].
Proof. intro H. specialize (H (str "A") (str "k") (str "a,b") ltac:(repeat constructor; cbn; intuition lia) ltac:(repeat constructor; cbn; intuition lia) ltac:(cbn; intuition lia) ltac:(cbn; intuition lia) ltac:(cbn; intuition lia) ltac:(cbn; intuition lia)). vm_compute in H. discriminate H. Qed.
(** A blank line makes reading fail *)
Lemma blank_row : forall rows d, In [] rows -> streak_rows rows d = Err IndexError.
Proof. induction rows as [|[|k l] rows IH]; intros d H; [destruct H|reflexivity|]. cbn [streak_rows]. apply IH. destruct H as [H|H]; [discriminate|exact H]. Qed.
Lemma plain_state : forall s st, ~ In 34 s -> (snd st = AtStart \/ snd st = InField) -> snd (fold_left step s st) = AtStart \/ snd (fold_left step s st) = InField.
Proof.
  induction s as [|c s IH]; intros [[fs f] w] H HW; [exact HW|]. cbn [fold_left]. apply IH; [intro Z; apply H; right; exact Z|]. cbn [snd] in HW. destruct (Z.eqb_spec c 34) as [->|N]; [exfalso; apply H; left; reflexivity|].
  cbn [step]. assert (c =? 34 = false) as E by (apply Z.eqb_neq; exact N). destruct HW as [-> | ->]; rewrite ?E; destruct (c =? 44); cbn [snd]; tauto.
Qed.
Lemma blank_line : forall ls, Forall (fun l => ~ In 34 l) ls -> In [] ls -> In [] (csv_rows ls ([], [], AtStart)).
Proof.
  induction ls as [|l ls IH]; intros H I; [destruct I|]. inversion H as [|? ? HL H']; subst. cbn [csv_rows].
  destruct I as [->|I]; [left; reflexivity|]. pose proof (plain_state l ([], [], AtStart) HL (or_introl eq_refl)) as P. destruct (fold_left step l ([], [], AtStart)) as [[fs f] w]. cbn [snd] in P. destruct P as [-> | ->]; right; apply IH; assumption.
Qed.
Theorem C133_blank : forall f op ls E, Forall (fun l => ~ In 34 l /\ ~ In 13 l /\ ~ In 10 l) ls -> In [] ls -> lookup (str "ImageDescription") op = Some (VText (crlf ls)) -> streak_description E f op = Err IndexError.
Proof.
  intros f op ls E H I HL. unfold streak_description, key. rewrite HL. cbn [bind]. rewrite lines_back by (eapply Forall_impl; [|exact H]; cbn; tauto). rewrite blank_row; [reflexivity|]. apply blank_line; [eapply Forall_impl; [|exact H]; cbn; tauto|exact I].
Qed.

(** * C133: axes *)
Fixpoint sum1 (i : Z) (n : nat) : Z := match n with O => 0 | S n => i + sum1 (i + 1) n end.
Fixpoint sum2 (i : Z) (n : nat) : Z := match n with O => 0 | S n => i * i + sum2 (i + 1) n end.
Lemma sum1_closed : forall n i, 2 * sum1 i n = Z.of_nat n * (2 * i + Z.of_nat n - 1).
Proof. induction n as [|n IH]; intro i; [reflexivity|]. cbn [sum1]. specialize (IH (i + 1)). rewrite Nat2Z.inj_succ. lia. Qed.
Lemma sum2_closed : forall n i, 6 * sum2 i n = Z.of_nat n * (6 * i * i + 6 * i * (Z.of_nat n - 1) + (Z.of_nat n - 1) * (2 * Z.of_nat n - 1)).
Proof. induction n as [|n IH]; intro i; [reflexivity|]. cbn [sum2]. specialize (IH (i + 1)). rewrite Nat2Z.inj_succ. unfold Z.succ. rewrite Z.mul_add_distr_l, IH. ring. Qed.
Lemma linear_sums : forall a b l i, (forall k y, nth_error l k = Some y -> (y == a * inject_Z (i + Z.of_nat k) + b)%Q) ->
  (sumQ l == a * inject_Z (sum1 i (List.length l)) + b * inject_Z (Z.of_nat (List.length l)))%Q /\ (weighted i l == a * inject_Z (sum2 i (List.length l)) + b * inject_Z (sum1 i (List.length l)))%Q.
Proof.
  intros a b. induction l as [|y l IH]; intros i H.
  - cbn. split; ring.
  - destruct (IH (i + 1)) as [A B]. { intros k z HK. specialize (H (S k) z HK). rewrite H. rewrite Nat2Z.inj_succ. replace (i + Z.succ (Z.of_nat k)) with (i + 1 + Z.of_nat k) by lia. reflexivity. }
    pose proof (H 0%nat y eq_refl) as Y. change (Z.of_nat 0) with 0 in Y. rewrite Z.add_0_r in Y. change (sumQ (y :: l)) with (y + sumQ l)%Q. cbn [weighted List.length sum1 sum2]. rewrite Nat2Z.inj_succ. unfold Z.succ.
    rewrite A, B, Y, !inject_Z_plus, inject_Z_mult. change (inject_Z 1) with 1%Q. split; ring.
Qed.
(** Two or more points on a line give the line *)
Theorem C133_fit : forall a b l, (2 <= List.length l)%nat -> (forall k y, nth_error l k = Some y -> (y == a * inject_Z (Z.of_nat k) + b)%Q) -> exists p q, line_fit l = Ok (p, q) /\ (p == a)%Q /\ (q == b)%Q.
Proof.
  intros a b l H HL. destruct (linear_sums a b l 0 HL) as [A B]. unfold line_fit, zlen. set (n := Z.of_nat (List.length l)) in *. destruct (Z.leb_spec n 1); [lia|].
  pose proof (sum1_closed (List.length l) 0) as S1. pose proof (sum2_closed (List.length l) 0) as S2. fold n in S1, S2. set (s1 := sum1 0 (List.length l)) in *. set (s2 := sum2 0 (List.length l)) in *.
  replace (n * (n - 1) / 2) with s1 by (replace (n * (n - 1)) with (s1 * 2) by lia; rewrite Z.div_mul by lia; reflexivity).
  replace (n * (n - 1) * (2 * n - 1) / 6) with s2 by (replace (n * (n - 1) * (2 * n - 1)) with (s2 * 6) by lia; rewrite Z.div_mul by lia; reflexivity).
  do 2 eexists. split; [reflexivity|].
  assert (D : 12 * (n * s2 - s1 * s1) = n * n * (n * n - 1)) by nia.
  assert (N : ~ (inject_Z (n * s2 - s1 * s1) == 0)%Q). { unfold Qeq. cbn. rewrite Z.mul_1_r. assert (0 < n * n * (n * n - 1)) by nia. lia. }
  assert (ED : (inject_Z (n * s2 - s1 * s1) == inject_Z n * inject_Z s2 - inject_Z s1 * inject_Z s1)%Q). { unfold Z.sub. rewrite inject_Z_plus, inject_Z_opp, !inject_Z_mult. ring. }
  rewrite A, B. rewrite ED in *. split; field; exact N.
Qed.
(** Evenly spaced axes come out with their spacing and beginning; units as they are written *)
Theorem C133_axes : forall E f op d scaling xs ys ux uy ny nx ax bx ay by_, streak_description E f op = Ok d -> lookup (str "Scaling") d = Some scaling -> lookup (str "ScalingXaxis") scaling = Some (VAxis xs) -> lookup (str "ScalingYaxis") scaling = Some (VAxis ys) ->
  lookup (str "ScalingXUnit") scaling = Some ux -> lookup (str "ScalingYUnit") scaling = Some uy -> (2 <= List.length xs)%nat -> (2 <= List.length ys)%nat ->
  (forall k y, nth_error xs k = Some y -> (y == ax * inject_Z (Z.of_nat k) + bx)%Q) -> (forall k y, nth_error ys k = Some y -> (y == ay * inject_Z (Z.of_nat k) + by_)%Q) ->
  exists sx ox sy oy, (sx == ax /\ ox == bx /\ sy == ay /\ oy == by_)%Q /\
    axes_streak E f op [ny; nx] [Some "height"%string; Some "width"%string] None = Ok [Fitted ny "height" sy oy uy; Fitted nx "width" sx ox ux] /\
    axes_streak E f op [ny; nx] [Some "height"%string; Some "width"%string] (Some Data) = Ok [Listed "height" ys uy; Fitted nx "width" sx ox ux].
Proof.
  intros E f op d scaling xs ys ux uy ny nx ax bx ay by_ HD HS HX HY UX UY LX LY PX PY. destruct (C133_fit ax bx xs LX PX) as (sx & ox & FX & EX & OX). destruct (C133_fit ay by_ ys LY PY) as (sy & oy & FY & EY & OY).
  exists sx, ox, sy, oy. split; [tauto|]. unfold axes_streak, the_axis, key. rewrite HD. cbn [bind]. rewrite HS. cbn [bind]. rewrite HX, HY. cbn [bind]. rewrite FX. cbn [bind index_of]. change (String.eqb "height" "width") with false. change (String.eqb "width" "width") with true. change (String.eqb "height" "height") with true. cbn [bind nth_error].
  rewrite UX. cbn [bind]. rewrite UY. cbn [bind]. rewrite FY. cbn [bind]. split; reflexivity.
Qed.
(** Axes without scaling are the numbers of the pixels; others are stored where the description says *)
Theorem C133_pixels : forall E f n, 0 <= n -> List.length (streak_axis E f None n) = Z.to_nat n /\ forall k y, nth_error (streak_axis E f None n) k = Some y -> y = inject_Z (Z.of_nat k).
Proof.
  intros E f n H. unfold streak_axis. assert (G : forall m i, List.length (zseq i m) = m /\ forall k y, nth_error (zseq i m) k = Some y -> y = i + Z.of_nat k).
  { induction m as [|m IH]; intro i; cbn [zseq]; [split; [reflexivity|intros [|k] y A; discriminate]|]. destruct (IH (i + 1)) as [A B]. split; [cbn; congruence|]. intros [|k] y C; cbn in C; [injection C as <-; lia|]. apply B in C. lia. }
  destruct (G (Z.to_nat n) 0) as [A B]. rewrite map_length. split; [exact A|]. intros k y C. rewrite nth_error_map in C. destruct (nth_error (zseq 0 (Z.to_nat n)) k) as [z|] eqn:Q; [|discriminate]. cbn in C. injection C as <-. apply B in Q. subst z. reflexivity.
Qed.
Theorem C133_stored : forall E f a vals pre post, 0 <= a -> List.length pre = Z.to_nat a -> f_bytes f = pre ++ List.concat vals ++ post -> Forall (fun v => List.length v = 4%nat) vals ->
  streak_axis E f (Some a) (Z.of_nat (List.length vals)) = map (e_single E) vals.
Proof.
  intros E f a vals pre post HA HP HB H. unfold streak_axis. rewrite HB, <- HP, skipn_app, skipn_all, Nat.sub_diag. cbn [app skipn]. rewrite Nat2Z.id. clear - H.
  induction vals as [|v vals IH]; [reflexivity|]. inversion H as [|? ? HV H']; subst. destruct v as [|b0 [|b1 [|b2 [|b3 [|]]]]]; try discriminate. cbn [List.length List.concat app singles map]. rewrite IH by exact H'. reflexivity.
Qed.
(** A whole file *)
Definition streak_env : env := {| e_float := fun _ => None; e_show := fun _ => []; e_xml := fun _ => Err OtherError; e_date := fun _ _ => None; e_guess := fun _ => None;
  e_single := fun b => inject_Z (fold_right (fun c r => c + 256 * r) 0 b); e_wave := fun _ => 1%Q; e_cubic := fun _ => (0, 0, 0, 0)%Q; e_unit := fun _ => None; e_six := fun q => q; e_lumispy := true |}.
Definition streak_file : file := {| f_name := str "s.tif"; f_flags := []; f_fei := VNone; f_imagej := VNone; f_shape := [2; 3]; f_bytes := [9; 9; 10; 0; 0; 0; 14; 0; 0; 0; 18; 0; 0; 0] |}.
Definition streak_page (text : pystr) : page := {| p_axes := str "YX"; p_shape := [2; 3]; p_data := Regular U1 [2; 3] [1; 2; 3; 4; 5; 6]; p_rgb := false;
  p_tags := [(str "PhotometricInterpretation", VNum 1); (str "Artist", VText (str "Copyright Hamamatsu, 2020")); (str "Software", VText (str "HPD-TA 9")); (str "ImageDescription", VText text);
             (str "ImageWidth", VNum 3); (str "ImageLength", VNum 2)];
  p_fei := false; p_sem := false; p_tvips := false; p_sis := false; p_sis_tags := (None, None) |}.
Example c133_file : match read_page streak_env streak_file (streak_page (crlf (map section_line [(str "Scaling", [(str "ScalingXScalingFile", str "#2"); (str "ScalingYScalingFile", str "Focus mode"); (str "ScalingXUnit", str "nm"); (str "ScalingYUnit", str "ps")])]))) false None with
  | Ok s => (map (fun a => match a with Fitted n nm a b u => Some (n, nm, Qred a, Qred b, u) | _ => None end) (s_axes s), m_type (s_md s)) =
      ([Some (2, "height"%string, 1%Q, 0%Q, VText (str "ps")); Some (3, "width"%string, 4%Q, 10%Q, VText (str "nm"))], str "LumiTransientSpectrum") | Err _ => False end.
Proof. vm_compute. reflexivity. Qed.
Example c133_blank : read_page streak_env streak_file (streak_page (crlf [str "[Scaling]"; []])) false None = Err IndexError.
Proof. vm_compute. reflexivity. Qed.

(** * C134: conversion of metadata *)
Definition two (n : Z) : pystr := [48 + n / 10; 48 + n mod 10].
Theorem C134_time : forall E h m s, 0 <= h < 24 -> 0 <= m < 60 -> 0 <= s < 60 -> apply E TvipsTime (VNum (inject_Z (3600 * h + 60 * m + s))) = Ok (VText (str_int h ++ str ":" ++ two m ++ str ":" ++ two s)).
Proof.
  intros E h m s H1 H2 H3. cbn [apply]. unfold truncate. cbn [Qnum Qden inject_Z]. rewrite Z.quot_1_r. cbn [bind]. unfold show_delta. set (n := 3600 * h + 60 * m + s).
  assert (A : n / 86400 = 0) by (apply Z.div_small; lia). rewrite A. cbn [Z.eqb app]. rewrite (Z.mod_small n 86400) by lia.
  assert (B : n / 3600 = h) by (symmetry; apply (Z.div_unique n 3600 h (60 * m + s)); lia). assert (C : n / 60 = 60 * h + m) by (symmetry; apply (Z.div_unique n 60 (60 * h + m) s); lia).
  assert (D : n mod 60 = s) by (symmetry; apply (Z.mod_unique n 60 (60 * h + m) s); lia). rewrite B, C, D. assert (F : (60 * h + m) mod 60 = m) by (symmetry; apply (Z.mod_unique _ 60 h m); lia). rewrite F. reflexivity.
Qed.
Theorem C134_fei : forall E q v, (forall s x, v = VText s -> e_float E s = Some x -> apply E (FeiTimes q) v = Ok (VNum (x * q))) /\ (forall s, v = VText s -> e_float E s = None -> apply E (FeiTimes q) v = Ok VNone) /\
  (forall x, v = VNum x -> apply E (FeiTimes q) v = Ok (VNum (x * q))).
Proof. intros E q v. repeat split; intros; subst; cbn; try rewrite H0; reflexivity. Qed.
Theorem C134_zeiss : forall E a u to x d p q, (e_unit E u = Some (d, p) -> e_unit E (str to) = Some (d, q) -> apply E (ZeissUnits to) (VTuple [a; VNum x; VText u]) = Ok (VNum (e_six E (x * p / q)))) /\
  (forall d' , d <> d' -> e_unit E u = Some (d, p) -> e_unit E (str to) = Some (d', q) -> apply E (ZeissUnits to) (VTuple [a; VNum x; VText u]) = Err TypeError) /\
  (forall s r, e_float E s = None -> apply E ZeissValue (VTuple (a :: VText s :: r)) = Ok (VText s)) /\ (forall s y r, e_float E s = Some y -> apply E ZeissValue (VTuple (a :: VText s :: r)) = Ok (VNum y)).
Proof.
  intros E a u to x d p q. cbn [apply zeiss_units number bind elem nth_error float]. repeat split.
  - intros -> ->. rewrite Z.eqb_refl. reflexivity.
  - intros d' N -> ->. destruct (Z.eqb_spec d d'); [contradiction|reflexivity].
  - intros s r ->. reflexivity.
  - intros s y r ->. reflexivity.
Qed.
Theorem C134_stage : forall E x y z a b r, apply E Stage (VTuple (VNum x :: VNum y :: VNum z :: a :: b :: r)) =
  Ok (VDict [(str "x", VNum (x * 1000)); (str "y", VNum (y * 1000)); (str "z", VNum (z * 1000)); (str "tilt_alpha", a); (str "tilt_beta", b)]).
Proof. reflexivity. Qed.
(** Which table is used: by the maker; lengths of cameras or magnifications by the mode *)
Theorem C134_table : forall p op, (p_fei p = true -> mapping_of p op = Ok mapping_fei) /\
  (p_fei p = false -> p_sem p = false -> p_tvips p = true -> forall d, lookup (str "TVIPS") op = Some (VDict d) ->
     mapping_of p op = Ok (mapping_tvips (match lookup (str "TemMode") d with Some (VNum q) => if Qeq_bool q 3 then "camera_length" else "magnification" | _ => "magnification" end))) /\
  (p_fei p = false -> p_sem p = false -> p_tvips p = false -> p_sis p = false -> is_jeol op = false -> mapping_of p op = Ok []).
Proof.
  intros p op. unfold mapping_of. split; [intros ->; reflexivity|]. split.
  - intros -> -> -> d H. unfold key. rewrite H. cbn [bind sub]. unfold key. destruct (lookup (str "TemMode") d) as [[| | | | |]|]; reflexivity.
  - intros -> -> -> -> ->. reflexivity.
Qed.
Example c134_time : apply streak_env TvipsTime (VNum 3725) = Ok (VText (str "1:02:05")).
Proof. vm_compute. reflexivity. Qed.
Print Assumptions C133_description.
Print Assumptions C133_comma_refuted.
Print Assumptions C133_blank.
Print Assumptions C133_fit.
Print Assumptions C133_axes.
Print Assumptions C133_pixels.
Print Assumptions C133_stored.
Print Assumptions C134_time.
Print Assumptions C134_fei.
Print Assumptions C134_zeiss.
Print Assumptions C134_stage.
Print Assumptions C134_table.
