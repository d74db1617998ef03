(** MSA files: C21, C22 and C23. *)
From Verif Require Import Base Text Bytes HierModel HierProof HierProps Dict RplModel RplProps MsaModel.

(** * Specification *)
(** Characters that can be part of a line of a latin-1 file. *)
Definition line_chars (s : pystr) : Prop := Forall (fun c => c < 256 /\ c <> 10 /\ c <> 13) s.
(** A piece of text that one header line holds: without ": " and not ending in white space. *)
Definition piece_ok (w : pystr) : Prop := contains [58; 32] w = false /\ is_space (last w 0) = false.
(** A keyword: no "#", ":" or "-", no white space at its ends. *)
Definition key_ok (k : pystr) : Prop := ~ In 35 k /\ ~ In 58 k /\ ~ In 45 k /\ trimmed k /\ line_chars k.
(** The texts written one per line: 64 characters each for the title and the comment. *)
Definition field_ok (p : pystr * pystr) : Prop :=
  key_ok (fst p) /\ fst p <> str "SPECTRUM" /\ line_chars (snd p) /\
  if multiline (fst p) then forall i, piece_ok (slice (64 * i) 64 (snd p)) else piece_ok (snd p).
(** A number as text. *)
Definition token_ok (w : pystr) : Prop :=
  w <> [] /\ Forall (fun c => is_space c = false /\ c < 256 /\ c <> 44 /\ c <> 35) w.

(** * Lemmas on text *)
Lemma is_space_0 : is_space 0 = false. Proof. reflexivity. Qed.

Lemma rstrip_id : forall w, is_space (last w 0) = false -> rstrip w = w.
Proof.
  intros w H. unfold rstrip. destruct (rev w) as [|c r] eqn:E.
  - destruct w as [|x w]; [reflexivity|]. cbn in E. destruct (rev w); discriminate.
  - assert (Ew : w = rev r ++ [c]) by (rewrite <- (rev_involutive w), E; reflexivity).
    rewrite Ew, last_last in H. rewrite lstrip_id by exact H. rewrite <- E. apply rev_involutive.
Qed.

Lemma split_colon_cons : forall c s, (c <> 58 \/ match s with 32 :: _ => False | _ => True end) ->
  split_colon (c :: s) = match split_colon s with [] => [[c]] | w :: ws => (c :: w) :: ws end.
Proof.
  intros c s H. destruct (Z.eq_dec c 58) as [->|Hc].
  - destruct H as [H|H]; [congruence|]. cbn [split_colon].
    destruct s as [|x s]; [reflexivity|]. destruct x as [|p|p]; try reflexivity.
    repeat (destruct p as [p|p|]; try reflexivity). contradiction.
  - cbn [split_colon]. destruct c as [|p|p]; try reflexivity.
    repeat (destruct p as [p|p|]; try reflexivity). congruence.
Qed.

Lemma split_colon_app : forall a b, ~ In 58 a -> split_colon (a ++ 58 :: 32 :: b) = a :: split_colon b.
Proof.
  induction a as [|c a IH]; intros b H; [reflexivity|]. cbn [app].
  rewrite split_colon_cons by (left; intro; apply H; left; auto). rewrite IH; [reflexivity|].
  intro K. apply H. right. exact K.
Qed.

Lemma split_colon_none : forall s, contains [58; 32] s = false -> split_colon s = [s].
Proof.
  induction s as [|c s IH]; intros H; [reflexivity|].
  cbn [contains] in H. apply orb_false_iff in H. destruct H as [H1 H2].
  rewrite split_colon_cons, IH; [reflexivity|exact H2|].
  destruct (Z.eq_dec c 58) as [->|]; [right|left; assumption].
  destruct s as [|x s]; [exact I|]. cbn [startswith] in H1. destruct x as [|p|p]; try exact I.
  repeat (destruct p as [p|p|]; try exact I). discriminate H1.
Qed.

Lemma lstrip_hash_none : forall s, ~ In 35 s -> lstrip_hash s = s.
Proof.
  intros [|c s] H; [reflexivity|]. cbn [lstrip_hash].
  destruct c as [|p|p]; try reflexivity. repeat (destruct p as [p|p|]; try reflexivity). exfalso. apply H. left. reflexivity.
Qed.

Lemma strip_hash_line : forall s, ~ In 35 s -> strip_hash (35 :: s) = s.
Proof.
  intros s H. unfold strip_hash. cbn [lstrip_hash]. rewrite (lstrip_hash_none s) by exact H.
  rewrite lstrip_hash_none by (rewrite <- in_rev; exact H). apply rev_involutive.
Qed.

Lemma lstrip_repeat : forall n s, lstrip (repeat 32 n ++ s) = lstrip s.
Proof. induction n; intros s; [reflexivity|]. cbn. apply IHn. Qed.

Lemma rev_repeat : forall A (x : A) n, rev (repeat x n) = repeat x n.
Proof.
  induction n as [|n IH]; [reflexivity|]. cbn [repeat rev]. rewrite IH.
  clear IH. induction n; [reflexivity|]. cbn. f_equal. exact IHn.
Qed.

Lemma strip_pad : forall k n, trimmed k -> strip (k ++ repeat 32 n) = k.
Proof.
  intros k n H. unfold strip. destruct k as [|c k].
  - cbn [app]. rewrite <- (app_nil_r (repeat 32 n)), lstrip_repeat. reflexivity.
  - assert (E : lstrip ((c :: k) ++ repeat 32 n) = (c :: k) ++ repeat 32 n) by (apply lstrip_id; apply H).
    rewrite E. unfold rstrip. rewrite rev_app_distr, rev_repeat, lstrip_repeat.
    transitivity (rstrip (c :: k)); [reflexivity|].
    assert (S : strip (c :: k) = c :: k) by (apply strip_trimmed; exact H).
    unfold strip in S. rewrite lstrip_id in S by (apply H). exact S.
Qed.

Lemma universal_crlf : forall ws tail, Forall (fun w => ~ In 13 w) ws -> ~ In 13 tail ->
  universal (flat_map (fun w => w ++ [13; 10]) ws ++ tail) = flat_map (fun w => w ++ [10]) ws ++ tail.
Proof.
  intros ws tail Hw Ht.
  assert (A : forall w s, ~ In 13 w -> universal (w ++ 13 :: 10 :: s) = w ++ 10 :: universal s).
  { induction w as [|c w IH]; intros s H; [reflexivity|]. cbn [app].
    assert (E : forall t, universal (c :: t) = c :: universal t).
    { intros t. cbn [universal]. destruct c as [|p|p]; try reflexivity. repeat (destruct p as [p|p|]; try reflexivity). exfalso. apply H. left. reflexivity. }
    rewrite E, IH; [reflexivity|]. intro K. apply H. right. exact K. }
  induction Hw as [|w ws H1 _ IH]; cbn [flat_map app].
  - apply universal_id. exact Ht.
  - rewrite <- !app_assoc. cbn [app]. rewrite A by exact H1. rewrite IH. reflexivity.
Qed.

Lemma file_lines_crlf : forall ws tail, Forall (fun w => ~ In 10 w /\ ~ In 13 w) ws -> ~ In 10 tail -> ~ In 13 tail -> tail <> [] ->
  file_lines (flat_map (fun w => w ++ [13; 10]) ws ++ tail) = ws ++ [tail].
Proof.
  intros ws tail Hw T1 T2 T3. unfold file_lines.
  rewrite universal_crlf; [|eapply Forall_impl; [|exact Hw]; cbn; tauto|exact T2].
  assert (E : split_char 10 (flat_map (fun w => w ++ [10]) ws ++ tail) = ws ++ [tail]).
  { induction Hw as [|w ws H1 _ IH]; cbn [flat_map app]; [apply split_char_nosep; exact T1|].
    rewrite <- !app_assoc. cbn [app]. rewrite split_char_app by apply H1. rewrite IH. reflexivity. }
  rewrite E, last_last. destruct tail; [congruence|reflexivity].
Qed.

(** Pieces. *)
Lemma pieces_concat : forall n f s, (0 < n)%nat -> (List.length s <= f)%nat -> List.concat (pieces f n s) = s.
Proof.
  intros n f. induction f as [|f IH]; intros s Hn Hf.
  - destruct s; [reflexivity|cbn in Hf; lia].
  - destruct s as [|c s]; [reflexivity|]. cbn [pieces List.concat]. rewrite IH; [apply firstn_skipn|exact Hn|].
    rewrite skipn_length. cbn [List.length] in *. lia.
Qed.

Lemma pieces_slices : forall n f s w, In w (pieces f n s) -> exists i, w = slice (n * i) n s.
Proof.
  intros n f. induction f as [|f IH]; intros s w H; [contradiction|].
  destruct s as [|c s]; [contradiction|]. cbn [pieces] in H. destruct H as [<-|H].
  - exists 0%nat. rewrite Nat.mul_0_r. reflexivity.
  - destruct (IH _ _ H) as [i ->]. exists (S i). unfold slice. rewrite skipn_skipn. do 2 f_equal. lia.
Qed.

Lemma pieces_ne : forall n f s, s <> [] -> (List.length s <= f)%nat -> pieces f n s <> [].
Proof. intros n [|f] [|c s] H1 H2; try congruence; try discriminate. cbn in H2. lia. Qed.

(** * The header *)
Definition hline0 (k w : pystr) : pystr := 35 :: pad12 k ++ [58; 32] ++ w.

Lemma hline_split : forall k w, key_ok k -> piece_ok w ->
  exists key, split_colon (hline0 k w) = [key; w] /\ strip (strip_hash key) = k.
Proof.
  intros k w [K1 [K2 [_ [K3 _]]]] [W1 _]. exists (35 :: pad12 k). split.
  - unfold hline0. change (35 :: pad12 k ++ [58; 32] ++ w) with ((35 :: pad12 k) ++ 58 :: 32 :: w).
    rewrite split_colon_app; [rewrite split_colon_none by exact W1; reflexivity|].
    unfold pad12. intros [H|H]; [discriminate|]. apply in_app_or in H. destruct H as [H|H]; [tauto|]. apply repeat_spec in H. discriminate.
  - rewrite strip_hash_line.
    + unfold pad12. apply strip_pad. exact K3.
    + unfold pad12. intros H. apply in_app_or in H. destruct H as [H|H]; [tauto|]. apply repeat_spec in H. discriminate.
Qed.

Lemma header_line_new : forall k w d, key_ok k -> piece_ok w -> k <> str "SPECTRUM" -> lookup k d = None ->
  header_line (hline0 k w) d = Ok (put k (Some w) d, false).
Proof.
  intros k w d Hk Hw Hs Hl. destruct (hline_split k w Hk Hw) as [key [E1 E2]].
  unfold header_line. unfold hline0 at 1. rewrite E1. rewrite E2. rewrite rstrip_id by apply Hw. rewrite Hl.
  destruct (multiline k); [reflexivity|]. destruct (eqb_str k (str "SPECTRUM")) eqn:E; [apply eqb_str_spec in E; congruence|reflexivity].
Qed.

Lemma header_line_more : forall k w v d, key_ok k -> piece_ok w -> multiline k = true -> lookup k d = Some (Some v) ->
  header_line (hline0 k w) d = Ok (put k (Some (v ++ w)) d, false).
Proof.
  intros k w v d Hk Hw Hm Hl. destruct (hline_split k w Hk Hw) as [key [E1 E2]].
  unfold header_line. unfold hline0 at 1. rewrite E1. rewrite E2. rewrite rstrip_id by apply Hw. rewrite Hl, Hm. reflexivity.
Qed.

Lemma put_last : forall (k : pystr) (v w : option pystr) d, lookup k d = None -> put k w (d ++ [(k, v)]) = d ++ [(k, w)].
Proof.
  induction d as [|[k' x] d IH]; intros H; cbn [app put].
  - rewrite eqb_str_refl. reflexivity.
  - cbn [lookup] in H. destruct (eqb_str k k') eqn:E; [discriminate|]. rewrite IH by exact H. reflexivity.
Qed.

Lemma lookup_last : forall V (k : pystr) (v : V) d, lookup k d = None -> lookup k (d ++ [(k, v)]) = Some v.
Proof.
  induction d as [|[k' x] d IH]; intros H; cbn [app lookup].
  - rewrite eqb_str_refl. reflexivity.
  - cbn [lookup] in H. destruct (eqb_str k k') eqn:E; [discriminate|]. apply IH. exact H.
Qed.

Section Read.
Context {F : Type} (tofloat : pystr -> option F).

Lemma read_more : forall k ws v d rest, key_ok k -> multiline k = true -> Forall piece_ok ws -> lookup k d = None ->
  read_lines tofloat (map (hline0 k) ws ++ rest) (d ++ [(k, Some v)]) =
  read_lines tofloat rest (d ++ [(k, Some (v ++ List.concat ws))]).
Proof.
  induction ws as [|w ws IH]; intros v d rest Hk Hm Hw Hl; cbn [map app read_lines List.concat].
  - rewrite app_nil_r. reflexivity.
  - inversion Hw as [|? ? W1 W2]; subst.
    rewrite (header_line_more k w v) by (try assumption; apply lookup_last; exact Hl). cbn [bind].
    rewrite put_last by exact Hl. rewrite IH by assumption. rewrite app_assoc. reflexivity.
Qed.

Lemma read_field : forall p d rest, field_ok p -> lookup (fst p) d = None ->
  read_lines tofloat (map (hline0 (fst p)) (values_of (fst p) (snd p)) ++ rest) d =
  read_lines tofloat rest (d ++ [(fst p, Some (snd p))]).
Proof.
  intros [k v] d rest [Hk [Hs [_ Hv]]] Hl. cbn [fst snd] in *. unfold values_of.
  assert (One : piece_ok v -> read_lines tofloat (map (hline0 k) [v] ++ rest) d = read_lines tofloat rest (d ++ [(k, Some v)])).
  { intros Hp. cbn [map app read_lines]. rewrite header_line_new by assumption. cbn [bind]. rewrite put_fresh by (apply lookup_none_in; exact Hl). reflexivity. }
  destruct (multiline k) eqn:Hm; [|apply One; exact Hv].
  destruct v as [|c v']; [apply One; apply (Hv 0%nat)|]. set (v := c :: v') in *.
  assert (Hp : Forall piece_ok (pieces (List.length v) 64 v)).
  { apply Forall_forall. intros w Hw. apply pieces_slices in Hw. destruct Hw as [i ->]. apply Hv. }
  pose proof (pieces_concat 64 (List.length v) v) as Hcat. pose proof (pieces_ne 64 (List.length v) v) as Hne.
  destruct (pieces (List.length v) 64 v) as [|w ws]; [exfalso; apply Hne; [discriminate|lia|reflexivity]|].
  inversion Hp as [|? ? W1 W2]; subst. cbn [map app read_lines]. rewrite header_line_new by assumption. cbn [bind].
  rewrite put_fresh by (apply lookup_none_in; exact Hl). rewrite read_more by assumption. cbn [List.concat] in Hcat. rewrite Hcat by lia. reflexivity.
Qed.

Lemma read_fields : forall ds d rest, Forall field_ok ds -> NoDup (map fst d ++ map fst ds) ->
  read_lines tofloat (flat_map (fun p => map (hline0 (fst p)) (values_of (fst p) (snd p))) ds ++ rest) d =
  read_lines tofloat rest (d ++ map (fun p => (fst p, Some (snd p))) ds).
Proof.
  induction ds as [|p ds IH]; intros d rest Hf Hn; cbn [flat_map map app].
  - rewrite app_nil_r. reflexivity.
  - inversion Hf as [|? ? F1 F2]; subst. rewrite <- app_assoc. rewrite read_field.
    + rewrite IH; [rewrite <- app_assoc; reflexivity|exact F2|].
      rewrite map_app, <- app_assoc. exact Hn.
    + exact F1.
    + apply lookup_none. cbn [map] in Hn. apply NoDup_remove_2 in Hn. intro K. apply Hn. apply in_or_app. left. exact K.
Qed.

(** * The data *)
Lemma words_tok : forall w s cur, Forall (fun c => is_space c = false) w -> words_aux (w ++ s) cur = words_aux s (rev w ++ cur).
Proof.
  induction w as [|c w IH]; intros s cur H; [reflexivity|]. inversion H as [|? ? H1 H2]; subst.
  cbn [app words_aux]. rewrite H1, IH by exact H2. cbn [rev]. rewrite <- app_assoc. reflexivity.
Qed.

Lemma tok_nospace : forall w, token_ok w -> Forall (fun c => is_space c = false) w.
Proof. intros w [_ H]. eapply Forall_impl; [|exact H]. cbn. tauto. Qed.

Lemma tok_last : forall w, token_ok w -> is_space (last w 0) = false.
Proof.
  intros w H. pose proof (tok_nospace w H) as N. destruct H as [H _]. destruct (exists_last H) as [w' [x ->]].
  rewrite last_last. rewrite Forall_forall in N. apply N. apply in_or_app. right. left. reflexivity.
Qed.

Lemma words_one : forall w, token_ok w -> words w = [w].
Proof.
  intros w H. unfold words. rewrite <- (app_nil_r w) at 1. rewrite words_tok by (apply tok_nospace; exact H).
  rewrite app_nil_r. cbn [words_aux]. destruct (rev w) eqn:E; [|rewrite <- E, rev_involutive; reflexivity].
  destruct H as [H _]. exfalso. apply H. rewrite <- (rev_involutive w), E. reflexivity.
Qed.

Lemma words_two : forall x y, token_ok x -> token_ok y -> words (x ++ [32; 32] ++ y) = [x; y].
Proof.
  intros x y Hx Hy. unfold words. rewrite words_tok by (apply tok_nospace; exact Hx). rewrite app_nil_r. cbn [app words_aux].
  change (is_space 32) with true. cbn iota. destruct (rev x) eqn:E.
  - destruct Hx as [H _]. exfalso. apply H. rewrite <- (rev_involutive x), E. reflexivity.
  - rewrite <- E, rev_involutive. f_equal. apply words_one. exact Hy.
Qed.

Lemma nocomma : forall w, token_ok w -> map (fun c => if c =? 44 then 32 else c) w = w.
Proof.
  intros w [_ H]. rewrite <- (map_id w) at 2. apply map_ext_in. intros c Hc. rewrite Forall_forall in H.
  destruct (H c Hc) as [_ [_ [H1 _]]]. destruct (c =? 44) eqn:E; [lia|reflexivity].
Qed.

Lemma tok_first : forall w, token_ok w -> exists c w', w = c :: w' /\ c <> 35 /\ is_space c = false.
Proof. intros [|c w] [H1 H2]; [congruence|]. inversion H2 as [|? ? [A [_ [_ B]]] _]; subst. eauto. Qed.

Definition row (xy : bool) (p : pystr * pystr) : pystr := if xy then fst p ++ [44; 32] ++ snd p else snd p ++ [44; 32].

Lemma not_hash : forall X c (a b : X), c <> 35 -> match c with 35 => a | _ => b end = b.
Proof. intros X c a b H. destruct c as [|p|p]; try reflexivity. repeat (destruct p as [p|p|]; try reflexivity). congruence. Qed.

Lemma data_line_words : forall c l d y, c <> 35 -> is_space c = false ->
  data_line tofloat (c :: l) d y =
  (let ws := words (strip (map (fun c => if c =? 44 then 32 else c) (c :: l))) in
   match lookup (str "DATATYPE") d with
   | None => Err KeyError
   | Some None => Ok y
   | Some (Some t) =>
       if eqb_str t (str "XY") then
         match ws with
         | [] | [_] => Err IndexError
         | [_; w] => let! f := float_of tofloat w in Ok (y ++ [f])
         | [_; w; _] => let! f := float_of tofloat w in Err IndexError
         | _ :: w :: _ :: w2 :: _ => let! f := float_of tofloat w in let! f2 := float_of tofloat w2 in Ok (y ++ [f; f2])
         end
       else if eqb_str t (str "Y") then let! fs := floats_of tofloat ws in Ok (y ++ fs)
       else Ok y
   end).
Proof.
  intros c l d y Hc Hs. unfold data_line.
  assert (E : exists z zs, strip (c :: l) = z :: zs).
  { unfold strip. rewrite lstrip_id by exact Hs. unfold rstrip.
    destruct (lstrip (rev (c :: l))) as [|z zs] eqn:El.
    - exfalso. assert (A : forall s, In c s -> lstrip s <> []).
      { clear - Hs. induction s as [|x s IH]; intros Hin; [contradiction|]. cbn. destruct (is_space x) eqn:Ex; [|discriminate].
        destruct Hin as [->|Hin]; [congruence|]. apply IH. exact Hin. }
      apply (A (rev (c :: l))); [rewrite <- in_rev; left; reflexivity|exact El].
    - destruct (rev (z :: zs)) eqn:Er; [|eauto]. apply (f_equal (@rev Z)) in Er. rewrite rev_involutive in Er. discriminate. }
  destruct E as [z [zs E]].
  destruct c as [|p|p]; try (rewrite E; reflexivity). repeat (destruct p as [p|p|]; try (rewrite E; reflexivity)). congruence.
Qed.

Lemma read_row : forall xy p f d y, token_ok (fst p) -> token_ok (snd p) -> tofloat (snd p) = Some f ->
  lookup (str "DATATYPE") d = Some (Some (format_key xy)) -> data_line tofloat (row xy p) d y = Ok (y ++ [f]).
Proof.
  intros xy [x v] f d y Hx Hv Hf Hd. cbn [fst snd] in *. unfold row. cbn [fst snd]. destruct xy.
  - destruct (tok_first x Hx) as [c [x' [Ex [Hc Hs]]]]. rewrite Ex. cbn [app]. rewrite data_line_words by assumption.
    rewrite Hd. cbn [format_key]. rewrite eqb_str_refl.
    change (c :: x' ++ 44 :: 32 :: v) with ((c :: x') ++ [44; 32] ++ v). rewrite <- Ex, !map_app, (nocomma x), (nocomma v) by assumption.
    change (map (fun c0 => if c0 =? 44 then 32 else c0) [44; 32]) with [32; 32].
    rewrite strip_trimmed.
    + rewrite words_two by assumption. cbn [bind]. unfold float_of. rewrite Hf. reflexivity.
    + rewrite Ex. cbn [app trimmed]. split; [exact Hs|].
      change (c :: x' ++ 32 :: 32 :: v) with ((c :: x') ++ [32; 32] ++ v). rewrite app_assoc.
      destruct Hv as [Hv1 Hv2]. pose proof (tok_last v (conj Hv1 Hv2)) as L. destruct (exists_last Hv1) as [v' [z ->]].
      rewrite app_assoc, last_last. rewrite last_last in L. exact L.
  - destruct (tok_first v Hv) as [c [v' [Ev [Hc Hs]]]]. rewrite Ev. cbn [app]. rewrite data_line_words by assumption.
    rewrite Hd. cbn [format_key]. change (eqb_str (str "Y") (str "XY")) with false. rewrite eqb_str_refl. cbn iota.
    change (c :: v' ++ [44; 32]) with ((c :: v') ++ [44; 32]). rewrite <- Ev, map_app, (nocomma v) by assumption.
    change (map (fun c0 => if c0 =? 44 then 32 else c0) [44; 32]) with (repeat 32 2). rewrite strip_pad.
    + rewrite words_one by assumption. cbn [floats_of bind]. unfold float_of. rewrite Hf. reflexivity.
    + rewrite Ev. split; [exact Hs|]. rewrite <- Ev. apply tok_last. exact Hv.
Qed.

Lemma read_rows : forall xy data fs d y, Forall (fun p => token_ok (fst p) /\ token_ok (snd p)) data ->
  Forall2 (fun p f => tofloat (snd p) = Some f) data fs -> lookup (str "DATATYPE") d = Some (Some (format_key xy)) ->
  read_data tofloat (map (row xy) data ++ [35 :: pad12 (str "ENDOFDATA") ++ str ": End Of Data and File"]) d y = Ok (d, y ++ fs).
Proof.
  intros xy data fs d y Ht Hf Hd. revert y. induction Hf as [|p f data fs Hp _ IH]; intros y; cbn [map app].
  - cbn. rewrite app_nil_r. reflexivity.
  - inversion Ht as [|? ? [T1 T2] T3]; subst. cbn [read_data]. rewrite (read_row xy p f) by assumption. cbn [bind].
    rewrite IH by exact T3. rewrite <- app_assoc. reflexivity.
Qed.
End Read.

(** * C21 and C23: a written file is read back *)
Definition entries (d : list (pystr * pystr)) : params := map (fun p => (fst p, Some (snd p))) d.

Theorem C23_file_round_trip : forall (F : Type) (tofloat : pystr -> option F) version d xy data fs,
  NoDup (map fst d) -> ~ In (str "FORMAT") (map fst d) -> ~ In (str "VERSION") (map fst d) ->
  Forall field_ok d -> line_chars version -> piece_ok version ->
  In (str "DATATYPE", format_key xy) d ->
  Forall (fun p => token_ok (fst p) /\ token_ok (snd p)) data ->
  Forall2 (fun p f => tofloat (snd p) = Some f) data fs ->
  msa_parse tofloat (msa_text version d xy data) =
  Ok ((str "FORMAT", Some FORMAT) :: (str "VERSION", Some version) :: entries d, fs).
Proof.
  intros F tofloat version d xy data fs Hn N1 N2 Hf V1 V2 Hd Ht Hfs.
  set (ds := (str "FORMAT", FORMAT) :: (str "VERSION", version) :: d).
  set (tail := 35 :: pad12 (str "ENDOFDATA") ++ str ": End Of Data and File").
  set (ws := flat_map (fun p => map (hline0 (fst p)) (values_of (fst p) (snd p))) ds ++
             hline0 (str "SPECTRUM") (str "Spectral Data Starts Here") :: map (row xy) data).
  assert (Hfd : Forall field_ok ds).
  { unfold ds. constructor; [|constructor; [|exact Hf]].
    - split; [|split; [discriminate|split]].
      + cbn [fst]. repeat split; try (cbn; intuition discriminate); try reflexivity. cbn. repeat constructor; lia.
      + cbn. repeat constructor; lia.
      + cbn [multiline fst]. split; reflexivity.
    - split; [|split; [discriminate|split]].
      + cbn [fst]. repeat split; try (cbn; intuition discriminate); try reflexivity. cbn. repeat constructor; lia.
      + exact V1.
      + cbn [multiline fst]. exact V2. }
  assert (Hk : NoDup (map fst ds)).
  { unfold ds. cbn [map fst]. constructor; [intros [H|H]; [discriminate H|tauto]|]. constructor; assumption. }
  assert (Htext : hline (str "FORMAT") FORMAT ++ hline (str "VERSION") version ++ flat_map field_lines d ++
          hline (str "SPECTRUM") (str "Spectral Data Starts Here") ++ data_lines xy data ++ tail =
          flat_map (fun w => w ++ [13; 10]) ws ++ tail).
  { assert (H1 : forall k w, hline k w = hline0 k w ++ [13; 10]).
    { intros k w. unfold hline, hline0. cbn [app]. f_equal. rewrite <- app_assoc. reflexivity. }
    assert (H2 : forall k l, flat_map (hline k) l = flat_map (fun w => w ++ [13; 10]) (map (hline0 k) l)).
    { intros k. induction l as [|w l IH]; [reflexivity|]. cbn [flat_map map]. rewrite H1, IH. reflexivity. }
    assert (H3 : forall l, flat_map field_lines l = flat_map (fun w => w ++ [13; 10]) (flat_map (fun p => map (hline0 (fst p)) (values_of (fst p) (snd p))) l)).
    { induction l as [|p l IH]; [reflexivity|]. cbn [flat_map]. rewrite IH. unfold field_lines at 1. rewrite H2, flat_map_app. reflexivity. }
    assert (H4 : forall l, data_lines xy l = flat_map (fun w => w ++ [13; 10]) (map (row xy) l)).
    { induction l as [|p l IH]; [reflexivity|]. unfold data_lines in *. cbn [flat_map map]. rewrite IH. reflexivity. }
    assert (H5 : hline (str "FORMAT") FORMAT ++ hline (str "VERSION") version ++ flat_map field_lines d = flat_map field_lines ds).
    { unfold ds. cbn [flat_map]. unfold field_lines at 2 3. cbn [fst snd]. unfold values_of, multiline.
      change (existsb (eqb_str (str "FORMAT")) (map str ["TITLE"%string; "COMMENT"%string])) with false.
      change (existsb (eqb_str (str "VERSION")) (map str ["TITLE"%string; "COMMENT"%string])) with false.
      cbn iota. cbn [flat_map]. rewrite !app_nil_r. reflexivity. }
    rewrite app_assoc, app_assoc, <- (app_assoc (hline (str "FORMAT") FORMAT)), H5, H3.
    unfold ws. rewrite flat_map_app. cbn [flat_map]. rewrite H1, H4. rewrite <- !app_assoc. reflexivity. }
  assert (Hws : Forall line_chars ws).
  { unfold ws. apply Forall_app. split; [|constructor].
    - apply Forall_forall. intros w Hw. apply in_flat_map in Hw. destruct Hw as [[k v] [Hp Hw]]. cbn [fst snd] in Hw.
      rewrite Forall_forall in Hfd. destruct (Hfd _ Hp) as [[_ [_ [_ [_ Hkc]]]] [_ [Hv _]]]. cbn [fst snd] in *.
      apply in_map_iff in Hw. destruct Hw as [u [<- Hu]].
      assert (Hlu : line_chars u).
      { unfold values_of in Hu. destruct (multiline k); [|destruct Hu as [<-|[]]; exact Hv].
        destruct v as [|c v']; [destruct Hu as [<-|[]]; constructor|].
        apply pieces_slices in Hu. destruct Hu as [i ->]. unfold slice, line_chars in *.
        rewrite Forall_forall in *. intros z Hz. apply Hv.
        rewrite <- (firstn_skipn (64 * i) (c :: v')). apply in_or_app. right.
        rewrite <- (firstn_skipn 64 (skipn (64 * i) (c :: v'))). apply in_or_app. left. exact Hz. }
      unfold hline0, pad12, line_chars. constructor; [lia|]. apply Forall_app. split.
      + apply Forall_app. split; [exact Hkc|]. apply Forall_forall. intros z Hz. apply repeat_spec in Hz. subst. lia.
      + constructor; [lia|]. constructor; [lia|]. exact Hlu.
    - cbn. repeat constructor; lia.
    - rewrite Forall_map. rewrite Forall_forall in *. intros p Hp. destruct (Ht p Hp) as [T1 T2].
      assert (A : forall w, token_ok w -> line_chars w).
      { intros w [_ H]. unfold line_chars. eapply Forall_impl; [|exact H]. intros z [B1 [B2 _]]. unfold is_space in B1. lia. }
      apply A in T1. apply A in T2. unfold row, line_chars in *. destruct xy.
      + apply Forall_app. split; [exact T1|]. constructor; [lia|]. constructor; [lia|]. exact T2.
      + apply Forall_app. split; [exact T2|]. repeat constructor; lia. }
  assert (Hlatin : msa_text version d xy data = flat_map (fun w => w ++ [13; 10]) ws ++ tail).
  { transitivity (latin1 (flat_map (fun w => w ++ [13; 10]) ws ++ tail)); [exact (f_equal latin1 Htext)|].
    apply latin1_id. apply Forall_app. split.
    - apply Forall_forall. intros z Hz. apply in_flat_map in Hz. destruct Hz as [w [Hw Hz]].
      rewrite Forall_forall in Hws. specialize (Hws w Hw). unfold line_chars in Hws. rewrite Forall_forall in Hws.
      apply in_app_or in Hz. destruct Hz as [Hz|[Hz|[Hz|[]]]]; [apply Hws in Hz|..]; lia.
    - unfold tail. cbn. repeat constructor; lia. }
  unfold msa_parse. rewrite Hlatin. rewrite file_lines_crlf.
  2: { eapply Forall_impl; [|exact Hws]. intros w H. unfold line_chars in H. rewrite Forall_forall in H.
       split; intro K; apply H in K; lia. }
  2, 3: unfold tail; cbn; intuition discriminate.
  2: discriminate.
  unfold ws. rewrite <- app_assoc. rewrite read_fields; [|exact Hfd|exact Hk]. cbn [app].
  cbn [read_lines].
  assert (Es : forall D, header_line (hline0 (str "SPECTRUM") (str "Spectral Data Starts Here")) D = Ok (D, true)) by reflexivity.
  rewrite Es. cbn [bind]. unfold tail. rewrite (read_rows tofloat xy data fs).
  - cbn [bind fst snd app]. unfold ds, entries. cbn [map fst snd put]. rewrite eqb_str_refl. reflexivity.
  - exact Ht.
  - exact Hfs.
  - unfold ds. cbn [map fst snd lookup].
    change (eqb_str (str "DATATYPE") (str "FORMAT")) with false. change (eqb_str (str "DATATYPE") (str "VERSION")) with false. cbn iota.
    clear - Hd Hn. induction d as [|[k v] d IH]; [contradiction|]. cbn [map fst snd lookup] in *. inversion Hn as [|? ? A B]; subst.
    destruct (eqb_str (str "DATATYPE") k) eqn:E.
    + apply eqb_str_spec in E. subst k. destruct Hd as [Hd|Hd]; [injection Hd as ->; reflexivity|].
      exfalso. apply A. apply in_map_iff. eexists. split; [|exact Hd]. reflexivity.
    + destruct Hd as [Hd|Hd]; [injection Hd as -> ->; rewrite eqb_str_refl in E; discriminate|]. apply IH; assumption.
Qed.
Print Assumptions C23_file_round_trip.

(** A typical file. *)
Definition ex_fields : list (pystr * pystr) :=
  [(str "TITLE", str "A title of more than sixty-four characters, which is therefore stored in two pieces; it may have colons:so");
   (str "DATE", str "16-NOV-2026"); (str "NPOINTS", str "3"); (str "DATATYPE", str "Y"); (str "BEAMKV", str "200.0"); (str "XUNITS", [])].
Definition ex_data : list (pystr * pystr) := [(str "0", str "1.500000"); (str "1", str "-2.000000"); (str "2", str "7.000000")].
Example C23_example_hyps : NoDup (map fst ex_fields) /\ Forall field_ok ex_fields /\ In (str "DATATYPE", format_key false) ex_fields /\
  Forall (fun p => token_ok (fst p) /\ token_ok (snd p)) ex_data.
Proof.
  split; [cbn [map fst ex_fields]; solve_nodup|]. split; [|split; [cbn; tauto|]].
  - unfold ex_fields. repeat apply Forall_cons; try apply Forall_nil;
      (split; [cbn [fst]; repeat split; try (cbn; intuition discriminate); try reflexivity; cbn; repeat constructor; lia|
       split; [discriminate|split; [cbn; repeat constructor; lia|]]]).
    { cbn [multiline fst]. change (multiline (str "TITLE")) with true. cbn iota.
      intros [|[|i]]; [split; vm_compute; reflexivity..|].
      cbn [snd]. unfold slice. rewrite skipn_all2; [split; reflexivity|]. vm_compute List.length. lia. }
    all: split; vm_compute; reflexivity.
  - unfold ex_data. repeat apply Forall_cons; try apply Forall_nil;
    (split; (split; [discriminate|cbn; repeat constructor; try reflexivity; lia])).
Qed.
Example C23_example :
  msa_parse (fun s => Some s) (msa_text (str "1.0") ex_fields false ex_data) =
  Ok ((str "FORMAT", Some FORMAT) :: (str "VERSION", Some (str "1.0")) :: entries ex_fields, map snd ex_data).
Proof. vm_compute. reflexivity. Qed.

(** ** Mapping to metadata *)
Lemma find_kw_in : forall n t k, find_kw n t = Some k -> In k t /\ k_name k = n.
Proof.
  induction t as [|x t IH]; intros k H; [discriminate|]. cbn [find_kw] in H. destruct (eqb_str (k_name x) n) eqn:E.
  - injection H as <-. split; [left; reflexivity|apply eqb_str_spec; exact E].
  - destruct (IH _ H) as [A B]. split; [right; exact A|exact B].
Qed.

Section Mapping.
Context {F : Type} (tofloat : pystr -> option F).

Lemma map_params_path : forall t name ty path, find_kw name t = Some {| k_name := name; k_type := ty; k_path := Some path |} ->
  (forall k, In k t -> k_path k = Some path -> k_name k = name) ->
  forall d m, Forall (fun p => ~ In 45 (fst p)) d -> NoDup (map fst d) ->
  exists m', map_params tofloat t d m = Ok m' /\
    (~ In name (map fst d) -> lookup path m' = lookup path m) /\
    (forall v, In (name, Some v) d -> v <> [] -> lookup path m' = Some (convert_par tofloat ty v)).
Proof.
  intros t name ty path Hfind Huniq. induction d as [|[n value] d IH]; intros m Hd Hn.
  - exists m. split; [reflexivity|]. split; [auto|intros ? []].
  - inversion Hd as [|? ? D1 D2]; subst. cbn [fst map] in *. inversion Hn as [|? ? N1 N2]; subst.
    cbn [map_params]. rewrite split_char_nosep by exact D1. cbn [bind].
    set (m1 := match value with
        | Some ((_ :: _) as v) => match find_kw n t with Some {| k_type := ty; k_path := Some p |} => put p (convert_par tofloat ty v) m | _ => m end
        | _ => m end).
    match goal with |- context [map_params tofloat t d ?X] => change X with m1 end.
    destruct (IH m1 D2 N2) as [m' [A [B C]]]. exists m'. split; [exact A|]. split.
    + intros Hnot. rewrite B by (intro; apply Hnot; right; assumption).
      unfold m1. destruct value as [[|c v]|]; try reflexivity.
      destruct (find_kw n t) as [[kn kt [kp|]]|] eqn:Ek; try reflexivity.
      rewrite lookup_put. destruct (eqb_str path kp) eqn:Ep; [|reflexivity].
      apply eqb_str_spec in Ep. subst kp. destruct (find_kw_in _ _ _ Ek) as [I1 I2]. cbn in I2. subst kn.
      specialize (Huniq _ I1 eq_refl). cbn in Huniq. exfalso. apply Hnot. left. exact Huniq.
    + intros v [Hin|Hin] Hv.
      * injection Hin as -> ->. rewrite B by exact N1. unfold m1. destruct v as [|c v]; [congruence|].
        rewrite Hfind. rewrite lookup_put, eqb_str_refl. reflexivity.
      * apply C; assumption.
Qed.
End Mapping.

(** The table, and the table after an SEM signal was written, have distinct paths. *)
Definition paths_unique (t : list kw) : bool :=
  forallb (fun k => match k_path k with
    | Some p => forallb (fun k' => match k_path k' with Some p' => if eqb_str p' p then eqb_str (k_name k') (k_name k) else true | None => true end) t &&
                match find_kw (k_name k) t with Some k' => match k_path k' with Some p' => eqb_str p' p | None => false end &&
                   match k_type k, k_type k' with KStr, KStr | KFloat, KFloat => true | _, _ => false end | None => false end
    | None => true end) t.
Lemma tables_unique : paths_unique keywords = true /\ paths_unique (shift keywords) = true.
Proof. split; vm_compute; reflexivity. Qed.

(** C21: every text keyword, in particular the title, arrives in the metadata unchanged,
    every number as the number its text means. *)
Theorem C21_metadata_round_trip : forall (F : Type) (tofloat : pystr -> option F) t version d xy data fs k path v,
  t = keywords \/ t = shift keywords -> In k t -> k_path k = Some path -> In (k_name k, v) d -> v <> [] ->
  NoDup (map fst d) -> ~ In (str "FORMAT") (map fst d) -> ~ In (str "VERSION") (map fst d) ->
  Forall field_ok d -> line_chars version -> piece_ok version ->
  In (str "DATATYPE", format_key xy) d ->
  Forall (fun p => token_ok (fst p) /\ token_ok (snd p)) data ->
  Forall2 (fun p f => tofloat (snd p) = Some f) data fs ->
  exists m, msa_read tofloat t (msa_text version d xy data) = Ok (m, fs) /\
    match k_type k with
    | KStr => lookup path m = Some (MText v)
    | KFloat => forall f, tofloat v = Some f -> lookup path m = Some (MNum f)
    end.
Proof.
  intros F tofloat t version d xy data fs k path v Ht Hk Hp Hv Hne Hn N1 N2 Hf V1 V2 Hd Htok Hfs.
  unfold msa_read. rewrite (C23_file_round_trip F tofloat version d xy data fs) by assumption. cbn [bind fst snd].
  assert (U : paths_unique t = true) by (destruct Ht as [->| ->]; apply tables_unique).
  unfold paths_unique in U. rewrite forallb_forall in U. specialize (U k Hk). rewrite Hp in U.
  apply andb_prop in U. destruct U as [U1 U2].
  destruct (find_kw (k_name k) t) as [[n' ty' [p'|]]|] eqn:Ef; try discriminate U2. cbn in U2.
  apply andb_prop in U2. destruct U2 as [U2 U3]. apply eqb_str_spec in U2. subst p'.
  destruct (find_kw_in _ _ _ Ef) as [_ En]. cbn in En. subst n'.
  destruct (map_params_path tofloat t (k_name k) ty' path Ef) with (d := (str "FORMAT", Some FORMAT) :: (str "VERSION", Some version) :: entries d) (m := @nil (pystr * mval F)) as [m [A [_ C]]].
  - intros k' Hk' Hp'. rewrite forallb_forall in U1. specialize (U1 k' Hk'). rewrite Hp', eqb_str_refl in U1. apply eqb_str_spec. exact U1.
  - constructor; [cbn; intuition discriminate|]. constructor; [cbn; intuition discriminate|].
    unfold entries. rewrite Forall_map. eapply Forall_impl; [|exact Hf]. intros p [[_ [_ [H _]]] _]. exact H.
  - assert (Em : map fst (entries d) = map fst d) by (unfold entries; rewrite map_map; reflexivity).
    change (NoDup (str "FORMAT" :: str "VERSION" :: map fst (entries d))). rewrite Em. constructor; [intros [H|H]; [discriminate H|tauto]|]. constructor; assumption.
  - exists m. rewrite A. cbn [bind]. split; [reflexivity|].
    assert (L : lookup path m = Some (convert_par tofloat ty' v)).
    { apply C; [|exact Hne]. right. right. unfold entries. apply in_map_iff. exists (k_name k, v). auto. }
    destruct (k_type k), ty'; try discriminate U3.
    + exact L.
    + intros f E. rewrite L. unfold convert_par. rewrite E. reflexivity.
Qed.
Print Assumptions C21_metadata_round_trip.

Example C21_example :
  (let! p := msa_read (fun s => Some s) keywords (msa_text (str "1.0") ex_fields false ex_data) in
   Ok (lookup (str "General.title") (fst p), lookup (str "Acquisition_instrument.TEM.beam_energy") (fst p))) =
  Ok (option_map MText (lookup (str "TITLE") ex_fields), Some (MNum (str "200.0"))).
Proof. vm_compute. reflexivity. Qed.

(** Titles that do not survive: with ": " the title is lost (the line becomes a keyword of
    its own); with two hyphens as well, the file cannot be read at all; with white space at
    the end of a piece, characters are lost; line breaks cut it. *)
Definition title_file (title : pystr) : pystr := msa_text (str "1.0") [(str "TITLE", title); (str "DATATYPE", str "Y")] false ex_data.
Definition title_read (title : pystr) : res (option (mval pystr)) :=
  let! p := msa_read (fun s => Some s) keywords (title_file title) in Ok (lookup (str "General.title") (fst p)).
Theorem C21_colon_refuted : title_read (str "Sample 3: gold") = Ok None.
Proof. vm_compute. reflexivity. Qed.
Theorem C21_colon_hyphens_refuted : title_read (str "As-grown-film: gold") = Err ValueError.
Proof. vm_compute. reflexivity. Qed.
Theorem C21_piece_space_refuted : exists title, trimmed title /\ ~ In 58 title /\
  title_read title = Ok (Some (MText (filter (fun c => negb (c =? 32)) title))) /\ In 32 title.
Proof. exists (repeat 97 63 ++ [32; 98]). vm_compute. intuition discriminate. Qed.
Theorem C21_newline_refuted : title_read (str "a" ++ [10] ++ str "b") = Ok (Some (MText (str "a"))).
Proof. vm_compute. reflexivity. Qed.
Print Assumptions C21_colon_refuted.
Print Assumptions C21_colon_hyphens_refuted.
Print Assumptions C21_piece_space_refuted.
Print Assumptions C21_newline_refuted.

(** * C22: history of the table of keywords *)
(** The signal types written so far, in order. *)
Definition table_after (h : list pystr) : list kw := fold_left (fun t st => write_table st t) h keywords.
Definition is_sem (st : pystr) : bool := contains (str "SEM") st.

Lemma shift_shift : shift (shift keywords) = shift keywords.
Proof. vm_compute. reflexivity. Qed.

Theorem C22_table_after : forall h, table_after h = if existsb is_sem h then shift keywords else keywords.
Proof.
  assert (A : forall h, fold_left (fun t st => write_table st t) h (shift keywords) = shift keywords).
  { induction h as [|st h IH]; [reflexivity|]. cbn [fold_left]. unfold write_table at 2.
    destruct (contains (str "SEM") st); [rewrite shift_shift|]; exact IH. }
  unfold table_after. induction h as [|st h IH]; [reflexivity|]. cbn [fold_left existsb]. unfold write_table at 2. unfold is_sem at 1.
  destruct (contains (str "SEM") st); cbn [orb]; [apply A|exact IH].
Qed.

(** Reading does not depend on earlier writes as long as none of them was of an SEM signal. *)
Theorem C22_read_without_sem : forall (F : Type) (tofloat : pystr -> option F) h file, existsb is_sem h = false ->
  msa_read tofloat (table_after h) file = msa_read tofloat keywords file.
Proof. intros. rewrite C22_table_after, H. reflexivity. Qed.

(** The spectrum and the original metadata never depend on them. *)
Theorem C22_spectrum : forall (F : Type) (tofloat : pystr -> option F) h file p q,
  msa_read tofloat (table_after h) file = Ok p -> msa_read tofloat keywords file = Ok q -> snd p = snd q.
Proof.
  intros F tofloat h file p q H1 H2. unfold msa_read in *. destruct (msa_parse tofloat file) as [r|]; [|discriminate]. cbn [bind] in *.
  destruct (map_params tofloat (table_after h) (fst r) []) as [m1|]; [|discriminate].
  destruct (map_params tofloat keywords (fst r) []) as [m2|]; [|discriminate]. cbn in *. injection H1 as <-. injection H2 as <-. reflexivity.
Qed.

Definition tem_sig : msig :=
  {| ms_om := []; ms_md := [(str "General.title", str "t"); (str "Acquisition_instrument.TEM.beam_energy", str "200.0")];
     ms_type := str "EELS"; ms_date := None; ms_axis := [(str "NPOINTS", str "3")]; ms_data := ex_data |}.
Definition read_energy (t : list kw) (file : pystr) : res (option (mval pystr) * option (mval pystr)) :=
  let! p := msa_read (fun s => Some s) t file in
  Ok (lookup (str "Acquisition_instrument.TEM.beam_energy") (fst p), lookup (str "Acquisition_instrument.SEM.beam_energy") (fst p)).
Definition first {A B C} (x : A * B * C) : A := fst (fst x).

(** After writing one EDS_SEM signal, a TEM file is read with its beam energy under SEM. *)
Theorem C22_history_refuted : exists file,
  read_energy (table_after []) file = Ok (Some (MNum (str "200.0")), None) /\
  read_energy (table_after [str "EDS_SEM"]) file = Ok (None, Some (MNum (str "200.0"))).
Proof. exists (first (msa_write (str "c") false keywords tem_sig)). split; vm_compute; reflexivity. Qed.

(** And the beam energy of a TEM signal written later is not stored. *)
Theorem C22_write_refuted :
  read_energy keywords (first (msa_write (str "c") false (table_after []) tem_sig)) = Ok (Some (MNum (str "200.0")), None) /\
  read_energy keywords (first (msa_write (str "c") false (table_after [str "EDS_SEM"]) tem_sig)) = Ok (None, None).
Proof. split; vm_compute; reflexivity. Qed.
Print Assumptions C22_table_after.
Print Assumptions C22_read_without_sem.
Print Assumptions C22_spectrum.
Print Assumptions C22_history_refuted.
Print Assumptions C22_write_refuted.

(** * C45: saving twice *)
(** A signal whose original metadata is not that of an MSA file is left alone, and saving
    it again writes the same file, whatever was written before. *)
Theorem C45_save_twice : forall comment xy h s file t om,
  msa_write comment xy (table_after h) s = (file, t, om) -> is_msa s = false ->
  om = ms_om s /\ first (msa_write comment xy t s) = file.
Proof.
  intros comment xy h s file t om H Hm. unfold msa_write in H. injection H as H1 H2 H3.
  unfold om_after in H3. rewrite Hm in H3. split; [auto|]. unfold msa_write, first. cbn [fst].
  assert (E : write_table (ms_type s) t = t).
  { subst t. change (write_table (ms_type s) (table_after h)) with (fold_left (fun t st => write_table st t) [ms_type s] (table_after h)).
    unfold table_after. rewrite <- fold_left_app. fold (table_after (h ++ [ms_type s])).
    rewrite C22_table_after, existsb_app. cbn [existsb]. unfold is_sem at 2 4. unfold write_table.
    destruct (contains (str "SEM") (ms_type s)); [|reflexivity]. rewrite orb_true_r. apply shift_shift. }
  rewrite E. subst t. exact H1.
Qed.
Example C45_example : is_msa tem_sig = false. Proof. reflexivity. Qed.

(** A signal read from an MSA file is changed by saving it: its dictionary of original
    metadata is used as the table of values to write, and the second file differs. *)
Definition msa_sig : msig :=
  {| ms_om := [(str "FORMAT", FORMAT); (str "VERSION", str "1.0"); (str "TITLE", str "t"); (str "OWNER", str "EMSA/MAS TASK FORCE")];
     ms_md := [(str "General.title", str "t")]; ms_type := []; ms_date := None; ms_axis := [(str "NPOINTS", str "3")]; ms_data := ex_data |}.
Definition with_om (s : msig) (om : list (pystr * pystr)) : msig :=
  {| ms_om := om; ms_md := ms_md s; ms_type := ms_type s; ms_date := ms_date s; ms_axis := ms_axis s; ms_data := ms_data s |}.
Definition read_owner (file : pystr) : res (option (option pystr)) :=
  let! p := msa_parse (fun s => Some s) file in Ok (lookup (str "OWNER") (fst p)).
Theorem C45_save_twice_refuted : exists s file1 t om,
  msa_write (str "c") false keywords s = (file1, t, om) /\ om <> ms_om s /\
  read_owner file1 = Ok (Some (Some (str "EMSA/MAS TASK FORCE"))) /\
  read_owner (first (msa_write (str "c") false t (with_om s om))) = Ok (Some (Some [])).
Proof.
  exists msa_sig, (first (msa_write (str "c") false keywords msa_sig)), keywords, (snd (msa_write (str "c") false keywords msa_sig)).
  split; [vm_compute; reflexivity|]. split; [vm_compute; discriminate|]. split; vm_compute; reflexivity.
Qed.
Print Assumptions C45_save_twice.
Print Assumptions C45_save_twice_refuted.

(** * C46: precision of the values *)
(** ** Specification: the millionths a decimal number with six decimals stands for. *)
Definition micros (s : pystr) : option Z :=
  let '(neg, t) := match s with 45 :: t => (true, t) | _ => (false, s) end in
  match split_char 46 t with
  | [a; b] => match undec a, undec b with
              | Some x, Some y => if Nat.eqb (List.length b) 6 then Some (if neg then - (x * 10 ^ 6 + y) else x * 10 ^ 6 + y) else None
              | _, _ => None
              end
  | _ => None
  end.

Lemma round_half_even_spec : forall a b, 0 < b -> 2 * Z.abs (a - b * round_half_even a b) <= b.
Proof.
  intros a b Hb. unfold round_half_even. pose proof (Z.div_mod a b ltac:(lia)) as E. pose proof (Z.mod_pos_bound a b Hb) as R.
  revert E R. generalize (a / b) (a mod b). intros q r E R. subst a.
  destruct (2 * r <? b) eqn:E1; [|destruct (b <? 2 * r) eqn:E2; [|destruct (Z.even q)]].
  - replace (b * q + r - b * q) with r by ring. lia.
  - replace (b * q + r - b * (q + 1)) with (r - b) by ring. lia.
  - replace (b * q + r - b * q) with r by ring. lia.
  - replace (b * q + r - b * (q + 1)) with (r - b) by ring. lia.
Qed.

Lemma round_half_even_1 : forall a, round_half_even a 1 = a.
Proof. intros a. pose proof (round_half_even_spec a 1 ltac:(lia)). lia. Qed.

Lemma round_nonneg : forall a b, 0 < b -> 0 <= a -> 0 <= round_half_even a b.
Proof.
  intros a b Hb Ha. unfold round_half_even. pose proof (Z.div_pos a b Ha Hb).
  repeat match goal with |- context [if ?c then _ else _] => destruct c end; lia.
Qed.

Lemma undec_digits6 : forall b, 0 <= b < 10 ^ 6 -> undec (digits6 b) = Some b.
Proof.
  intros b Hb. unfold digits6, undec. cbn [map undec_aux].
  assert (D : forall x, is_digit (48 + x mod 10) = true) by (intros x; unfold is_digit; pose proof (Z.mod_pos_bound x 10); lia).
  rewrite !D. f_equal.
  change (10 ^ 5) with 100000. change (10 ^ 4) with 10000. change (10 ^ 3) with 1000. change (10 ^ 2) with 100. change (10 ^ 1) with 10. change (10 ^ 0) with 1. change (10 ^ 6) with 1000000 in Hb.
  rewrite Z.div_1_r.
  replace 100000 with (10 * (10 * (10 * (10 * 10)))) by reflexivity. replace 10000 with (10 * (10 * (10 * 10))) by reflexivity.
  replace 1000 with (10 * (10 * 10)) by reflexivity. replace 100 with (10 * 10) by reflexivity.
  rewrite <- !Z.div_div by lia.
  generalize (Z.div_mod b 10 ltac:(lia)). set (b1 := b / 10). intros E1.
  generalize (Z.div_mod b1 10 ltac:(lia)). set (b2 := b1 / 10). intros E2.
  generalize (Z.div_mod b2 10 ltac:(lia)). set (b3 := b2 / 10). intros E3.
  generalize (Z.div_mod b3 10 ltac:(lia)). set (b4 := b3 / 10). intros E4.
  generalize (Z.div_mod b4 10 ltac:(lia)). set (b5 := b4 / 10). intros E5.
  assert (H5 : b5 mod 10 = b5).
  { apply Z.mod_small. unfold b5, b4, b3, b2, b1. rewrite !Z.div_div by lia. split; [apply Z.div_pos; lia|]. apply Z.div_lt_upper_bound; lia. }
  rewrite H5. clearbody b1 b2 b3 b4 b5. clear - E1 E2 E3 E4 E5.
  generalize dependent (b mod 10). generalize dependent (b1 mod 10). generalize dependent (b2 mod 10). generalize dependent (b3 mod 10).
  generalize dependent (b4 mod 10). intros. lia.
Qed.

Lemma digits6_digits : forall b, Forall (fun c => is_digit c = true) (digits6 b).
Proof.
  intros b. unfold digits6. rewrite Forall_map. apply Forall_forall. intros i _. unfold is_digit.
  pose proof (Z.mod_pos_bound (b / 10 ^ i) 10). lia.
Qed.

Lemma digit_token : forall s, Forall (fun c => is_digit c = true) s ->
  Forall (fun c => is_space c = false /\ c < 256 /\ c <> 44 /\ c <> 35) s.
Proof. intros s. apply Forall_impl. intros c H. pose proof (digit_not_space c H). unfold is_digit in H. split; [assumption|lia]. Qed.

Lemma fmt_f_token : forall n k, token_ok (fmt_f n k).
Proof.
  intros n k. unfold fmt_f. set (m := round_half_even _ _).
  assert (Hm : 0 <= m) by (apply round_nonneg; [apply Z.pow_pos_nonneg; lia|nia]).
  split.
  - intro H. apply app_eq_nil in H. destruct H as [_ H]. apply app_eq_nil in H. destruct H as [_ H]. discriminate.
  - apply Forall_app. split; [destruct (n <? 0); repeat constructor; lia|].
    apply Forall_app. split; [apply digit_token, dec_digits, Z.div_pos; lia|].
    constructor; [repeat split; lia|]. apply digit_token, digits6_digits.
Qed.

Lemma micros_fmt_f : forall n k, let m := round_half_even (Z.abs n * 10 ^ 6) (2 ^ Z.of_nat k) in
  micros (fmt_f n k) = Some (if n <? 0 then - m else m).
Proof.
  intros n k m.
  assert (Hm : 0 <= m) by (apply round_nonneg; [apply Z.pow_pos_nonneg; lia|nia]).
  assert (Dd : Forall (fun c => is_digit c = true) (dec (m / 10 ^ 6))) by (apply dec_digits, Z.div_pos; lia).
  assert (Sp : split_char 46 (dec (m / 10 ^ 6) ++ [46] ++ digits6 (m mod 10 ^ 6)) = [dec (m / 10 ^ 6); digits6 (m mod 10 ^ 6)]).
  { cbn [app]. assert (N : forall s, Forall (fun c => is_digit c = true) s -> ~ In 46 s).
    { intros s H K. rewrite Forall_forall in H. specialize (H _ K). discriminate. }
    rewrite split_char_app by (apply N; exact Dd). rewrite split_char_nosep by (apply N, digits6_digits). reflexivity. }
  assert (V : (m / 10 ^ 6) * 10 ^ 6 + m mod 10 ^ 6 = m) by (rewrite Z.mul_comm; symmetry; apply Z.div_mod; lia).
  unfold micros, fmt_f. fold m. destruct (n <? 0) eqn:En.
  - cbn [app]. change (46 :: digits6 (m mod 10 ^ 6)) with ([46] ++ digits6 (m mod 10 ^ 6)). rewrite Sp.
    rewrite undec_dec by (apply Z.div_pos; lia). rewrite undec_digits6 by (apply Z.mod_pos_bound; lia).
    change (Nat.eqb (List.length (digits6 (m mod 10 ^ 6))) 6) with true. cbn iota. rewrite V. reflexivity.
  - cbn [app].
    assert (Hd : forall t, dec (m / 10 ^ 6) ++ 46 :: digits6 (m mod 10 ^ 6) <> 45 :: t).
    { pose proof (dec_ne (m / 10 ^ 6) ltac:(apply Z.div_pos; lia)) as Ne. intros t E. destruct (dec (m / 10 ^ 6)) as [|c s]; [congruence|].
      inversion Dd as [|? ? D1 _]; subst. injection E as -> _. discriminate D1. }
    assert (Hpos : forall s : pystr, (forall t, s <> 45 :: t) ->
      (let '(neg, t) := match s with 45 :: t => (true, t) | _ => (false, s) end in
       match split_char 46 t with
       | [a; b] => match undec a, undec b with
                   | Some x, Some y => if Nat.eqb (List.length b) 6 then Some (if neg : bool then - (x * 10 ^ 6 + y) else x * 10 ^ 6 + y) else None
                   | _, _ => None end
       | _ => None end) =
       match split_char 46 s with
       | [a; b] => match undec a, undec b with
                   | Some x, Some y => if Nat.eqb (List.length b) 6 then Some (x * 10 ^ 6 + y) else None
                   | _, _ => None end
       | _ => None end).
    { intros [|c s] Hs; [reflexivity|]. destruct c as [|p|p]; try reflexivity.
      repeat (destruct p as [p|p|]; try reflexivity). exfalso. eapply Hs. reflexivity. }
    rewrite Hpos by exact Hd. change (46 :: digits6 (m mod 10 ^ 6)) with ([46] ++ digits6 (m mod 10 ^ 6)). rewrite Sp.
    rewrite undec_dec by (apply Z.div_pos; lia). rewrite undec_digits6 by (apply Z.mod_pos_bound; lia).
    change (Nat.eqb (List.length (digits6 (m mod 10 ^ 6))) 6) with true. cbn iota. rewrite V. reflexivity.
Qed.

(** The file holds every value n/2^k, in order, within half a millionth, and integers exactly. *)
Theorem C46_precision : forall version d (data : list (Z * nat)),
  NoDup (map fst d) -> ~ In (str "FORMAT") (map fst d) -> ~ In (str "VERSION") (map fst d) ->
  Forall field_ok d -> line_chars version -> piece_ok version -> In (str "DATATYPE", str "Y") d ->
  exists ms, msa_parse micros (msa_text version d false (map (fun p => (str "0", fmt_f (fst p) (snd p))) data)) =
    Ok ((str "FORMAT", Some FORMAT) :: (str "VERSION", Some version) :: entries d, ms) /\
  Forall2 (fun p m => let '(n, k) := p in
    2 * Z.abs (n * 10 ^ 6 - 2 ^ Z.of_nat k * m) <= 2 ^ Z.of_nat k /\ (k = 0%nat -> m = n * 10 ^ 6)) data ms.
Proof.
  intros version d data H1 H2 H3 H4 H5 H6 H7.
  exists (map (fun p => let m := round_half_even (Z.abs (fst p) * 10 ^ 6) (2 ^ Z.of_nat (snd p)) in if fst p <? 0 then - m else m) data).
  split.
  - apply (C23_file_round_trip Z micros version d false); try assumption.
    + rewrite Forall_map. apply Forall_forall. intros p _. split; [split; [discriminate|cbn; constructor; [repeat split; lia|constructor]]|apply fmt_f_token].
    + clear. induction data as [|[n k] data IH]; cbn [map]; constructor; [|exact IH]. cbn [fst snd]. apply micros_fmt_f.
  - clear. induction data as [|[n k] data IH]; cbn [map]; constructor; [|exact IH]. cbn [fst snd].
    assert (P : 0 < 2 ^ Z.of_nat k) by (apply Z.pow_pos_nonneg; lia).
    pose proof (round_half_even_spec (Z.abs n * 10 ^ 6) (2 ^ Z.of_nat k) P) as S. split.
    + revert P S. generalize (2 ^ Z.of_nat k), (round_half_even (Z.abs n * 10 ^ 6) (2 ^ Z.of_nat k)). intros P0 m HP S.
      destruct (n <? 0) eqn:E.
      * replace (n * 10 ^ 6 - P0 * - m) with (- (Z.abs n * 10 ^ 6 - P0 * m)) by nia. rewrite Z.abs_opp. exact S.
      * replace (Z.abs n) with n in S by lia. exact S.
    + intros ->. change (2 ^ Z.of_nat 0) with 1. rewrite round_half_even_1. destruct (n <? 0) eqn:E; lia.
Qed.
Print Assumptions C46_precision.
Example C46_example : fmt_f (-3) 1 = str "-1.500000" /\ fmt_f 1 30 = str "0.000000" /\ fmt_f 12345678 0 = str "12345678.000000".
Proof. repeat split; vm_compute; reflexivity. Qed.

(** Small values are lost altogether in this format, and integers of more than six digits are
    rounded in the XY format. *)
Theorem C46_small_values_refuted : fmt_f 1 30 = fmt_f 0 0.
Proof. vm_compute. reflexivity. Qed.
Theorem C46_xy_integers_refuted : fmt_g 1234567 = str "1.23457e+06" /\ fmt_g 1234568 = fmt_g 1234567 /\ fmt_g 1000050 = str "1.00005e+06" /\ fmt_g 9999996 = str "1e+07".
Proof. repeat split; vm_compute; reflexivity. Qed.
Theorem C46_xy_small_integers : forall n, 0 <= n < 10 ^ 6 -> undec (fmt_g n) = Some n.
Proof. intros n H. unfold fmt_g. assert (E : (n <? 10 ^ 6) = true) by lia. rewrite E. apply undec_dec. lia. Qed.
Print Assumptions C46_small_values_refuted.
Print Assumptions C46_xy_integers_refuted.
Print Assumptions C46_xy_small_integers.
