(** Property C90: the comment of Hamamatsu streak images. *)
From Verif Require Import Base Text Bytes SfsModel HierModel HierProps HierProof HamModel.
Local Open Scope Z_scope.

(** * Specification *)
Record field := { f_key : pystr; f_value : pystr; f_quoted : bool }.
Definition field_text (f : field) : pystr := f_key f ++ str "=" ++ (if f_quoted f then [34] ++ f_value f ++ [34] else f_value f).
Definition fields_text (l : list field) : pystr := join_char 44 (map field_text l).
Inductive body := Fields (l : list field) | Note (s : pystr).
Record part := { p_name : pystr; p_body : body; p_end : pystr }.
Definition body_text (b : body) : pystr := match b with Fields l => fields_text l | Note s => s end.
(** [name],key=value,key="value" and the end of the line *)
Definition part_text (p : part) : pystr := str "[" ++ p_name p ++ str "]," ++ body_text (p_body p) ++ p_end p.
Definition comment_text (l : list part) : pystr := List.concat (map part_text l).
(** without the characters of a text *)
Definition without (cs : string) (s : pystr) : Prop := Forall (fun c => ~ In c (str cs)) s.
Definition starts_quoted (s : pystr) : Prop := exists r, s = 34 :: r.
Definition field_ok (f : field) : Prop :=
  without "[=" (f_key f) /\ without "[" (f_value f) /\ if f_quoted f then ~ In 34 (f_value f) else ~ In 44 (f_value f) /\ ~ starts_quoted (f_value f).
Definition visible_end (s : pystr) : Prop := exists a c, s = a ++ [c] /\ is_space c = false.
(** The last field is in quotes; or no value has a =, and the last one does not end in white space *)
Definition end_ok (l : list field) : Prop :=
  exists a z, l = a ++ [z] /\ (f_quoted z = true \/ Forall (fun f => ~ In 61 (f_value f)) l /\ visible_end (f_value z)).
Definition body_ok (b : body) : Prop :=
  match b with
  | Fields l => Forall field_ok l /\ NoDup (map f_key l) /\ end_ok l
  | Note s => without "[=" s /\ (s = [] \/ visible_end s)
  end.
Definition part_ok (p : part) : Prop := without "[]" (p_name p) /\ body_ok (p_body p) /\ Forall (fun c => is_space c = true) (p_end p).
Definition read_body (b : body) : section := match b with Fields l => Entries (map (fun f => (f_key f, f_value f)) l) | Note s => Plain s end.

(** * Pieces *)
Lemma without_in : forall c cs s, In c (str cs) -> without cs s -> ~ In c s.
Proof. intros c cs s H W K. unfold without in W. rewrite Forall_forall in W. exact (W c K H). Qed.
Lemma cut_app : forall c a b, ~ In c a -> cut c (a ++ c :: b) = Some (a, b).
Proof. intros c a. induction a as [|x a IH]; intros b H; cbn [app cut]; [rewrite Z.eqb_refl; reflexivity|]. replace (x =? c) with false by (cbn [In] in H; lia). rewrite IH by (intro K; apply H; right; exact K). reflexivity. Qed.
Lemma cut_none : forall c a, ~ In c a -> cut c a = None.
Proof. intros c a. induction a as [|x a IH]; intro H; cbn [cut]; [reflexivity|]. replace (x =? c) with false by (cbn [In] in H; lia). rewrite IH by (intro K; apply H; right; exact K). reflexivity. Qed.
Lemma join_cons : forall c (x y : pystr) l, join_char c (x :: y :: l) = x ++ c :: join_char c (y :: l).
Proof. reflexivity. Qed.
Lemma entries_step : forall fuel n total s out, s <> [] -> entries (S fuel) n total s out = match cut 61 s with None => Err ValueError | Some (key, r) => match r with [] => Err IndexError | 34 :: r' => match cut 34 r' with Some (v, r'') => entries fuel (n + 1) total (tl r'') (put key v out) | None => Err ValueError end | _ => if n + 1 =? total then Ok (put key r out) else match cut 44 r with Some (v, r') => entries fuel (n + 1) total r' (put key v out) | None => Err ValueError end end end.
Proof. intros fuel n total s out H. destruct s; [contradiction|reflexivity]. Qed.
Lemma field_ne : forall f, field_text f <> [].
Proof. intros f H. unfold field_text in H. destruct (f_key f); discriminate H. Qed.
Lemma quoted_step : forall fuel n total f r out, field_ok f -> f_quoted f = true -> entries (S fuel) n total (field_text f ++ r) out = entries fuel (n + 1) total (tl r) (put (f_key f) (f_value f) out).
Proof.
  intros fuel n total f r out (K & _ & Q) E. rewrite E in Q. rewrite entries_step by (pose proof (field_ne f); destruct (field_text f); [contradiction|discriminate]). unfold field_text. rewrite E. rewrite <- !app_assoc. cbn [str app]. change (str "=") with [61]. cbn [app]. rewrite cut_app by (eapply without_in; [|exact K]; cbn; auto). repeat rewrite <- app_assoc. cbn [app]. rewrite cut_app by exact Q. reflexivity.
Qed.
Lemma plain_step : forall fuel n total f r out, field_ok f -> f_quoted f = false -> n + 1 <> total -> entries (S fuel) n total (field_text f ++ 44 :: r) out = entries fuel (n + 1) total r (put (f_key f) (f_value f) out).
Proof.
  intros fuel n total f r out (K & _ & Q) E N. rewrite E in Q. destruct Q as [Q1 Q2]. rewrite entries_step by (pose proof (field_ne f); destruct (field_text f); [contradiction|discriminate]). unfold field_text. rewrite E. rewrite <- !app_assoc. change (str "=") with [61]. cbn [app]. rewrite cut_app by (eapply without_in; [|exact K]; cbn; auto).
  pose proof (cut_app 44 (f_value f) r Q1) as C. destruct (f_value f) as [|c v] eqn:V.
  - cbn [app] in *. replace (n + 1 =? total) with false by lia. rewrite C. reflexivity.
  - cbn [app] in *. replace (n + 1 =? total) with false by lia. rewrite C. assert (X : c <> 34) by (intros ->; apply Q2; exists v; reflexivity). clear - X. destruct (Z.eq_dec c 34) as [X'|_]; [contradiction|]. destruct c as [|p|p]; try reflexivity. do 6 (destruct p as [p|p|]; try reflexivity). congruence.
Qed.
Lemma last_step : forall fuel n total f out, field_ok f -> f_quoted f = false -> f_value f <> [] -> entries (S fuel) n total (field_text f) out = if n + 1 =? total then Ok (put (f_key f) (f_value f) out) else Err ValueError.
Proof.
  intros fuel n total f out (K & _ & Q) E N. rewrite E in Q. destruct Q as [Q1 Q2]. rewrite entries_step by apply field_ne. unfold field_text. rewrite E. change (str "=") with [61]. cbn [app]. rewrite cut_app by (eapply without_in; [|exact K]; cbn; auto).
  pose proof (cut_none 44 (f_value f) Q1) as C. destruct (f_value f) as [|c v] eqn:V; [contradiction|]. rewrite C. assert (X : c <> 34) by (intros ->; apply Q2; exists v; reflexivity). clear - X. destruct c as [|p|p]; try reflexivity. do 6 (destruct p as [p|p|]; try reflexivity). congruence.
Qed.
Lemma visible_ne : forall s, visible_end s -> s <> [].
Proof. intros s (a & c & -> & _). destruct a; discriminate. Qed.
Definition pairs (l : list field) : list (pystr * pystr) := map (fun f => (f_key f, f_value f)) l.
Lemma put_next : forall f l out, NoDup (map fst out ++ map f_key (f :: l)) -> put (f_key f) (f_value f) out = out ++ pairs [f] /\ NoDup (map fst (out ++ pairs [f]) ++ map f_key l).
Proof.
  intros f l out H. cbn [map] in H. split; [apply put_fresh; intro K; apply NoDup_remove_2 in H; apply H; apply in_or_app; left; exact K|]. rewrite map_app. cbn [pairs map fst]. rewrite <- app_assoc. exact H.
Qed.
Lemma entries_read : forall a z fuel n total out, Forall field_ok (a ++ [z]) -> NoDup (map fst out ++ map f_key (a ++ [z])) -> n + Z.of_nat (List.length a) + 1 <= total -> (List.length a + 1 < fuel)%nat ->
  (f_quoted z = true \/ f_value z <> [] /\ n + Z.of_nat (List.length a) + 1 = total) -> entries fuel n total (fields_text (a ++ [z])) out = Ok (out ++ pairs (a ++ [z])).
Proof.
  induction a as [|f a IH]; intros z fuel n total out FO ND T FU C.
  - cbn [app fields_text map join_char] in *. unfold fields_text. cbn [map join_char]. inversion FO as [|? ? Z0 _]; subst. destruct (put_next z [] out ND) as [P _]. destruct fuel as [|fuel]; [lia|]. destruct (f_quoted z) eqn:E.
    + rewrite <- (app_nil_r (field_text z)). rewrite quoted_step by assumption. rewrite P. destruct fuel as [|fuel]; [cbn in FU; lia|]. reflexivity.
    + destruct C as [C|[C1 C2]]; [discriminate C|]. rewrite last_step by assumption. replace (n + 1 =? total) with true by (cbn in C2; lia). rewrite P. reflexivity.
  - cbn [app] in *. inversion FO as [|? ? F0 FO']; subst. destruct (put_next f (a ++ [z]) out ND) as [P ND']. destruct fuel as [|fuel]; [lia|].
    assert (TX : fields_text (f :: a ++ [z]) = field_text f ++ 44 :: fields_text (a ++ [z])) by (unfold fields_text; destruct a; reflexivity). rewrite TX. cbn [List.length] in *.
    assert (R : entries fuel (n + 1) total (fields_text (a ++ [z])) (put (f_key f) (f_value f) out) = Ok (out ++ pairs (f :: a ++ [z]))).
    { rewrite P. rewrite (IH z fuel (n + 1) total (out ++ pairs [f])); [rewrite <- app_assoc; reflexivity|exact FO'|exact ND'|lia|lia|]. destruct C as [C|[C1 C2]]; [left; exact C|right; split; [exact C1|lia]]. }
    destruct (f_quoted f) eqn:E; [rewrite quoted_step by assumption; exact R|rewrite plain_step by (first [assumption|lia]); exact R].
Qed.
Lemma entries_fail : forall a z fuel n total out, Forall field_ok (a ++ [z]) -> n + Z.of_nat (List.length a) + 1 < total -> (List.length a + 1 < fuel)%nat -> f_quoted z = false -> f_value z <> [] -> entries fuel n total (fields_text (a ++ [z])) out = Err ValueError.
Proof.
  induction a as [|f a IH]; intros z fuel n total out FO T FU E V.
  - unfold fields_text. cbn [app map join_char]. inversion FO; subst. destruct fuel as [|fuel]; [lia|]. rewrite last_step by assumption. cbn in T. replace (n + 1 =? total) with false by lia. reflexivity.
  - cbn [app] in *. inversion FO as [|? ? F0 FO']; subst. destruct fuel as [|fuel]; [lia|]. assert (TX : fields_text (f :: a ++ [z]) = field_text f ++ 44 :: fields_text (a ++ [z])) by (unfold fields_text; destruct a; reflexivity). rewrite TX. cbn [List.length] in *.
    destruct (f_quoted f) eqn:Q; [rewrite quoted_step by assumption|rewrite plain_step by (first [assumption|lia])]; apply IH; first [assumption|lia].
Qed.
Lemma count_none : forall c s, ~ In c s -> count_char c s = 0.
Proof. intros c s. unfold count_char. induction s as [|x s IH]; intro H; [reflexivity|]. cbn [countZ]. replace (x =? c) with false by (cbn [In] in H; lia). rewrite IH by (intro K; apply H; right; exact K). reflexivity. Qed.
Lemma count_some : forall c s, In c s -> 0 < count_char c s.
Proof. intros c s. unfold count_char. induction s as [|x s IH]; intro H; [destruct H|]. cbn [countZ]. pose proof (countZ_nonneg _ (fun x => x =? c) s). destruct H as [->|H]; [rewrite Z.eqb_refl; lia|]. specialize (IH H). destruct (x =? c); lia. Qed.
Lemma count_app : forall c a b, count_char c (a ++ b) = count_char c a + count_char c b.
Proof. intros. apply countZ_app. Qed.
Lemma count_field : forall f, field_ok f -> count_char 61 (field_text f) = 1 + count_char 61 (f_value f).
Proof.
  intros f (K & _). unfold field_text. rewrite !count_app. rewrite (count_none 61 (f_key f)) by (eapply without_in; [|exact K]; cbn; auto). change (count_char 61 (str "=")) with 1. destruct (f_quoted f); [rewrite !count_app; change (count_char 61 [34]) with 0|]; lia.
Qed.
Lemma count_fields : forall l, Forall field_ok l -> count_char 61 (fields_text l) = Z.of_nat (List.length l) + sumZ (map (fun f => count_char 61 (f_value f)) l).
Proof.
  intros l H. induction H as [|f l Hf H IH]; [reflexivity|]. destruct l as [|g l].
  - unfold fields_text. cbn [map join_char List.length sumZ]. rewrite count_field by exact Hf. lia.
  - unfold fields_text in *. cbn [map] in *. rewrite join_cons. rewrite count_app. change (count_char 61 (44 :: join_char 44 (field_text g :: map field_text l))) with (0 + count_char 61 (join_char 44 (field_text g :: map field_text l))). rewrite IH, count_field by exact Hf. cbn [List.length sumZ]. lia.
Qed.
Lemma sum_count : forall l, 0 <= sumZ (map (fun f => count_char 61 (f_value f)) l) /\ (Forall (fun f => ~ In 61 (f_value f)) l -> sumZ (map (fun f => count_char 61 (f_value f)) l) = 0) /\ (Exists (fun f => In 61 (f_value f)) l -> 0 < sumZ (map (fun f => count_char 61 (f_value f)) l)).
Proof.
  induction l as [|f l (IH1 & IH2 & IH3)]; [split; [cbn; lia|split; [reflexivity|intro H; inversion H]]|]. cbn [map sumZ]. assert (P : 0 <= count_char 61 (f_value f)) by apply countZ_nonneg. split; [lia|]. split.
  - intro H. inversion H; subst. rewrite count_none by assumption. rewrite IH2 by assumption. reflexivity.
  - intro H. inversion H as [? ? K|? ? K]; subst; [apply count_some in K; lia|specialize (IH3 K); lia].
Qed.
Lemma long_enough : forall l, (List.length l <= List.length (fields_text l))%nat.
Proof.
  induction l as [|f l IH]; [cbn; lia|]. pose proof (field_ne f) as N. assert (P : (1 <= List.length (field_text f))%nat) by (destruct (field_text f); [contradiction|cbn; lia]). unfold fields_text in *. destruct l as [|g l]; [cbn [map join_char List.length]; lia|]. cbn [map] in *. rewrite join_cons. rewrite app_length. cbn [List.length] in *. lia.
Qed.
Theorem C90_section : forall b, body_ok b -> read_section (body_text b) = Ok (read_body b).
Proof.
  intros [l|s] H; unfold read_section; cbn [body_text read_body].
  - destruct H as (FO & ND & a & z & E & C). destruct (sum_count l) as (S1 & S2 & _). rewrite count_fields by exact FO. assert (L : List.length l = (List.length a + 1)%nat) by (rewrite E, app_length; reflexivity). replace (_ =? 0) with false by lia. pose proof (long_enough l). pose proof (field_ne z) as ZN.
    set (fuel := S (List.length (fields_text l))). assert (FU : (List.length a + 1 < fuel)%nat) by (unfold fuel; lia). clearbody fuel. set (total := _ + _). assert (TT : total = Z.of_nat (List.length l) + sumZ (map (fun f => count_char 61 (f_value f)) l)) by reflexivity. clearbody total. rewrite E at 1. rewrite entries_read; [cbn [bind app]; rewrite E; reflexivity|rewrite <- E; exact FO|rewrite <- E; exact ND|lia|exact FU|].
    destruct C as [C|[C1 C2]]; [left; exact C|right]. split; [apply visible_ne; exact C2|]. rewrite S2 in TT by exact C1. lia.
  - destruct H as [H _]. rewrite count_none by (eapply without_in; [|exact H]; cbn; auto). reflexivity.
Qed.

(** * Whole comments *)
Lemma lstrip_spaces : forall a b, Forall (fun c => is_space c = true) a -> lstrip (a ++ b) = lstrip b.
Proof. intros a b H. induction H as [|c a Hc H IH]; [reflexivity|]. cbn [app lstrip]. rewrite Hc. exact IH. Qed.
Lemma rstrip_end : forall s e, (s = [] \/ visible_end s) -> Forall (fun c => is_space c = true) e -> rstrip (s ++ e) = s.
Proof.
  intros s e H E. unfold rstrip. rewrite rev_app_distr. rewrite lstrip_spaces by (apply Forall_rev; exact E). destruct H as [-> | (a & c & -> & C)]; [reflexivity|]. rewrite rev_app_distr. cbn [rev app]. rewrite lstrip_id by exact C. cbn [rev]. rewrite rev_involutive. reflexivity.
Qed.
Lemma field_visible : forall f, (f_quoted f = true \/ visible_end (f_value f)) -> visible_end (field_text f).
Proof.
  intros f H. unfold field_text. destruct (f_quoted f); [|destruct H as [H|H]; [discriminate H|]].
  - exists (f_key f ++ str "=" ++ 34 :: f_value f), 34. split; [|reflexivity]. rewrite <- !app_assoc. reflexivity.
  - destruct H as (a & c & -> & C). exists (f_key f ++ str "=" ++ a), c. split; [|exact C]. rewrite <- !app_assoc. reflexivity.
Qed.
Lemma fields_visible : forall a z, visible_end (field_text z) -> visible_end (fields_text (a ++ [z])).
Proof.
  induction a as [|f a IH]; intros z H; [exact H|]. destruct (IH z H) as (s & c & E & C). exists (field_text f ++ 44 :: s), c. split; [|exact C]. rewrite <- app_assoc. cbn [app]. rewrite <- E. unfold fields_text. destruct a; reflexivity.
Qed.
Lemma body_visible : forall b, body_ok b -> body_text b = [] \/ visible_end (body_text b).
Proof. intros [l|s] H; cbn [body_text body_ok] in *; [|apply H]. destruct H as (_ & _ & a & z & -> & C). right. apply fields_visible. apply field_visible. destruct C as [C|[_ C]]; [left|right]; exact C. Qed.
Lemma fields_without : forall l, Forall field_ok l -> ~ In 91 (fields_text l).
Proof.
  intros l H. assert (F : forall f, field_ok f -> ~ In 91 (field_text f)).
  { intros f (K & V & _) I. unfold field_text in I. apply in_app_or in I. destruct I as [I|I]; [revert I; eapply without_in; [|exact K]; cbn; auto|]. destruct I as [I|I]; [discriminate I|]. cbn [str app] in I. assert (V' : ~ In 91 (f_value f)) by (eapply without_in; [|exact V]; cbn; auto). destruct (f_quoted f); [|contradiction]. destruct I as [I|I]; [discriminate I|]. apply in_app_or in I. destruct I as [I|[I|[]]]; [contradiction|discriminate I]. }
  induction H as [|f l Hf H IH]; [intros []|]. unfold fields_text in *. destruct l as [|g l]; [exact (F f Hf)|]. cbn [map] in *. rewrite join_cons. intro I. apply in_app_or in I. destruct I as [I|[I|I]]; [exact (F f Hf I)|discriminate I|exact (IH I)].
Qed.
Lemma body_without : forall b, body_ok b -> ~ In 91 (body_text b).
Proof. intros [l|s] H; cbn [body_text body_ok] in *; [apply fields_without; apply H|]. eapply without_in; [|apply H]. cbn. auto. Qed.
Definition piece (p : part) : pystr := p_name p ++ str "]," ++ body_text (p_body p) ++ p_end p.
Lemma piece_without : forall p, part_ok p -> ~ In 91 (piece p).
Proof.
  intros p (N & B & E) I. unfold piece in I. apply in_app_or in I. destruct I as [I|I]; [revert I; eapply without_in; [|exact N]; cbn; auto|]. destruct I as [I|[I|I]]; try discriminate I. change (In 91 (body_text (p_body p) ++ p_end p)) in I. apply in_app_or in I. destruct I as [I|I]; [exact (body_without _ B I)|]. rewrite Forall_forall in E. apply E in I. discriminate I.
Qed.
Lemma pieces : forall p l, Forall part_ok (p :: l) -> split_char 91 (tl (comment_text (p :: l))) = map piece (p :: l).
Proof.
  intros p l H. unfold comment_text. cbn [map List.concat]. change (tl (part_text p ++ List.concat (map part_text l))) with (piece p ++ List.concat (map part_text l)). revert p H. induction l as [|q l IH]; intros p H; inversion H as [|? ? P H']; subst.
  - cbn [map List.concat]. rewrite app_nil_r. apply split_char_nosep. apply piece_without. exact P.
  - cbn [map List.concat]. change (part_text q ++ List.concat (map part_text l)) with (91 :: piece q ++ List.concat (map part_text l)). rewrite split_char_app by (apply piece_without; exact P). rewrite (IH q H'). reflexivity.
Qed.
Lemma sections_read : forall l out, Forall part_ok l -> NoDup (map fst out ++ map p_name l) -> split_sections (map piece l) out = Ok (out ++ map (fun p => (p_name p, body_text (p_body p))) l).
Proof.
  induction l as [|p l IH]; intros out H N; [cbn; rewrite app_nil_r; reflexivity|]. inversion H as [|? ? (PN & PB & PE) H']; subst. cbn [map split_sections]. unfold piece at 1. change (str "],") with [93; 44]. cbn [app]. rewrite cut_app by (eapply without_in; [|exact PN]; cbn; auto). cbn [tl]. rewrite rstrip_end by (first [apply body_visible; exact PB|exact PE]).
  cbn [map] in N. rewrite put_fresh by (intro K; apply NoDup_remove_2 in N; apply N; apply in_or_app; left; exact K). rewrite IH; [rewrite <- app_assoc; reflexivity|exact H'|]. rewrite map_app. cbn [map fst]. rewrite <- app_assoc. exact N.
Qed.
Theorem C90_comment : forall l, l <> [] -> Forall part_ok l -> NoDup (map p_name l) -> process_comment (comment_text l) = Ok (map (fun p => (p_name p, read_body (p_body p))) l).
Proof.
  intros l NE H N. unfold process_comment. destruct l as [|p l]; [contradiction|]. rewrite pieces by exact H. rewrite sections_read by assumption. cbn [bind app]. clear N NE. induction H as [|q r (_ & B & _) H IH]; [reflexivity|]. cbn [map mapM fst snd]. rewrite C90_section by exact B. cbn [bind]. rewrite IH. reflexivity.
Qed.
(** A value with = is only read when the last value is in quotes *)
Theorem C90_equal_refuted : forall a z, Forall field_ok (a ++ [z]) -> f_quoted z = false -> f_value z <> [] -> Exists (fun f => In 61 (f_value f)) (a ++ [z]) -> read_section (body_text (Fields (a ++ [z]))) = Err ValueError.
Proof.
  intros a z FO Q V X. unfold read_section. cbn [body_text]. destruct (sum_count (a ++ [z])) as (_ & _ & S3). specialize (S3 X). pose proof (long_enough (a ++ [z])) as L. rewrite count_fields by exact FO. rewrite app_length in *. cbn [List.length] in *. replace (_ =? 0) with false by lia. rewrite entries_fail; try assumption; try lia. reflexivity.
Qed.
(** An empty value at the end *)
Theorem C90_empty_refuted : forall a z, Forall field_ok (a ++ [z]) -> f_quoted z = false -> f_value z = [] -> NoDup (map f_key (a ++ [z])) -> read_section (body_text (Fields (a ++ [z]))) = Err IndexError.
Proof.
  intros a z FO Q V N. unfold read_section. cbn [body_text]. destruct (sum_count (a ++ [z])) as (S1 & _). pose proof (long_enough (a ++ [z])) as L. rewrite count_fields by exact FO. set (total := _ + sumZ _). assert (T : Z.of_nat (List.length a) + 1 <= total) by (unfold total; rewrite app_length; cbn [List.length]; lia). clearbody total. replace (total =? 0) with false by lia. rewrite app_length in L. cbn [List.length] in L.
  assert (G : forall fuel n out, n + Z.of_nat (List.length a) + 1 <= total -> (List.length a + 1 < S fuel)%nat -> entries (S fuel) n total (fields_text (a ++ [z])) out = Err IndexError); [|rewrite G by lia; reflexivity]. clear L T S1 N. induction a as [|f a IH]; intros fuel n out T FU.
  - unfold fields_text. cbn [app map join_char]. inversion FO as [|? ? (K & _) _]; subst. rewrite entries_step by apply field_ne. unfold field_text. rewrite Q, V. change (str "=" ++ []) with [61]. rewrite cut_app by (eapply without_in; [|exact K]; cbn; auto). reflexivity.
  - cbn [app] in *. inversion FO as [|? ? F0 FO']; subst. assert (TX : fields_text (f :: a ++ [z]) = field_text f ++ 44 :: fields_text (a ++ [z])) by (unfold fields_text; destruct a; reflexivity). rewrite TX. cbn [List.length] in *. destruct fuel as [|fuel]; [lia|].
    destruct (f_quoted f) eqn:QF; [rewrite quoted_step by assumption|rewrite plain_step by (first [assumption|lia])]; apply IH; first [assumption|lia].
Qed.
(** A [ in a value ends the section *)
Theorem C90_bracket_refuted : forall name a b, without "[]" name -> without "[" a -> without "[]" b -> process_comment (str "[" ++ name ++ str "]," ++ a ++ str "[" ++ b) = Err ValueError.
Proof.
  intros name a b N A B. unfold process_comment. change (tl (str "[" ++ name ++ str "]," ++ a ++ str "[" ++ b)) with (name ++ str "]," ++ a ++ 91 :: b). replace (name ++ str "]," ++ a ++ 91 :: b) with ((name ++ str "]," ++ a) ++ 91 :: b) by (rewrite <- !app_assoc; reflexivity). rewrite split_char_app.
  - rewrite split_char_nosep by (eapply without_in; [|exact B]; cbn; auto). cbn [split_sections]. change (str "],") with [93; 44]. cbn [app]. rewrite cut_app by (eapply without_in; [|exact N]; cbn; auto). rewrite cut_none by (eapply without_in; [|exact B]; cbn; auto). reflexivity.
  - intro I. apply in_app_or in I. destruct I as [I|[I|[I|I]]]; try discriminate I; [revert I; eapply without_in; [|exact N]; cbn; auto|revert I; eapply without_in; [|exact A]; cbn; auto].
Qed.
Theorem C90_none_refuted : process_comment [] = Err ValueError.
Proof. reflexivity. Qed.
(** * Examples *)
Definition fld (k v : string) (q : bool) : field := {| f_key := str k; f_value := str v; f_quoted := q |}.
Definition ex_parts : list part :=
  [ {| p_name := str "Application"; p_body := Fields [fld "Date" "12/11/2021" true; fld "Time" "11:08:45.23" true; fld "Software" "HPD-TA" false]; p_end := [13; 10] |};
    {| p_name := str "Comment"; p_body := Note (str "nothing to say, here]"); p_end := [13; 10] |};
    {| p_name := str "Empty"; p_body := Note []; p_end := [13; 10] |};
    {| p_name := str "Acquisition"; p_body := Fields [fld "NrExposure" "60" false; fld "nothing" "" false; fld "formula" "a=b, c" true; fld "ZAxisUnit" "Count" true]; p_end := [32; 10; 13] |} ].
Lemma without_dec : forall cs s, forallb (fun c => forallb (fun d => negb (c =? d)) (str cs)) s = true -> without cs s.
Proof. intros cs s H. rewrite forallb_forall in H. apply Forall_forall. intros c I K. specialize (H c I). rewrite forallb_forall in H. specialize (H c K). lia. Qed.
Lemma not_in_dec : forall c s, forallb (fun d => negb (c =? d)) s = true -> ~ In c s.
Proof. intros c s H I. rewrite forallb_forall in H. specialize (H c I). lia. Qed.
Ltac field_tac := split; [apply without_dec; reflexivity|split; [apply without_dec; reflexivity|]]; cbn [f_quoted fld f_value]; first [apply not_in_dec; reflexivity|split; [apply not_in_dec; reflexivity|intros [? H]; discriminate H]].
Ltac fresh_tac := repeat (apply NoDup_cons; [cbn; intuition discriminate|]); apply NoDup_nil.
Example C90_example : Forall part_ok ex_parts /\ NoDup (map p_name ex_parts) /\
  process_comment (comment_text ex_parts) = Ok [(str "Application", Entries [(str "Date", str "12/11/2021"); (str "Time", str "11:08:45.23"); (str "Software", str "HPD-TA")]); (str "Comment", Plain (str "nothing to say, here]")); (str "Empty", Plain []);
    (str "Acquisition", Entries [(str "NrExposure", str "60"); (str "nothing", []); (str "formula", str "a=b, c"); (str "ZAxisUnit", str "Count")])].
Proof.
  split; [|split; [fresh_tac|vm_compute; reflexivity]]. constructor; [|constructor; [|constructor; [|constructor; [|constructor]]]]; (split; [apply without_dec; reflexivity|]); cbn [p_body p_end body_ok].
  - split; [|repeat constructor]. split; [repeat (apply Forall_cons; [field_tac|]); apply Forall_nil|]. split; [fresh_tac|]. exists [fld "Date" "12/11/2021" true; fld "Time" "11:08:45.23" true], (fld "Software" "HPD-TA" false). split; [reflexivity|]. right. split; [repeat (apply Forall_cons; [apply not_in_dec; reflexivity|]); apply Forall_nil|]. exists (str "HPD-T"), 65. split; reflexivity.
  - split; [|repeat constructor]. split; [apply without_dec; reflexivity|]. right. exists (str "nothing to say, here"), 93. split; reflexivity.
  - split; [|repeat constructor]. split; [constructor|left; reflexivity].
  - split; [|repeat constructor]. split; [repeat (apply Forall_cons; [field_tac|]); apply Forall_nil|]. split; [fresh_tac|]. exists [fld "NrExposure" "60" false; fld "nothing" "" false; fld "formula" "a=b, c" true], (fld "ZAxisUnit" "Count" true). split; [reflexivity|]. left. reflexivity.
Qed.
Example C90_equal_refuted_example : Forall field_ok ([fld "a" "x=y" true] ++ [fld "b" "1" false]) /\ Exists (fun f => In 61 (f_value f)) ([fld "a" "x=y" true] ++ [fld "b" "1" false]) /\ read_section (str "a=" ++ [34] ++ str "x=y" ++ [34] ++ str ",b=1") = Err ValueError.
Proof. split; [repeat (apply Forall_cons; [field_tac|]); apply Forall_nil|]. split; [|reflexivity]. left. cbn. auto. Qed.
Example C90_empty_refuted_example : Forall field_ok ([fld "a" "1" true] ++ [fld "b" "" false]) /\ NoDup (map f_key ([fld "a" "1" true] ++ [fld "b" "" false])) /\ read_section (body_text (Fields ([fld "a" "1" true] ++ [fld "b" "" false]))) = Err IndexError.
Proof. split; [repeat (apply Forall_cons; [field_tac|]); apply Forall_nil|]. split; [fresh_tac|reflexivity]. Qed.
Example C90_bracket_refuted_example : without "[]" (str "Camera") /\ without "[" (str "Range=""-5") /\ without "[]" (str "nm""") /\ process_comment (str "[Camera],Range=""-5[nm""") = Err ValueError.
Proof. repeat split; try reflexivity; apply without_dec; reflexivity. Qed.

Print Assumptions C90_section.
Print Assumptions C90_comment.
Print Assumptions C90_equal_refuted.
Print Assumptions C90_empty_refuted.
Print Assumptions C90_bracket_refuted.
Print Assumptions C90_none_refuted.
