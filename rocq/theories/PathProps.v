(** Properties C08 and C09: file name helpers. *)
From Verif Require Import Base Text PathModel.

(** * Specification *)
(** [name] is [stem] followed by [suffix], the suffix being empty or the last dot and what
    follows it. *)
Definition is_split (name stem suffix : pystr) : Prop :=
  name = stem ++ suffix /\
  (suffix = [] \/ (stem <> [] /\ exists ext, suffix = 46 :: ext /\ ext <> [] /\ ~ In 46 ext)).

Definition numbered (stem suffix : pystr) (k : Z) : pystr := stem ++ 45 :: dec k ++ suffix.

(** * Lemmas *)
Lemma rfind_dot_spec : forall s i, rfind_dot s = Some i ->
  s = firstn i s ++ 46 :: skipn (S i) s /\ ~ In 46 (skipn (S i) s) /\ (i < List.length s)%nat.
Proof.
  assert (N : forall s, rfind_dot s = None -> ~ In 46 s).
  { induction s as [|c s IH]; cbn [rfind_dot]; intros H K; [exact K|].
    destruct (rfind_dot s); [discriminate|]. destruct (c =? 46) eqn:E; [discriminate|].
    destruct K as [K|K]; [lia|]. exact (IH eq_refl K). }
  induction s as [|c s IH]; intros i H; [discriminate|]. cbn [rfind_dot] in H.
  destruct (rfind_dot s) as [j|] eqn:E.
  - injection H as <-. destruct (IH j eq_refl) as [A [B C]].
    cbn [firstn app List.length]. split; [|split; [exact B|lia]].
    change (skipn (S (S j)) (c :: s)) with (skipn (S j) s). f_equal. exact A.
  - destruct (c =? 46) eqn:D; [|discriminate]. injection H as <-.
    cbn [firstn app skipn List.length]. split; [f_equal; lia|]. split; [apply N; exact E|lia].
Qed.

Lemma stem_suffix_split : forall name, is_split name (fst (stem_suffix name)) (snd (stem_suffix name)).
Proof.
  intros name. unfold stem_suffix, is_split.
  destruct (rfind_dot name) as [i|] eqn:E.
  - destruct (rfind_dot_spec _ _ E) as [A [B C]].
    destruct ((0 <? i)%nat && (i <? List.length name - 1)%nat) eqn:D; cbn [fst snd].
    + split; [symmetry; apply firstn_skipn|]. right. apply andb_prop in D. destruct D as [D1 D2].
      apply Nat.ltb_lt in D1. apply Nat.ltb_lt in D2. split.
      * intro K. apply (f_equal (@List.length Z)) in K. rewrite firstn_length in K. cbn in K. lia.
      * exists (skipn (S i) name). split.
        -- apply (app_inv_head (firstn i name)). rewrite firstn_skipn. exact A.
        -- split; [|exact B]. intro K. apply (f_equal (@List.length Z)) in K. rewrite skipn_length in K. cbn in K. lia.
    + split; [symmetry; apply app_nil_r|]. left. reflexivity.
  - cbn [fst snd]. split; [symmetry; apply app_nil_r|]. left. reflexivity.
Qed.

Lemma eqb_path_spec : forall a b, eqb_path a b = true <-> a = b.
Proof.
  intros [a1 a2] [b1 b2]. unfold eqb_path. cbn [fst snd]. rewrite andb_true_iff, !eqb_str_spec.
  split; [intros [-> ->]; reflexivity|intro H; injection H; auto].
Qed.

Definition in_files (files : list path) (p : path) : bool := existsb (eqb_path p) files.

Lemma in_files_spec : forall files p, in_files files p = true <-> In p files.
Proof.
  intros files p. unfold in_files. rewrite existsb_exists. split.
  - intros [q [H E]]. apply eqb_path_spec in E. subst. exact H.
  - intro H. exists p. split; [exact H|]. apply eqb_path_spec. reflexivity.
Qed.

Lemma candidate_inj : forall p i j, 0 <= i -> 0 <= j ->
  append2pathname p (45 :: str_int i) = append2pathname p (45 :: str_int j) -> i = j.
Proof.
  intros [d name] i j Hi Hj H. unfold append2pathname in H. cbn [fst snd] in H.
  destruct (stem_suffix name) as [st su]. injection H as H.
  apply app_inv_head in H. injection H as H. apply app_inv_tail in H.
  unfold str_int in H. destruct (i <? 0) eqn:A; [lia|]. destruct (j <? 0) eqn:B; [lia|].
  apply dec_inj in H; assumption.
Qed.

(** The loop: if all candidates below [i] exist, it finds the least one from [i]. *)
Lemma incremental_loop : forall files p depth i, 0 <= i ->
  In p files ->
  (List.length files <= depth + Z.to_nat i - 1)%nat -> 1 <= i -> (0 < depth)%nat ->
  (forall j, 1 <= j < i -> In (append2pathname p (45 :: str_int j)) files) ->
  exists k, i <= k /\
    incremental_filename depth (in_files files) p i = Ok (append2pathname p (45 :: str_int k)) /\
    ~ In (append2pathname p (45 :: str_int k)) files /\
    forall j, 1 <= j < k -> In (append2pathname p (45 :: str_int j)) files.
Proof.
  intros files p. induction depth as [|depth IH]; intros i Hi Hp Hlen H1 Hd Hbelow; [lia|].
  cbn [incremental_filename]. rewrite (proj2 (in_files_spec files p) Hp).
  destruct (in_files files (append2pathname p (45 :: str_int i))) eqn:E.
  - apply in_files_spec in E.
    (* all candidates 1..i exist, so there are at least i files *)
    assert (C : (Z.to_nat i <= List.length files)%nat).
    { rewrite <- (zseq_length (Z.to_nat i) 1) at 1.
      rewrite <- (map_length (fun j => append2pathname p (45 :: str_int j))).
      apply NoDup_incl_length.
      - apply NoDup_map_in; [|apply NoDup_zseq].
        intros a b Ha Hb. rewrite in_zseq in Ha, Hb. apply candidate_inj; lia.
      - intros q Hq. apply in_map_iff in Hq. destruct Hq as [j [<- Hj]]. rewrite in_zseq in Hj.
        destruct (Z.eq_dec j i) as [->|K]; [exact E|apply Hbelow; lia]. }
    assert (Dpos : (0 < depth)%nat \/ depth = O) by lia.
    destruct Dpos as [Dpos|D0].
    + destruct (IH (i + 1)) as [k [K1 [K2 [K3 K4]]]]; [lia|exact Hp|lia|lia|exact Dpos| |].
      * intros j Hj. destruct (Z.eq_dec j i) as [->|K]; [exact E|apply Hbelow; lia].
      * exists k. split; [lia|]. split; [exact K2|]. split; assumption.
    + (* depth budget used up: then files = candidates 1..i plus the file itself *)
      exfalso. subst depth.
      assert (C2 : (Z.to_nat i + 1 <= List.length files)%nat); [|lia].
      replace (Z.to_nat i + 1)%nat with (List.length (p :: map (fun j => append2pathname p (45 :: str_int j)) (zseq 1 (Z.to_nat i))))
        by (cbn [List.length]; rewrite map_length, zseq_length; lia).
      apply NoDup_incl_length.
      * constructor.
        -- intro K. apply in_map_iff in K. destruct K as [j [K Hj]].
           unfold append2pathname in K. destruct p as [d name]. cbn [fst snd] in K.
           pose proof (stem_suffix_split name) as [S _].
           destruct (stem_suffix name) as [st su]. cbn [fst snd] in S. injection K as K. rewrite S in K. clear S.
           apply app_inv_head in K. apply (f_equal (@List.length Z)) in K.
           cbn [List.length app] in K. rewrite app_length in K. lia.
        -- apply NoDup_map_in; [|apply NoDup_zseq].
           intros a b Ha Hb. rewrite in_zseq in Ha, Hb. apply candidate_inj; lia.
      * intros q [<-|Hq]; [exact Hp|]. apply in_map_iff in Hq. destruct Hq as [j [<- Hj]]. rewrite in_zseq in Hj.
        destruct (Z.eq_dec j i) as [->|K]; [exact E|apply Hbelow; lia].
  - exists i. split; [lia|]. split; [reflexivity|]. split; [|exact Hbelow].
    intro K. apply in_files_spec in K. congruence.
Qed.

(** * C08 *)
Theorem C08_incremental_filename : forall files parent name depth,
  (0 < depth)%nat -> (List.length files <= depth)%nat ->
  exists stem suffix, is_split name stem suffix /\
  exists r, incremental_filename depth (in_files files) (parent, name) 1 = Ok r /\ ~ In r files /\
    (~ In (parent, name) files -> r = (parent, name)) /\
    (In (parent, name) files ->
       exists k, 1 <= k /\ r = (parent, numbered stem suffix k) /\
         forall j, 1 <= j < k -> In (parent, numbered stem suffix j) files).
Proof.
  intros files parent name depth Hd Hlen.
  exists (fst (stem_suffix name)), (snd (stem_suffix name)). split; [apply stem_suffix_split|].
  assert (A : forall k, 1 <= k -> append2pathname (parent, name) (45 :: str_int k)
     = (parent, numbered (fst (stem_suffix name)) (snd (stem_suffix name)) k)).
  { intros k Hk. unfold append2pathname, numbered. cbn [fst snd].
    destruct (stem_suffix name) as [st su]. cbn [fst snd]. unfold str_int.
    destruct (k <? 0) eqn:E; [lia|]. reflexivity. }
  destruct (in_files files (parent, name)) eqn:E.
  - apply in_files_spec in E.
    destruct (incremental_loop files (parent, name) depth 1) as [k [K1 [K2 [K3 K4]]]];
      [lia|exact E|lia|lia|exact Hd|intros; lia|].
    exists (append2pathname (parent, name) (45 :: str_int k)). split; [exact K2|]. split; [exact K3|].
    split; [contradiction|]. intros _. exists k. split; [exact K1|]. split; [apply A; exact K1|].
    intros j Hj. rewrite <- A by lia. apply K4. exact Hj.
  - assert (N : ~ In (parent, name) files) by (intro K; apply in_files_spec in K; congruence).
    exists (parent, name). destruct depth as [|depth]; [lia|]. cbn [incremental_filename]. rewrite E.
    split; [reflexivity|]. split; [exact N|]. split; [reflexivity|]. contradiction.
Qed.
Print Assumptions C08_incremental_filename.

Example C08_example :
  incremental_filename 5 (in_files [([], str "a.b.tif"); ([], str "a.b-1.tif"); ([], str "a.b-3.tif")])
    ([], str "a.b.tif") 1 = Ok ([], str "a.b-2.tif").
Proof. reflexivity. Qed.

(** The search is a recursion: however deep the interpreter lets it go, some directory
    makes it fail. *)
Theorem C08_recursion_limit_refuted : forall depth, exists files p,
  incremental_filename depth (in_files files) p 1 = Err OtherError.
Proof.
  intros depth. set (p := ([], str "a") : path).
  exists (p :: map (fun j => append2pathname p (45 :: str_int j)) (zseq 1 depth)), p.
  assert (H : forall files n i, In p files ->
    (forall j, i <= j < i + Z.of_nat n -> In (append2pathname p (45 :: str_int j)) files) ->
    incremental_filename n (in_files files) p i = Err OtherError).
  { intros files. induction n as [|n IH]; intros i Hp H; [reflexivity|].
    cbn [incremental_filename]. rewrite (proj2 (in_files_spec files p) Hp).
    rewrite (proj2 (in_files_spec files _) (H i ltac:(lia))).
    apply IH; [exact Hp|]. intros j Hj. apply H. lia. }
  apply H; [left; reflexivity|]. intros j Hj. right. apply in_map_iff. exists j.
  split; [reflexivity|]. apply in_zseq. lia.
Qed.
Print Assumptions C08_recursion_limit_refuted.

(** * C09 *)
(** Spelled out: the file does not exist, or the first answer is y or Y, or some later
    answer is y and all answers before were neither of y and n. *)
Definition undecided (a : pystr) : Prop := a <> str "y" /\ a <> str "n".
Definition consent (answers : list pystr) : Prop :=
  match answers with
  | [] => False
  | a :: rest =>
      a = str "y" \/ a = str "Y" \/
      (a <> str "n" /\ a <> str "N" /\
       exists before after, rest = before ++ str "y" :: after /\ Forall undecided before)
  end.

Lemma ask_again_spec : forall rest a, ask_again a rest = true <->
  a = str "y" \/ (undecided a /\ exists before after, rest = before ++ str "y" :: after /\ Forall undecided before).
Proof.
  induction rest as [|b rest IH]; intros a; cbn [ask_again];
    (destruct (eqb_str a (str "y")) eqn:Ey;
      [apply eqb_str_spec in Ey; split; auto|apply eqb_str_neq in Ey];
     destruct (eqb_str a (str "n")) eqn:En;
      [apply eqb_str_spec in En; split; [discriminate|intros [K|[[_ K] _]]; congruence]|apply eqb_str_neq in En]).
  - split; [discriminate|]. intros [K|[_ [before [after [K _]]]]]; [congruence|].
    destruct before; discriminate.
  - rewrite IH. split.
    + intros [->|[Ub [before [after [-> F]]]]]; right; (split; [split; assumption|]).
      * exists [], rest. split; [reflexivity|constructor].
      * exists (b :: before), after. split; [reflexivity|constructor; assumption].
    + intros [K|[_ [[|x before] [after [E F]]]]]; [congruence| |].
      * injection E as -> _. left. reflexivity.
      * injection E as -> ->. inversion F; subst. right. split; [assumption|].
        exists before, after. split; [reflexivity|assumption].
Qed.

Lemma lower_single : forall a c u, (c = 121 /\ u = 89) \/ (c = 110 /\ u = 78) ->
  (lower a = [c] <-> a = [c] \/ a = [u]).
Proof.
  intros a c u Hcu. unfold lower. split.
  - destruct a as [|x [|y a]]; cbn [map]; intro H; try discriminate.
    injection H as H. unfold lower_char in H.
    destruct ((65 <=? x) && (x <=? 90)) eqn:E; [right|left]; f_equal; lia.
  - destruct Hcu as [[-> ->]|[-> ->]]; intros [->| ->]; reflexivity.
Qed.

Theorem C09_overwrite_only_with_consent : forall is_file is_dir is_zspy answers,
  overwrite is_file is_dir is_zspy answers = true <->
  (is_file = false /\ (is_dir = false \/ is_zspy = false)) \/
  consent answers.
Proof.
  intros is_file is_dir is_zspy answers. unfold overwrite.
  destruct (is_file || is_dir && is_zspy) eqn:E.
  - assert (N : ~ (is_file = false /\ (is_dir = false \/ is_zspy = false)))
      by (destruct is_file, is_dir, is_zspy; cbn in E; intuition congruence).
    destruct answers as [|a rest]; cbn [consent].
    + split; [discriminate|]. tauto.
    + rewrite ask_again_spec. unfold undecided.
      pose proof (lower_single a 121 89 ltac:(auto)) as Ly.
      pose proof (lower_single a 110 78 ltac:(auto)) as Ln.
      change (str "y") with [121] in *. change (str "n") with [110].
      change (str "Y") with [89]. change (str "N") with [78].
      assert (D : {a = [121]} + {a <> [121]}) by (apply list_eq_dec, Z.eq_dec).
      assert (D2 : {a = [89]} + {a <> [89]}) by (apply list_eq_dec, Z.eq_dec).
      fold undecided in *. split; [intros H; right|intros [H|H]; [contradiction|]]; tauto.
  - split; [intros _; left|reflexivity]. destruct is_file, is_dir, is_zspy; cbn in E; intuition congruence.
Qed.
Print Assumptions C09_overwrite_only_with_consent.

Example C09_example : overwrite true false false [str "maybe"; str "yes"; str "y"; str "n"] = true /\
  overwrite true false false [str "maybe"; str "n"; str "y"] = false.
Proof. split; reflexivity. Qed.

(** An upper-case Y is accepted as the first answer but not as a later one. *)
Theorem C09_uppercase_on_retry_refuted : exists answers,
  overwrite true false false [str "Y"] = true /\
  answers = [str "x"; str "Y"] /\ overwrite true false false answers = false.
Proof. eexists. split; [reflexivity|]. split; reflexivity. Qed.
Print Assumptions C09_uppercase_on_retry_refuted.
