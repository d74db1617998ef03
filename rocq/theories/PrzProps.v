(** Properties C40 and C62: reading PantaRhei files. *)
From Verif Require Import Base Text Bytes Utf8 RowMajor HierModel SfsModel SfsProps BcfUnpack NpyModel NpyProps PrzModel.

(** * Specification *)
Definition listed (m n : pystr) : Prop :=
  ((m = str "numpy._core.multiarray" \/ m = str "numpy.core.multiarray") /\ (n = str "_reconstruct" \/ n = str "scalar"))
  \/ (m = str "numpy" /\ (n = str "ndarray" \/ n = str "dtype"))
  \/ (m = str "_codecs" /\ n = str "encode").
(** Every global inside a value is on the list. *)
Fixpoint clean (v : val) : Prop :=
  let fix all l := match l with [] => True | x :: l' => clean x /\ all l' end in
  match v with
  | VText _ | VPlain => True
  | VCont l => all l
  | VGlobal m n => listed m n
  | VCall f args => clean f /\ all args
  | VState x y => clean x /\ clean y
  end.
Definition names_listed (l : list (pystr * pystr)) : Prop := Forall (fun x => listed (fst x) (snd x)) l.
Definition state_of (o : outcome) : st := match o with Done _ s => s | Refused _ _ s => s | Failed _ s => s end.

(** * C40 *)
Lemma find_class_spec : forall m n, find_class m n = true <-> listed m n.
Proof.
  intros m n. unfold find_class, white_list, listed. cbn [lookup].
  repeat match goal with |- context[eqb_str m ?x] => destruct (eqb_str m x) eqn:? end;
    repeat match goal with H : eqb_str _ _ = true |- _ => apply eqb_str_spec in H | H : eqb_str _ _ = false |- _ => apply eqb_str_neq in H end;
    cbn [existsb]; rewrite ?Bool.orb_false_r, ?Bool.orb_true_iff, ?eqb_str_spec.
  - subst. intuition discriminate.
  - subst. intuition discriminate.
  - subst. intuition discriminate.
  - subst. intuition discriminate.
  - intuition discriminate.
Qed.

Lemma clean_cont : forall l, clean (VCont l) <-> Forall clean l.
Proof. induction l as [|x l IH]; cbn; [split; auto|]. split; intro H; [destruct H as [H1 H2]; constructor; [exact H1|apply IH; exact H2]|inversion H; subst; split; [assumption|apply IH; assumption]]. Qed.
Lemma clean_call : forall f l, clean (VCall f l) <-> clean f /\ Forall clean l.
Proof. intros f l. pose proof (clean_cont l) as C. cbn in *. tauto. Qed.

Definition good (s : st) : Prop :=
  Forall clean (stack s) /\ Forall (Forall clean) (meta s) /\ Forall (fun x => clean (snd x)) (memo s) /\ names_listed (trace s) /\ Forall clean (calls s).
Definition good_result (r : step_result) : Prop :=
  match r with Next s => good s | Final (Done v s) => clean v /\ good s | Final (Refused m n s) => ~ listed m n /\ good s | Final (Failed _ s) => good s end.

Lemma good_with : forall l s, good s -> Forall clean l -> good (with_stack l s).
Proof. intros l s [H1 [H2 [H3 [H4 H5]]]] H. repeat split; assumption. Qed.
Lemma good_push : forall v s, good s -> clean v -> good (push v s).
Proof. intros v s H Hv. apply good_with; [exact H|]. constructor; [exact Hv|apply H]. Qed.
Lemma good_resolve : forall m n s, good s -> good_result (resolve m n s).
Proof.
  intros m n s [H1 [H2 [H3 [H4 H5]]]]. unfold resolve. destruct (find_class m n) eqn:E; cbn [good_result].
  - apply find_class_spec in E. repeat split; try assumption; constructor; assumption.
  - split; [|repeat split; assumption]. intro L. apply find_class_spec in L. congruence.
Qed.
Lemma good_call : forall f args s, good s -> clean f -> Forall clean args -> good (call f args s).
Proof.
  intros f args s [H1 [H2 [H3 [H4 H5]]]] Hf Ha. repeat split; try assumption; cbn [stack calls].
  - constructor; [apply clean_call; auto|assumption].
  - constructor; assumption.
Qed.
Lemma good_pop_mark : forall s l s', good s -> pop_mark s = Some (l, s') -> Forall clean l /\ good s'.
Proof.
  intros s l s' [H1 [H2 [H3 [H4 H5]]]] H. unfold pop_mark in H. destruct (meta s) as [|x m] eqn:E; [discriminate|]. injection H as <- <-.
  inversion H2; subst. split; [apply Forall_rev; exact H1|]. repeat split; assumption.
Qed.
Lemma memo_get_clean : forall i l v, Forall (fun x => clean (snd x)) l -> memo_get i l = Some v -> clean v.
Proof. intros i l v H. induction H as [|[j w] l Hw _ IH]; [discriminate|]. cbn [memo_get]. destruct (i =? j); [|exact IH]. intro K. injection K as <-. exact Hw. Qed.
Lemma firstn_clean : forall n l, Forall clean l -> Forall clean (firstn n l).
Proof. intros n l H. rewrite <- (firstn_skipn n l) in H. apply Forall_app in H. apply H. Qed.
Lemma skipn_clean : forall n l, Forall clean l -> Forall clean (skipn n l).
Proof. intros n l H. rewrite <- (firstn_skipn n l) in H. apply Forall_app in H. apply H. Qed.
Lemma clean_add : forall x l, clean x -> Forall clean l -> clean (VState x (VCont l)).
Proof. intros x l H1 H2. change (clean x /\ clean (VCont l)). split; [exact H1|apply clean_cont; exact H2]. Qed.
Lemma cont_app : forall a b, clean (VCont a) -> Forall clean b -> clean (VCont (a ++ b)).
Proof. intros a b H1 H2. apply clean_cont. apply Forall_app. split; [apply clean_cont; exact H1|exact H2]. Qed.

Ltac inv_stack := repeat match goal with H : Forall clean (_ :: _) |- _ => inversion H; subst; clear H end.

Lemma step_good : forall reg o s, good s -> good_result (step reg o s).
Proof.
  intros reg o s G. pose proof G as [H1 [H2 [H3 [H4 H5]]]].
  destruct o; cbn [step]; unfold fail.
  - apply good_push; [exact G|exact I].
  - apply good_push; [exact G|exact I].
  - cbn. repeat split; try assumption; [constructor|constructor; assumption].
  - destruct (stack s) as [|v l] eqn:E.
    + destruct (pop_mark s) as [[l s']|] eqn:P; [|exact G]. apply (good_pop_mark s l s' G P).
    + inv_stack. apply good_with; assumption.
  - destruct (pop_mark s) as [[l s']|] eqn:P; [|exact G]. apply (good_pop_mark s l s' G P).
  - destruct (stack s) as [|v l] eqn:E; [exact G|]. inv_stack. apply good_push; assumption.
  - destruct (pop_mark s) as [[l s']|] eqn:P; [|exact G]. destruct (good_pop_mark s l s' G P) as [L G']. apply good_push; [exact G'|]. apply clean_cont. exact L.
  - destruct (_ <? _)%nat; [exact G|]. apply good_with; [exact G|]. constructor; [apply clean_cont; apply Forall_rev; apply firstn_clean; exact H1|apply skipn_clean; exact H1].
  - pose proof (skipn_clean n _ H1) as K. pose proof (Forall_rev (firstn_clean n _ H1)) as K2. destruct (skipn n (stack s)) as [|x r]; [exact G|]. inv_stack.
    destruct x; (apply good_with; [exact G|]; constructor; [|assumption]); first [apply cont_app; assumption | apply clean_add; assumption].
  - destruct (pop_mark s) as [[l s']|] eqn:P; [|exact G]. destruct (good_pop_mark s l s' G P) as [L G']. pose proof G' as [K _].
    destruct (stack s') as [|x r]; [exact G'|]. inv_stack.
    destruct x; (apply good_with; [exact G'|]; constructor; [|assumption]); first [apply cont_app; assumption | apply clean_add; assumption].
  - apply good_resolve. exact G.
  - destruct (stack s) as [|v1 [|v2 l]]; [exact G|destruct v1; exact G|]. inv_stack.
    destruct v1; try exact G; destruct v2; try exact G. apply good_resolve. apply good_with; assumption.
  - destruct (reg code) as [[m n]|]; [|exact G]. apply good_resolve. exact G.
  - destruct (pop_mark s) as [[l s']|] eqn:P; [|exact G]. destruct (good_pop_mark s l s' G P) as [L G'].
    pose proof (good_resolve m n s' G') as R. destruct (resolve m n s') as [s2|o]; [|exact R]. cbn [good_result] in R. pose proof R as [K _].
    destruct (stack s2) as [|f r]; [exact R|]. inv_stack. apply good_call; [apply good_with; assumption|assumption|assumption].
  - destruct (pop_mark s) as [[[|f l] s']|] eqn:P; [exact G| |exact G]. destruct (good_pop_mark s _ s' G P) as [L G']. inv_stack. apply good_call; assumption.
  - destruct (stack s) as [|v1 [|v2 l]]; [exact G|destruct v1; exact G|]. inv_stack. destruct v1; try exact G.
    apply good_call; [apply good_with; assumption|assumption|apply clean_cont; assumption].
  - destruct (stack s) as [|v1 [|v2 l]]; [exact G|destruct v1; exact G|]. inv_stack. destruct v1; try exact G.
    apply good_call; [apply good_with; assumption|assumption|apply clean_cont; assumption].
  - destruct (stack s) as [|v1 [|v2 [|v3 l]]]; [exact G|exact G|destruct v2; exact G|]. inv_stack. destruct v2; try exact G.
    apply good_call; [apply good_with; assumption|assumption|]. apply Forall_app. split; [apply clean_cont; assumption|constructor; [assumption|constructor]].
  - destruct (stack s) as [|v1 [|v2 l]]; [exact G|exact G|]. inv_stack. apply good_with; [exact G|]. constructor; [split; assumption|assumption].
  - destruct (stack s) as [|v l] eqn:E; [exact G|]. inv_stack. cbn. repeat split; cbn [stack meta memo trace calls]; try assumption; [constructor; assumption|constructor; assumption].
  - destruct (memo_get i (memo s)) as [v|] eqn:E; [|exact G]. apply good_push; [exact G|]. eapply memo_get_clean; eassumption.
  - exact G.
  - destruct (stack s) as [|v l]; [exact G|]. inv_stack. split; [assumption|apply good_with; assumption].
Qed.
Lemma start_good : good start.
Proof. repeat split; constructor. Qed.
Lemma run_good : forall reg ops s, good s -> good_result (Final (run reg ops s)).
Proof.
  induction ops as [|o ops IH]; intros s G; [exact G|]. cbn [run]. pose proof (step_good reg o s G) as K.
  destruct (step reg o s) as [s'|r]; [apply IH; exact K|exact K].
Qed.

(** Whatever the stream: names that were resolved, functions that were called and the
    resulting value come from the list; a refused name is not on the list. *)
Theorem C40_listed : forall registry ops,
  let r := load registry ops in
  names_listed (trace (state_of r)) /\ Forall clean (calls (state_of r))
  /\ (forall v s, r = Done v s -> clean v) /\ (forall m n s, r = Refused m n s -> ~ listed m n).
Proof.
  intros registry ops r. pose proof (run_good registry ops start start_good) as G. fold (load registry ops) in G. fold r in G.
  destruct r as [v s|m n s|e s]; cbn [good_result state_of] in *.
  - destruct G as [Gv [_ [_ [_ [G4 G5]]]]]. repeat split; try assumption; intros; [congruence|discriminate].
  - destruct G as [Gn [_ [_ [_ [G4 G5]]]]]. repeat split; try assumption; intros; [discriminate|congruence].
  - destruct G as [_ [_ [_ [G4 G5]]]]. repeat split; try assumption; intros; discriminate.
Qed.

(** The first name that is not on the list ends the reading, whatever follows. *)
Fixpoint steps (registry : Z -> option (pystr * pystr)) (ops : list op) (s : st) : option st :=
  match ops with [] => Some s | o :: ops' => match step registry o s with Next s' => steps registry ops' s' | Final _ => None end end.
Lemma run_app : forall reg a b s s', steps reg a s = Some s' -> run reg (a ++ b) s = run reg b s'.
Proof. induction a as [|o a IH]; intros b s s' H; cbn in *; [congruence|]. destruct (step reg o s); [apply IH; exact H|discriminate]. Qed.
Definition looks_up (registry : Z -> option (pystr * pystr)) (o : op) (s : st) (m n : pystr) : Prop :=
  o = OGlobal m n
  \/ (o = OStackGlobal /\ exists l, stack s = VText n :: VText m :: l)
  \/ (exists c, o = OExt c /\ registry c = Some (m, n))
  \/ (o = OInst m n /\ meta s <> []).
Theorem C40_refused : forall registry before o s m n after,
  steps registry before start = Some s -> looks_up registry o s m n -> ~ listed m n ->
  exists s', load registry (before ++ o :: after) = Refused m n s' /\ trace s' = trace s /\ calls s' = calls s.
Proof.
  intros registry before o s m n after Hs Hl Hn. unfold load. rewrite (run_app _ _ _ _ _ Hs). cbn [run].
  assert (F : find_class m n = false) by (destruct (find_class m n) eqn:E; [apply find_class_spec in E; contradiction|reflexivity]).
  destruct Hl as [-> |[[-> [l E]]|[[c [-> E]]|[-> E]]]]; cbn [step].
  - unfold resolve. rewrite F. exists s. auto.
  - rewrite E. unfold resolve. rewrite F. eexists. split; [reflexivity|]. auto.
  - rewrite E. unfold resolve. rewrite F. exists s. auto.
  - unfold pop_mark. destruct (meta s) as [|x q]; [congruence|]. unfold resolve. rewrite F. eexists. split; [reflexivity|]. auto.
Qed.
(** Names on the list are resolved. *)
Theorem C40_allowed : forall registry before s m n after,
  steps registry before start = Some s -> listed m n ->
  exists s', steps registry [OGlobal m n] s = Some s' /\ trace s' = (m, n) :: trace s /\ stack s' = VGlobal m n :: stack s
    /\ load registry (before ++ OGlobal m n :: after) = run registry after s'.
Proof.
  intros registry before s m n after Hs Hl. apply find_class_spec in Hl. unfold load. rewrite (run_app _ _ _ _ _ Hs).
  cbn [run steps step]. unfold resolve. rewrite Hl. eexists. split; [reflexivity|]. auto.
Qed.
Definition np_stream := [OGlobal (str "numpy._core.multiarray") (str "_reconstruct"); OPut 0; OGlobal (str "numpy") (str "ndarray"); OPlain; OTupleN 1; OPlain; OTupleN 3; OReduce; OStop].
Example ex_C40 : exists v s, load (fun _ => None) np_stream = Done v s
  /\ trace s = [(str "numpy", str "ndarray"); (str "numpy._core.multiarray", str "_reconstruct")].
Proof. do 2 eexists. vm_compute. auto. Qed.
Example ex_C40_refused : exists s, load (fun _ => None) [OMark; OText (str "rm -rf /"); OInst (str "os") (str "system"); OStop] = Refused (str "os") (str "system") s
  /\ ~ listed (str "os") (str "system")
  /\ exists s', load (fun _ => None) [OText (str "numpy"); OText (str "ndarray.__class__"); OStackGlobal; OStop] = Refused (str "numpy") (str "ndarray.__class__") s'.
Proof.
  eexists. split; [vm_compute; reflexivity|]. split; [|eexists; vm_compute; reflexivity].
  intro K. apply find_class_spec in K. vm_compute in K. discriminate.
Qed.

(** Arrays without objects are never unpickled. *)
Theorem C40_objects_only : forall registry decode major pad descr fortran sh h rest, major = 1 \/ major = 2 \/ major = 3 ->
  ~ In 39 descr -> Forall (fun n => 0 <= n) sh -> npy_header major pad descr fortran sh h -> zlen h < (if major =? 1 then 2 ^ 16 else 2 ^ 32) ->
  read_pickled registry decode (npy_prefix major h ++ rest)
  = if contains (str "O") descr then load registry (decode rest) else Failed ValueError start.
Proof.
  intros registry decode major pad descr fortran sh h rest Hm Hd Hs Hh Hl. unfold read_pickled.
  rewrite (C61_inspect major pad descr fortran sh h rest Hm Hd Hs Hh Hl). unfold has_object. rewrite skipz_app by reflexivity. reflexivity.
Qed.
Example ex_C40_objects : npy_header 1 0 (str "|O") false [1] (header_text (str "|O") false [1] ++ [10])
  /\ contains (str "O") (str "|O") = true /\ contains (str "O") (str "<f8") = false.
Proof. repeat split; vm_compute; reflexivity. Qed.

(** * C62: lazy reading of the data *)
Lemma records_app : forall A k n (a b : list A), (k * n <= List.length a)%nat -> records k n (a ++ b) = records k n a.
Proof.
  induction k as [|k IH]; intros n a b H; [reflexivity|]. cbn [records]. rewrite firstn_app, skipn_app.
  replace (n - List.length a)%nat with 0%nat by lia. cbn [firstn skipn]. rewrite app_nil_r, IH by (rewrite skipn_length; lia). reflexivity.
Qed.
Lemma bytes_part : forall a b (l : list Z), bytes l -> bytes (firstz a (skipz b l)).
Proof.
  intros a b l H. rewrite firstz_firstn, skipz_skipn. unfold bytes in *. rewrite <- (firstn_skipn (Z.to_nat b) l) in H. apply Forall_app in H. destruct H as [_ H].
  rewrite <- (firstn_skipn (Z.to_nat a) (skipn (Z.to_nat b) l)) in H. apply Forall_app in H. apply H.
Qed.
Lemma offset_nonneg : forall f o sh dt d, bytes f -> inspect f = Ok (o, sh, dt, d) -> 0 <= o.
Proof.
  intros f o sh dt d Hb I. unfold inspect, read in I. destruct (firstz 2 (skipz 6 f)) as [|a [|b [|]]]; try discriminate.
  destruct (if a =? 1 then Ok (2, true) else if (a =? 2) || (a =? 3) then Ok (4, negb (a =? 3)) else Err ValueError) as [[sz lat]|] eqn:M; [|discriminate]. cbn [bind] in I.
  destruct (negb (zlen (firstz sz (skipz 2 (skipz 6 f))) =? sz)); [discriminate|].
  repeat match type of I with bind ?x _ = _ => destruct x; [|discriminate]; cbn [bind] in I end. 
  assert (Ho : o = 6 + 2 + sz + le_val (firstz sz (skipz 2 (skipz 6 f)))) by congruence. clear I. subst o.
  assert (B : bytes (firstz sz (skipz 2 (skipz 6 f)))).
  { replace (skipz 2 (skipz 6 f)) with (skipz 8 f) by (rewrite !skipz_skipn, skipn_skipn; reflexivity). apply bytes_part. exact Hb. }
  pose proof (le_val_range _ B) as R. assert (0 <= sz) by (destruct (a =? 1); [injection M as <- _; lia|]; destruct (_ || _); [injection M as <- _; lia|discriminate]). lia.
Qed.
(** An entry of a zip file: fixed part of the local header, name, extra field, data *)
Definition entry (fixed name extra payload : list Z) : list Z :=
  fixed ++ le 2 (zlen name) ++ le 2 (zlen extra) ++ name ++ extra ++ payload.
Theorem C62_stored : forall pre fixed name extra npy post sh els,
  bytes npy -> zlen fixed = 26 -> zlen name < 65536 -> zlen extra < 65536 ->
  read_data 0 npy = Ok (sh, els) -> Forall (fun n => 0 <= n) sh ->
  read_data_lazy (pre ++ entry fixed name extra npy ++ post) (zlen pre) 0 npy = Ok (sh, els).
Proof.
  intros pre fixed name extra npy post sh els Hb Hf Hn He H Hsh. unfold read_data, content in H. change (0 =? 0) with true in H. cbn iota in H. cbn [bind] in H.
  unfold read_data_lazy, content. change (0 =? 0) with true. cbn iota. cbn [bind].
  unfold read_lazy in H. destruct (inspect npy) as [[[[o s] dt] d]|] eqn:I; [|discriminate]. cbn [bind] in *.
  assert (O : data_offset (pre ++ entry fixed name extra npy ++ post) (zlen pre) o = Ok (zlen (pre ++ fixed ++ le 2 (zlen name) ++ le 2 (zlen extra) ++ name ++ extra) + o)).
  { unfold data_offset, entry. rewrite skipz_app by reflexivity.
    set (L := le 2 (zlen name) ++ le 2 (zlen extra)).
    assert (LL : zlen L = 4) by (unfold L; rewrite zlen_app, !zlen_le; reflexivity).
    replace ((fixed ++ le 2 (zlen name) ++ le 2 (zlen extra) ++ name ++ extra ++ npy) ++ post) with ((fixed ++ L) ++ (name ++ extra ++ npy ++ post))
      by (unfold L; rewrite <- !app_assoc; reflexivity).
    rewrite (firstz_app _ (fixed ++ L)) by (rewrite zlen_app; lia). rewrite skipz_app by exact Hf.
    replace (firstz 4 L) with L by (rewrite <- (app_nil_r L) at 2; rewrite firstz_app by exact LL; reflexivity).
    rewrite LL. change (negb (4 =? 4)) with false. cbn iota. unfold L. rewrite firstz_app by apply zlen_le. rewrite skipz_app by apply zlen_le.
    pose proof (zlen_nonneg _ name). pose proof (zlen_nonneg _ extra).
    rewrite !le_val_small by (cbn; lia). f_equal. rewrite !zlen_app, !zlen_le. lia. }
  rewrite O. cbn [bind]. unfold map_file in *.
  destruct (itemsize dt) as [n|] eqn:In; [|discriminate]. cbn [bind] in *.
  assert (Q1 : 0 <= n) by (unfold itemsize in In; destruct (parse_int _); [|discriminate]; cbn [bind] in In; destruct (_ <=? 0) eqn:E0; [discriminate|]; injection In as <-; lia).
  destruct (zlen npy <? o + prodZ s * n) eqn:E; [discriminate|]. cbn [bind] in H. injection H as <- <-. pose proof (prodZ_nonneg _ Hsh) as Q.
  set (P := pre ++ fixed ++ le 2 (zlen name) ++ le 2 (zlen extra) ++ name ++ extra).
  replace (pre ++ entry fixed name extra npy ++ post) with (P ++ npy ++ post) by (unfold P, entry; rewrite <- !app_assoc; reflexivity).
  rewrite !zlen_app. pose proof (zlen_nonneg _ post).
  destruct (zlen P + (zlen npy + zlen post) <? zlen P + o + prodZ s * n) eqn:E1; [lia|]. cbn [bind]. f_equal. f_equal.
  pose proof (offset_nonneg _ _ _ _ _ Hb I) as Ho.
  rewrite !skipz_skipn. replace (skipn (Z.to_nat (zlen P + o)) (P ++ npy ++ post)) with (skipn (Z.to_nat o) npy ++ post).
  - apply records_app. rewrite skipn_length. 
    rewrite <- Z2Nat.inj_mul by lia. pose proof (Z.mul_nonneg_nonneg _ _ Q Q1). unfold zlen in E. lia.
  - pose proof (zlen_nonneg _ P) as HP. replace (Z.to_nat (zlen P + o)) with (List.length P + Z.to_nat o)%nat by (unfold zlen; lia).
    rewrite skipn_app. replace (skipn (List.length P + Z.to_nat o) P) with (@nil Z) by (symmetry; apply skipn_all2; lia). cbn [app].
    replace (List.length P + Z.to_nat o - List.length P)%nat with (Z.to_nat o) by lia.
    rewrite skipn_app. f_equal. replace (Z.to_nat o - List.length npy)%nat with 0%nat; [reflexivity|].
    pose proof (Z.mul_nonneg_nonneg _ _ Q Q1). unfold zlen in E. lia.
Qed.
Definition npy_ex : list Z := Eval vm_compute in npy_prefix 1 (header_text (str "|u1") false [2] ++ [10]) ++ [7; 8].
Definition fixed_ex : list Z := Eval vm_compute in [80; 75; 3; 4] ++ repeat 0 22.
Example ex_C62 : bytes npy_ex /\ zlen fixed_ex = 26 /\ read_data 0 npy_ex = Ok ([2], [[7]; [8]])
  /\ read_data_lazy ([1; 2; 3] ++ entry fixed_ex (str "data.npy") [9; 9] npy_ex ++ [4]) 3 0 npy_ex = Ok ([2], [[7]; [8]]).
Proof.
  split; [|repeat split; vm_compute; reflexivity].
  apply Forall_forall. intros x Hx. assert (B : forallb (fun c => (0 <=? c) && (c <? 256)) npy_ex = true) by (vm_compute; reflexivity).
  rewrite forallb_forall in B. specialize (B x Hx). apply andb_prop in B. unfold Bytes.is_byte. lia.
Qed.
(** Data that is deflated, as the writer of the same module stores it, is read as it is stored
    in the file: wrong numbers, without an error. *)
Definition deflated_ex : list Z := Eval vm_compute in [1] ++ le 2 (zlen npy_ex) ++ le 2 (65535 - zlen npy_ex) ++ npy_ex.
Theorem C62_deflated_refuted : exists pre payload post sh els els',
  read_data 8 payload = Ok (sh, els)
  /\ read_data_lazy (pre ++ entry fixed_ex (str "data.npy") [] payload ++ post) (zlen pre) 8 payload = Ok (sh, els') /\ els' <> els.
Proof.
  exists [], deflated_ex, [], [2], [[7]; [8]], [[41]; [44]]. split; [vm_compute; reflexivity|]. split; [vm_compute; reflexivity|discriminate].
Qed.

Print Assumptions C40_listed.
Print Assumptions C40_refused.
Print Assumptions C40_allowed.
Print Assumptions C40_objects_only.
Print Assumptions C62_stored.
Print Assumptions C62_deflated_refuted.
