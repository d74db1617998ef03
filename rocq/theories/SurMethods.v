(** Property C77, continued: line ends, lines that are ignored, and the choice of a comment. *)
From Verif Require Import Base Text HierModel SurMetaModel SurMeta.
Local Open Scope Z_scope.

(** Characters that end a line, and line ends *)
Definition breaks : list Z := [10; 11; 12; 13; 28; 29; 30; 133; 8232; 8233].
Definition line_end (e : pystr) : Prop := e = [13; 10] \/ exists c, e = [c] /\ In c breaks.
Definition unbroken (s : pystr) : Prop := s <> [] /\ forall c, In c s -> ~ In c breaks.
Definition text_with (lines ends : list pystr) : pystr := List.concat (map (fun le => fst le ++ snd le) (combine lines ends)).
Lemma breaks_ok : forall c, is_break c = true <-> In c breaks.
Proof. intro c. unfold is_break, breaks. cbn [In]. lia. Qed.
Lemma unbroken_ok : forall s, unbroken s -> no_break s.
Proof. intros s [_ H]. apply Forall_forall. intros c Hc. destruct (is_break c) eqn:E; [|reflexivity]. apply breaks_ok in E. destruct (H c Hc E). Qed.
Lemma splitlines_end : forall l e s, unbroken l -> line_end e -> hd 0 s <> 10 -> splitlines (l ++ e ++ s) = l :: splitlines s.
Proof.
  intros l e s H He Hs. pose proof (unbroken_ok l H) as N. clear H. induction N as [|c l Hc N IH].
  - cbn [app]. destruct He as [-> | [c [-> Hc]]]; cbn [app]; [reflexivity|]. cbn [splitlines]. apply breaks_ok in Hc. rewrite Hc. destruct s as [|d s]; [reflexivity|]. cbn [hd] in Hs. replace (d =? 10) with false by lia. rewrite andb_false_r. reflexivity.
  - cbn [app splitlines]. rewrite Hc, IH. reflexivity.
Qed.
Lemma text_head : forall lines ends, Forall unbroken lines -> hd 0 (text_with lines ends) <> 10.
Proof. intros [|l lines] ends H; [discriminate|]. destruct ends as [|e ends]; [discriminate|]. unfold text_with. cbn. inversion H as [|? ? [N B] _]; subst. destruct l as [|c l]; [contradiction|]. cbn. intro K. apply (B c); [left; reflexivity|]. rewrite K. left. reflexivity. Qed.
Lemma splitlines_ends : forall lines ends, List.length ends = List.length lines -> Forall unbroken lines -> Forall line_end ends -> splitlines (text_with lines ends) = lines.
Proof.
  induction lines as [|l lines IH]; intros [|e ends] L H He; try discriminate L; [reflexivity|]. inversion H as [|? ? H1 H2]; inversion He as [|? ? E1 E2]; subst. change (text_with (l :: lines) (e :: ends)) with ((l ++ e) ++ text_with lines ends). rewrite <- app_assoc.
  rewrite splitlines_end by (try assumption; apply text_head; exact H2). rewrite IH; [reflexivity|cbn in L; lia|exact H2|exact E2].
Qed.

Section Values.
  Variable A : Type.
  Variable eval raw : pystr -> A.
  (** The same lines mean the same, whatever ends them *)
  Theorem C77_ends : forall lines ends ends', List.length ends = List.length lines -> List.length ends' = List.length lines -> Forall unbroken lines -> Forall line_end ends -> Forall line_end ends' ->
    parsed A eval raw (text_with lines ends) = parsed A eval raw (text_with lines ends').
  Proof. intros lines ends ends' L L' H E E'. unfold parsed, check_comments, parse_metadata. rewrite !splitlines_ends by assumption. reflexivity. Qed.
  (** Lines of blanks and lines after two @ are ignored *)
  Definition comment_line (l : pystr) : Prop := Forall (fun c => c = 32 \/ c = 9) l \/ exists s, l = 64 :: 64 :: s.
  Lemma ignored_ok : forall l, comment_line l -> ignored l = true.
  Proof.
    intros l [H|[s ->]].
    - assert (E : lstrip l = []) by (induction H as [|c l [-> | ->] H IH]; [reflexivity|exact IH|exact IH]). unfold ignored, strip. rewrite E. reflexivity.
    - unfold ignored. destruct (strip (64 :: 64 :: s)); reflexivity.
  Qed.
  Theorem C77_ignored : forall before l after ends ends', let lines := before ++ l :: after in List.length ends = List.length lines -> List.length ends' = List.length (before ++ after) ->
    Forall unbroken lines -> Forall line_end ends -> Forall line_end ends' -> comment_line l ->
    parsed A eval raw (text_with lines ends) = parsed A eval raw (text_with (before ++ after) ends').
  Proof.
    intros before l after ends ends' lines L L' H E E' HC. assert (H' : Forall unbroken (before ++ after)) by (unfold lines in H; apply Forall_app in H; destruct H as [H1 H2]; inversion H2; apply Forall_app; split; assumption).
    unfold parsed, check_comments, parse_metadata. rewrite !splitlines_ends by assumption. unfold lines. rewrite !filter_app. cbn [filter]. rewrite (ignored_ok l HC). cbn [negb]. rewrite !fold_left_app. cbn [fold_left].
    set (st := fold_left (parse_line A eval raw) before ([], None)). assert (P : parse_line A eval raw st l = st) by (unfold parse_line; destruct st; rewrite (ignored_ok l HC); reflexivity). rewrite P. reflexivity.
  Qed.
  (** Any other line, and nothing is parsed *)
  Theorem C77_other : forall before c l after ends, let lines := before ++ (c :: l) :: after in List.length ends = List.length lines -> Forall unbroken lines -> Forall line_end ends ->
    is_space c = false -> c <> 36 -> (c = 64 -> hd 0 l <> 64) -> parsed A eval raw (text_with lines ends) = None.
  Proof.
    intros before c l after ends lines L H E S D HA. unfold parsed, check_comments. rewrite splitlines_ends by assumption. unfold lines. rewrite filter_app. cbn [filter].
    assert (I : ignored (c :: l) = false).
    { unfold ignored. pose proof (strip_ne c l S) as N. destruct (strip (c :: l)); [contradiction|]. unfold str. cbn -[Z.eqb]. destruct l as [|d l]; [apply andb_false_r|]. cbn [hd] in HA. cbn -[Z.eqb]. destruct (64 =? c) eqn:E1; [|reflexivity]. destruct (64 =? d) eqn:E2; [|reflexivity]. exfalso. apply HA; lia. }
    rewrite I. cbn [negb]. rewrite forallb_app. cbn [forallb]. assert (T : is_title (c :: l) = false) by (unfold is_title, titlestart, prefix, str; cbn -[Z.eqb]; replace (36 =? c) with false by lia; reflexivity).
    assert (T' : is_entry (c :: l) = false) by (unfold is_entry, prefix; replace (startswith (str "$") (c :: l)) with false; [apply andb_false_r|]; unfold str; cbn -[Z.eqb]; replace (36 =? c) with false by lia; reflexivity).
    rewrite T, T'. cbn [orb]. rewrite andb_false_r. reflexivity.
  Qed.
  (** What is written as a comment *)
  Theorem C77_methods : forall omd d, comment_dict A (Off A) omd = Ok [] /\ comment_dict A (Raw A) omd = Ok omd /\ comment_dict A (Custom A d) omd = Ok d /\ comment_dict A (Other A) omd = Err OtherError.
  Proof. intros. repeat split. Qed.
  (** Metadata without objects are kept *)
  Theorem C77_foreign : forall omd, (forall k l, In (k, Node A l) omd -> startswith (str "Object_") k = false) -> comment_dict A (Auto A) omd = Ok omd.
  Proof.
    intros omd H. cbn [comment_dict]. replace (flat_map _ omd) with (@nil (list (pystr * tree A))); [reflexivity|]. induction omd as [|[k t] omd IH]; [reflexivity|]. cbn [flat_map fst snd]. destruct t as [a|l].
    - apply IH. intros. eapply H. right. eassumption.
    - unfold is_object. rewrite (H k l) by (left; reflexivity). cbn [andb app]. apply IH. intros. eapply H. right. eassumption.
  Qed.
  (** Of several objects, the first parsed comment *)
  Theorem C77_first : forall before k l after x p, (forall k' l', In (k', Node A l') before -> lookup (str "Parsed") l' = None) -> is_object k = true -> lookup (str "Parsed") l = Some (Node A (x :: p)) ->
    comment_dict A (Auto A) (before ++ (k, Node A l) :: after) = Ok (x :: p).
  Proof.
    intros before k l after x p H K L. cbn [comment_dict]. rewrite flat_map_app. cbn [flat_map fst snd]. rewrite K. set (fs := flat_map _ before). set (gs := flat_map _ after).
    assert (F : Forall (fun f => lookup (str "Parsed") f = None) fs).
    { unfold fs. clear - H. induction before as [|[k t] b IH]; [constructor|]. cbn [flat_map fst snd]. destruct t as [a|l]; [apply IH; intros; eapply H; right; eassumption|]. destruct (is_object k); cbn [app]; [constructor; [eapply H; left; reflexivity|]|]; apply IH; intros; eapply H; right; eassumption. }
    assert (G : first_parsed A (fs ++ [l] ++ gs) = x :: p) by (clear - F L; induction F as [|f fs Hf F IH]; cbn [app first_parsed]; [rewrite L; reflexivity|rewrite Hf; exact IH]).
    destruct (fs ++ [l] ++ gs) as [|y ys] eqn:E; [destruct fs; discriminate E|]. rewrite G. reflexivity.
  Qed.
End Values.
Example C77_ends_example : parsed atom eval_atom T (text_with [str "$_A"; str "@@ no"; str "$x = 1 nm"] [[13; 10]; [13]; [8233]]) = Some [(str "A", [(str "x", N 1); (str "x_units", T (str "nm"))])].
Proof. vm_compute. reflexivity. Qed.
Example C77_other_example : parsed atom eval_atom T (text_with [str "$_A"; str "@ no"] [[10]; [10]]) = None.
Proof. vm_compute. reflexivity. Qed.
Example C77_first_example : comment_dict atom (Auto atom) [node "Object_0_Channel_0" [leaf "H" (N 1)]; node "Object_1_Channel_0" [node "Parsed" [leaf "x" (N 2)]]] = Ok [leaf "x" (N 2)].
Proof. vm_compute. reflexivity. Qed.
Print Assumptions C77_ends.
Print Assumptions C77_ignored.
Print Assumptions C77_other.
Print Assumptions C77_methods.
Print Assumptions C77_foreign.
Print Assumptions C77_first.
