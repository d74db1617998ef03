(** Property C76: quantity, date and original metadata of sur and pro files. *)
From Verif Require Import Base Text HierModel SfsModel SurMetaModel SurMeta.
Local Open Scope Z_scope.

(** * Quantity *)
(** A unit: no spaces, no brackets at the ends *)
Definition unit_ok (u : pystr) : Prop := u <> [] /\ ~ In 32 u /\ (forall c, In c [hd 0 u; last u 0] -> ~ In c (str " ()[]" ++ [9; 10])).
Lemma strip_of_id : forall cs s, (forall c, In c [hd 0 s; last s 0] -> ~ In c cs) -> strip_of cs s = s.
Proof.
  intros cs s H. assert (N : forall c, ~ In c cs -> existsb (Z.eqb c) cs = false) by (intros c Hc; destruct (existsb (Z.eqb c) cs) eqn:E; [|reflexivity]; apply existsb_exists in E; destruct E as (d & Hd & E); assert (c = d) by lia; subst; contradiction).
  destruct s as [|c s]; [reflexivity|]. unfold strip_of. rewrite (N c) by (apply H; left; reflexivity). destruct (rev_last_cons _ (c :: s) 0) as [r E]; [discriminate|]. rewrite E. rewrite (N (last (c :: s) 0)) by (apply H; right; left; reflexivity). rewrite <- E. apply rev_involutive.
Qed.
Lemma strip_of_paren : forall u, (forall c, In c [hd 0 u; last u 0] -> ~ In c (str "()")) -> u <> [] -> strip_of (str "()") (str "(" ++ u ++ str ")") = u.
Proof.
  intros u H Hn. rewrite <- (strip_of_id (str "()") u H) at 2. unfold strip_of. change (str "(" ++ u ++ str ")") with (40 :: u ++ [41]). cbn [existsb]. change (existsb (Z.eqb 40) (str "()")) with true. cbn iota.
  destruct u as [|c u]; [congruence|]. cbn [app]. assert (E : existsb (Z.eqb c) (str "()") = false). { destruct (existsb (Z.eqb c) (str "()")) eqn:E; [|reflexivity]. apply existsb_exists in E. destruct E as (d & Hd & E). assert (c = d) by lia. subst d. exfalso. exact (H c (or_introl eq_refl) Hd). }
  rewrite E. change (c :: u ++ [41]) with ((c :: u) ++ [41]). rewrite rev_app_distr. cbn [rev app]. change (existsb (Z.eqb 41) (str "()")) with true. cbn iota. reflexivity.
Qed.
Lemma split_char_snoc : forall c s t, ~ In c t -> split_char c (s ++ c :: t) = split_char c s ++ [t].
Proof.
  intros c s t H. induction s as [|x s IH].
  - cbn [app split_char]. rewrite Z.eqb_refl. rewrite split_char_nosep by exact H. reflexivity.
  - cbn [app split_char]. rewrite IH. destruct (x =? c); [reflexivity|]. pose proof (split_char_ne c s). destruct (split_char c s); [congruence|reflexivity].
Qed.
Lemma join_split : forall c s, join_char c (split_char c s) = s.
Proof.
  intros c s. induction s as [|x s IH]; [reflexivity|]. cbn [split_char]. pose proof (split_char_ne c s) as Hn. destruct (x =? c) eqn:E.
  - assert (x = c) by lia. subst x. destruct (split_char c s) as [|w ws] eqn:Es; [congruence|]. change (join_char c ([] :: w :: ws)) with (c :: join_char c (w :: ws)). rewrite IH. reflexivity.
  - destruct (split_char c s) as [|w ws]; [congruence|]. destruct ws as [|w' ws]; cbn [join_char] in *; [rewrite IH; reflexivity|]. rewrite <- IH. reflexivity.
Qed.
Lemma quantity_text : forall name u, trimmed name -> name <> [] -> unit_ok u -> quantity name u = name ++ 32 :: str "(" ++ u ++ str ")" /\ trimmed (name ++ 32 :: str "(" ++ u ++ str ")").
Proof.
  intros name u Hn Hne (U1 & U2 & U3). unfold quantity. rewrite (strip_of_id _ u U3). assert (T : trimmed (name ++ 32 :: str "(" ++ u ++ str ")")).
  { apply trimmed_pair; [exact Hn|exact Hne| |discriminate]. change (str "(" ++ u ++ str ")") with (40 :: u ++ [41]). cbn [trimmed]. split; [reflexivity|]. change (40 :: u ++ [41]) with ((40 :: u) ++ [41]). rewrite last_last. reflexivity. }
  destruct u as [|c u]; [congruence|]. split; [|exact T]. apply strip_trimmed. exact T.
Qed.
(** Name and unit are found in the quantity again *)
Theorem C76_quantity : forall name u, trimmed name -> name <> [] -> unit_ok u -> split_quantity (quantity name u) = (name, u).
Proof.
  intros name u Hn Hne Hu. destruct (quantity_text name u Hn Hne Hu) as [E T]. rewrite E. unfold split_quantity. rewrite strip_trimmed by exact T. destruct Hu as (U1 & U2 & U3).
  rewrite split_char_snoc by (intro I; change (str "(" ++ u ++ str ")") with (40 :: u ++ [41]) in I; destruct I as [I|I]; [discriminate|]; apply in_app_or in I; destruct I as [I|[I|[]]]; [tauto|discriminate]).
  rewrite rev_app_distr. cbn [rev app]. destruct (rev (split_char 32 name)) as [|w ws] eqn:Er; [apply (f_equal (@rev pystr)) in Er; rewrite rev_involutive in Er; exfalso; exact (split_char_ne 32 name Er)|].
  f_equal; [|apply strip_of_paren; [|exact U1]; intros c Hc I; apply (U3 c Hc); cbn in I |- *; tauto]. rewrite <- Er, rev_involutive. apply join_split.
Qed.
Theorem C76_no_unit : forall name, trimmed name -> ~ In 32 name -> split_quantity (quantity name []) = (name, []).
Proof.
  intros name Hn H. assert (E : quantity name [] = name). { unfold quantity. change (strip_of (str " ()[]" ++ [9; 10]) []) with (@nil Z). change (name ++ [32] ++ []) with (name ++ [32]). apply strip_space_right. exact Hn. }
  rewrite E. unfold split_quantity. rewrite strip_trimmed by exact Hn. rewrite split_char_nosep by exact H. reflexivity.
Qed.
Example C76_quantity_example : quantity (str "Mean height") (str "[um]") = str "Mean height (um)" /\ split_quantity (str "Mean height (um)") = (str "Mean height", str "um").
Proof. split; vm_compute; reflexivity. Qed.
Example C76_quantity_hyps : trimmed (str "Mean height") /\ unit_ok (str "um").
Proof. split; [vm_compute; tauto|]. split; [discriminate|]. split; [vm_compute; intuition discriminate|]. intros c [<-|[<-|[]]]; vm_compute; intuition discriminate. Qed.
(** Cathodoluminescence: written again, the name is cut and the type of signal is lost *)
Theorem C76_cl_refuted : let (name, u) := split_quantity (quantity (str "CL Intensity") []) in name = str "CL" /\ u = str "Intensity" /\ signal_type (str "CL Intensity") = str "CL" /\ signal_type name = [].
Proof. vm_compute. repeat split. Qed.
(** A unit without a name becomes the name *)
Theorem C76_no_name_refuted : split_quantity (quantity [] (str "um")) = (str "(um)", []).
Proof. vm_compute. reflexivity. Qed.

(** * Date and time *)
Theorem C76_date : forall wd y mo d h mi s, ~ (y = 0 /\ mo = 0 /\ d = 0) -> ~ (h = 0 /\ mi = 0 /\ s = 0) ->
  date_fields wd (filled (y, mo, d)) (filled (h, mi, s)) = Ok [s; mi; h; d; mo; y; wd (y, mo, d)].
Proof.
  intros wd y mo d h mi s H1 H2. unfold filled. assert (E1 : (y =? 0) && (mo =? 0) && (d =? 0) = false) by lia. assert (E2 : (h =? 0) && (mi =? 0) && (s =? 0) = false) by lia. rewrite E1, E2. reflexivity.
Qed.
Theorem C76_no_date : forall wd, date_fields wd (filled (0, 0, 0)) (filled (0, 0, 0)) = Ok [0; 0; 0; 0; 0; 0; 0].
Proof. reflexivity. Qed.
(** A file of midnight cannot be written again *)
Theorem C76_midnight_refuted : forall wd y mo d, ~ (y = 0 /\ mo = 0 /\ d = 0) -> date_fields wd (filled (y, mo, d)) (filled (0, 0, 0)) = Err AttributeError.
Proof. intros wd y mo d H. unfold filled. assert (E : (y =? 0) && (mo =? 0) && (d =? 0) = false) by lia. rewrite E. reflexivity. Qed.
Example C76_date_text : date_text 2024 1 5 = str "2024-01-05" /\ time_text 0 7 30 = str "00:07:30" /\ time_text 0 0 0 = [].
Proof. repeat split; vm_compute; reflexivity. Qed.

(** * Original metadata *)
Section Index.
  Variable A : Type.
  Variable eval : pystr -> A.
  Variable raw : pystr -> A.
  Definition entry_of (c : pystr) : tree A := Node A (match parsed A eval raw c with Some d => [(str "Parsed", of_sections A d)] | None => [] end).
  Definition step (c : Z) (comments : list pystr) (r : res (list (pystr * tree A))) (ij : Z) : res (list (pystr * tree A)) :=
    let! d := r in match nth_error comments (Z.to_nat ((ij / c + 1) * (ij mod c + 1) - 1)) with None => Err IndexError | Some s => Ok (put (object_key (ij / c) (ij mod c)) (entry_of s) d) end.
  Lemma dec_no_us : forall n, 0 <= n -> ~ In 95 (str_int n).
  Proof.
    intros n Hn I. unfold str_int in I. assert (E : (n <? 0) = false) by lia. rewrite E in I. pose proof (dec_digits n Hn) as D. rewrite Forall_forall in D. specialize (D 95 I). discriminate.
  Qed.
  Lemma str_int_inj : forall a b, 0 <= a -> 0 <= b -> str_int a = str_int b -> a = b.
  Proof. intros a b Ha Hb E. unfold str_int in E. assert (E1 : (a <? 0) = false) by lia. assert (E2 : (b <? 0) = false) by lia. rewrite E1, E2 in E. exact (dec_inj a b Ha Hb E). Qed.
  Lemma key_inj : forall i j i' j', 0 <= i -> 0 <= j -> 0 <= i' -> 0 <= j' -> object_key i j = object_key i' j' -> i = i' /\ j = j'.
  Proof.
    intros i j i' j' H1 H2 H3 H4 E. unfold object_key in E. apply app_inv_head in E. apply (f_equal (split_char 95)) in E. change (str "_Channel_" ++ str_int j) with (95 :: str "Channel" ++ 95 :: str_int j) in E. change (str "_Channel_" ++ str_int j') with (95 :: str "Channel" ++ 95 :: str_int j') in E.
    rewrite !(split_char_app 95 (str_int _)) in E by (apply dec_no_us; assumption). rewrite !(split_char_app 95 (str "Channel")) in E by (vm_compute; intuition discriminate). rewrite !split_char_nosep in E by (apply dec_no_us; assumption).
    split; apply str_int_inj; try assumption; congruence.
  Qed.
  Lemma lookup_put : forall B k (v : B) k' l, lookup k' (put k v l) = if eqb_str k' k then Some v else lookup k' l.
  Proof.
    intros B k v k' l. induction l as [|[k0 v0] l IH]; [reflexivity|]. cbn [put]. destruct (eqb_str k k0) eqn:E.
    - apply eqb_str_spec in E. subst k0. cbn [lookup]. destruct (eqb_str k' k); reflexivity.
    - cbn [lookup]. rewrite IH. destruct (eqb_str k' k0) eqn:E0; [|reflexivity]. apply eqb_str_spec in E0. subst k'. destruct (eqb_str k0 k) eqn:E1; [|reflexivity]. apply eqb_str_spec in E1. subst. rewrite eqb_str_refl in E. discriminate.
  Qed.
  (** Every header is there, none twice, if the index is right *)
  Lemma steps : forall c comments n, 0 < c -> (forall ij, 0 <= ij < Z.of_nat n -> 0 <= (ij / c + 1) * (ij mod c + 1) - 1 < zlen comments) ->
    exists d, fold_left (step c comments) (zseq 0 n) (Ok []) = Ok d /\ forall ij, 0 <= ij < Z.of_nat n -> lookup (object_key (ij / c) (ij mod c)) d = Some (entry_of (nth (Z.to_nat ((ij / c + 1) * (ij mod c + 1) - 1)) comments [])).
  Proof.
    intros c comments n Hc. induction n as [|n IH]; intro H; [exists []; split; [reflexivity|lia]|]. destruct IH as (d & E & L); [intros ij Hij; apply H; lia|].
    replace (S n) with (n + 1)%nat by lia. rewrite zseq_app, fold_left_app, E. change (zseq (0 + Z.of_nat n) 1) with [0 + Z.of_nat n]. cbn [fold_left step bind]. pose proof (H (0 + Z.of_nat n) ltac:(lia)) as Hn. set (k := Z.to_nat _). assert (Hk : (k < List.length comments)%nat) by (unfold k, zlen in *; lia). rewrite (nth_error_nth' comments [] Hk). eexists. split; [reflexivity|].
    intros ij Hij. rewrite lookup_put. destruct (eqb_str _ _) eqn:Ek.
    - apply eqb_str_spec in Ek. apply key_inj in Ek; [|apply Z.div_pos; lia|apply Z.mod_pos_bound; lia|apply Z.div_pos; lia|apply Z.mod_pos_bound; lia]. destruct Ek as [E1 E2]. rewrite E1, E2. reflexivity.
    - apply L. assert (ij <> Z.of_nat n) by (intro X; subst ij; rewrite eqb_str_refl in Ek; discriminate). lia.
  Qed.
  (** No index is out of range *)
  Lemma in_range : forall objects c ij, 0 <= objects -> 0 < c -> 0 <= ij < objects * c -> 0 <= (ij / c + 1) * (ij mod c + 1) - 1 < objects * c.
  Proof.
    intros objects c ij Ho Hc H. pose proof (Z.div_mod ij c ltac:(lia)) as E. pose proof (Z.mod_pos_bound ij c Hc) as M. pose proof (Z.div_pos ij c ltac:(lia) Hc) as D. assert (D' : ij / c < objects) by (apply Z.div_lt_upper_bound; lia). set (i := ij / c) in *. set (j := ij mod c) in *. clearbody i j. nia.
  Qed.
  Theorem C76_total : forall objects channels comments, 0 <= objects -> zlen comments = objects * Z.max channels 1 -> exists d, original_metadata A eval raw objects channels comments = Ok d.
  Proof.
    intros objects channels comments Ho Hl. destruct (steps (Z.max channels 1) comments (Z.to_nat (objects * Z.max channels 1))) as (d & E & _); [lia| |exists d; exact E].
    intros ij Hij. rewrite Hl. apply in_range; lia.
  Qed.
  (** One channel, or one object: each key has the header of its own object *)
  Theorem C76_headers : forall objects channels comments, 0 <= objects -> zlen comments = objects * Z.max channels 1 -> objects <= 1 \/ channels <= 1 ->
    exists d, original_metadata A eval raw objects channels comments = Ok d /\
    forall i j, 0 <= i < objects -> 0 <= j < Z.max channels 1 -> lookup (object_key i j) d = Some (entry_of (nth (Z.to_nat (i * Z.max channels 1 + j)) comments [])).
  Proof.
    intros objects channels comments Ho Hl Hone. destruct (steps (Z.max channels 1) comments (Z.to_nat (objects * Z.max channels 1))) as (d & E & L); [lia|intros ij Hij; rewrite Hl; apply in_range; lia|].
    exists d. split; [exact E|]. intros i j Hi Hj. set (c := Z.max channels 1) in *. specialize (L (i * c + j)). assert (Hij : 0 <= i * c + j < Z.of_nat (Z.to_nat (objects * c))) by (clear - Hi Hj; nia). specialize (L Hij).
    assert (Ed : (i * c + j) / c = i) by (rewrite Z.add_comm, Z.div_add by lia; rewrite Z.div_small by lia; lia). assert (Em : (i * c + j) mod c = j) by (rewrite Z.add_comm, Z.mod_add by lia; apply Z.mod_small; lia). rewrite Ed, Em in L.
    assert (Ek : (i + 1) * (j + 1) - 1 = i * c + j). { destruct Hone as [H|H]; [assert (i = 0) by lia; subst i; lia|assert (c = 1) by (unfold c; lia); assert (j = 0) by lia; subst; lia]. } rewrite Ek in L. exact L.
  Qed.
End Index.
(** Two objects of three channels: the first channel of the second object gets the header of another *)
Theorem C76_headers_refuted :
  match original_metadata atom eval_atom T 2 3 [str "$_00"; str "$_01"; str "$_02"; str "$_10"; str "$_11"; str "$_12"] with
  | Ok d => lookup (str "Object_1_Channel_0") d = Some (Node atom [node "Parsed" [node "01" []]]) /\ lookup (str "Object_1_Channel_1") d = Some (Node atom [node "Parsed" [node "10" []]])
  | Err _ => False
  end.
Proof. vm_compute. split; reflexivity. Qed.
Example C76_headers_example :
  match original_metadata atom eval_atom T 1 3 [str "$_00"; str "$_01"; str "$_02"] with
  | Ok d => map fst d = [str "Object_0_Channel_0"; str "Object_0_Channel_1"; str "Object_0_Channel_2"] /\ lookup (str "Object_0_Channel_2") d = Some (Node atom [node "Parsed" [node "02" []]])
  | Err _ => False
  end.
Proof. vm_compute. split; reflexivity. Qed.
Print Assumptions C76_quantity.
Print Assumptions C76_no_unit.
Print Assumptions C76_quantity_example.
Print Assumptions C76_quantity_hyps.
Print Assumptions C76_cl_refuted.
Print Assumptions C76_no_name_refuted.
Print Assumptions C76_date.
Print Assumptions C76_no_date.
Print Assumptions C76_midnight_refuted.
Print Assumptions C76_date_text.
Print Assumptions C76_total.
Print Assumptions C76_headers.
Print Assumptions C76_headers_refuted.
Print Assumptions C76_headers_example.
