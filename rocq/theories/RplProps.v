(** Ripple files: C19 and C20. *)
From Coq Require Import Permutation.
From Verif Require Import Base Text Bytes DistModel RowMajor HierModel HierProof HierProps RplModel.

(** * C19: header round trip *)

(** ** Specification *)
(** Text that can stand in one field: latin-1, without separators, newlines or comment
    characters, and without white space at its ends. *)
Definition clean (s : pystr) : Prop :=
  Forall (fun c => 0 <= c < 256 /\ c <> 9 /\ c <> 10 /\ c <> 13 /\ c <> 59) s /\ trimmed s.

(** The value has the type the key asks for, and is read as [w]. *)
Definition means (tofloat : pystr -> option Z) (k v : pystr) (w : rval) : Prop :=
  match lookup k rpl_keys with
  | Some KTint => exists z, v = str_int z /\ w = RInt z
  | Some KTfloat => exists f, tofloat v = Some f /\ w = RFloat f
  | Some (KTsel l) => In v l /\ w = RStr v
  | Some KTstr | None => w = RStr v
  end.

(** The entries every header must have, and their consistency. *)
Definition complete (d : list (pystr * pystr)) : Prop :=
  exists dep rec ty len ord,
    In (str "depth", str_int dep) d /\ In (str "record-by", rec) d /\ In (str "data-type", ty) d /\
    In (str "data-length", len) d /\ In (str "byte-order", ord) d /\
    (dep = 1 -> rec = str "dont-care") /\ (ty = str "float" -> len = str "4" \/ len = str "8") /\
    (len = str "1" -> ord = str "dont-care").

(** ** Lemmas *)
Lemma universal_id : forall s, ~ In 13 s -> universal s = s.
Proof.
  induction s as [|c s IH]; intros H; [reflexivity|].
  assert (Hc : c <> 13) by (intro; apply H; left; auto).
  assert (E : universal (c :: s) = c :: universal s).
  { cbn [universal]. destruct c as [|p|p]; try reflexivity. repeat (destruct p as [p|p|]; try reflexivity). exfalso. apply Hc. reflexivity. }
  rewrite E, IH; [reflexivity|]. intro K. apply H. right. exact K.
Qed.

Lemma latin1_id : forall s, Forall (fun c => c < 256) s -> latin1 s = s.
Proof.
  induction 1 as [|c s Hc _ IH]; [reflexivity|]. unfold latin1 in *. cbn [filter].
  assert (E : (c <? 256) = true) by lia. rewrite E, IH. reflexivity.
Qed.

Lemma split_lines : forall ws, Forall (fun w => ~ In 10 w) ws ->
  split_char 10 (flat_map (fun w => w ++ [10]) ws) = ws ++ [[]].
Proof.
  induction 1 as [|w ws Hw _ IH]; [reflexivity|]. cbn [flat_map app]. rewrite <- app_assoc. cbn [app].
  rewrite split_char_app by exact Hw. rewrite IH. reflexivity.
Qed.

Lemma file_lines_ok : forall ws, Forall (fun w => ~ In 10 w /\ ~ In 13 w) ws ->
  file_lines (flat_map (fun w => w ++ [10]) ws) = ws.
Proof.
  intros ws H. unfold file_lines. rewrite universal_id.
  - rewrite split_lines by (eapply Forall_impl; [|exact H]; cbn; tauto).
    rewrite last_last, removelast_last. reflexivity.
  - intro K. apply in_flat_map in K. destruct K as [w [Hw K]]. rewrite Forall_forall in H. specialize (H w Hw).
    apply in_app_or in K. destruct K as [K|[K|[]]]; [tauto|discriminate].
Qed.

Lemma replace_none : forall n p r s, (List.length s <= n)%nat -> p <> [] -> contains p s = false -> replace_sub n p r s = s.
Proof.
  induction n as [|n IH]; intros p r s Hn Hp H; [reflexivity|]. cbn [replace_sub].
  destruct s as [|c s].
  - destruct p; [congruence|]. reflexivity.
  - cbn [contains] in H. apply orb_false_iff in H. destruct H as [H1 H2]. rewrite H1. rewrite IH; auto. cbn in Hn. lia.
Qed.

Lemma before_id : forall c s, ~ In c s -> before c s = s.
Proof.
  induction s as [|x s IH]; intros H; [reflexivity|]. cbn [before]. destruct (x =? c) eqn:E; [exfalso; apply H; left; lia|].
  rewrite IH; [reflexivity|]. intro K. apply H. right. exact K.
Qed.

Lemma clean_no : forall s c, clean s -> c = 9 \/ c = 10 \/ c = 13 \/ c = 59 -> ~ In c s.
Proof. intros s c [H _] Hc K. rewrite Forall_forall in H. specialize (H _ K). lia. Qed.

Lemma convert_means : forall tf k v w, means tf k v w -> convert tf k v = Ok w.
Proof.
  intros tf k v w H. unfold means in H. unfold convert. destruct (lookup k rpl_keys) as [[| | |l]|].
  - destruct H as [z [-> ->]]. rewrite parse_int_str_int. reflexivity.
  - destruct H as [f [E ->]]. rewrite E. reflexivity.
  - rewrite H. reflexivity.
  - destruct H as [H ->]. assert (E : existsb (eqb_str v) l = true).
    { apply existsb_exists. exists v. split; [exact H|]. apply eqb_str_refl. }
    rewrite E. reflexivity.
  - rewrite H. reflexivity.
Qed.

Definition line_of (p : pystr * pystr) : pystr := fst p ++ [9] ++ snd p.

Lemma parse_line_ok : forall tf k v w d, clean k -> clean v -> contains (str "data-Length") (line_of (k, v)) = false ->
  means tf k v w -> parse_line tf (line_of (k, v)) d = Ok (put k w d).
Proof.
  intros tf k v w d Hk Hv Hc Hm. unfold parse_line.
  rewrite replace_none; [|lia|discriminate|exact Hc].
  assert (N59 : ~ In 59 (line_of (k, v))).
  { unfold line_of. cbn [fst snd]. intro K. apply in_app_or in K. destruct K as [K|K]; [|apply in_app_or in K; destruct K as [K|K]].
    - apply (clean_no k 59 Hk) in K; auto.
    - destruct K as [K|[]]. discriminate.
    - apply (clean_no v 59 Hv) in K; auto. }
  destruct (line_of (k, v)) as [|c l] eqn:E.
  - destruct k; discriminate E.
  - assert (E1 : (c =? 59) = false) by (apply Z.eqb_neq; intro; apply N59; left; auto).
    rewrite E1, <- E. rewrite before_id by (rewrite E; exact N59). unfold line_of. cbn [fst snd app].
    rewrite split_char_app by (apply clean_no; auto). rewrite split_char_nosep by (apply clean_no; auto).
    cbn [map]. rewrite !strip_trimmed by (apply Hk || apply Hv). rewrite (convert_means _ _ _ _ Hm). reflexivity.
Qed.

(** Lines of the entries. *)
Definition entry_ok (tf : pystr -> option Z) (p : pystr * pystr) : Prop :=
  clean (fst p) /\ clean (snd p) /\ contains (str "data-Length") (fst p ++ [9] ++ snd p) = false /\ exists w, means tf (fst p) (snd p) w.

Lemma parse_entries : forall tf d r, Forall (entry_ok tf) d -> NoDup (map fst d) ->
  exists r', parse_lines tf (map line_of d) r = Ok r' /\
    (forall k v w, In (k, v) d -> means tf k v w -> lookup k r' = Some w) /\
    (forall k, ~ In k (map fst d) -> lookup k r' = lookup k r).
Proof.
  induction d as [|[k v] d IH]; intros r H Hnd; cbn [map parse_lines].
  - exists r. split; [reflexivity|]. split; [intros ? ? ? []|auto].
  - inversion H as [|? ? [H1 [H2 [H3 [w Hw]]]] H5]; subst. cbn [fst snd map] in *. inversion Hnd as [|? ? N1 N2]; subst.
    rewrite (parse_line_ok tf k v w) by assumption. cbn [bind].
    destruct (IH (put k w r) H5 N2) as [r' [E1 [E2 E3]]]. exists r'. split; [exact E1|]. split.
    + intros k2 v2 w2 [Heq|Hin] Hm.
      * injection Heq as <- <-. rewrite E3 by exact N1. rewrite lookup_put, eqb_str_refl. f_equal.
        apply convert_means in Hw. apply convert_means in Hm. congruence.
      * eapply E2; eassumption.
    + intros k2 Hk2. rewrite E3 by (intro; apply Hk2; right; assumption). rewrite lookup_put.
      destruct (eqb_str k2 k) eqn:E; [|reflexivity]. apply eqb_str_spec in E. exfalso. apply Hk2. left. auto.
Qed.

Lemma means_fun : forall tf k v w w', means tf k v w -> means tf k v w' -> w = w'.
Proof. intros tf k v w w' H H'. apply convert_means in H. apply convert_means in H'. congruence. Qed.

Theorem C19_header_round_trip : forall tofloat version d,
  ~ In 10 version -> ~ In 13 version -> ~ In 40 version -> Forall (fun c => c < 256) version ->
  NoDup (map fst d) -> Forall (entry_ok tofloat) d -> complete d ->
  exists r, parse_ripple tofloat (write_rpl version d) = Ok r /\
    (forall k v w, In (k, v) d -> means tofloat k v w -> lookup k r = Some w) /\
    (forall k, ~ In k (map fst d) -> k <> str "key" -> lookup k r = None).
Proof.
  intros tf version d V1 V2 V3 V4 Hnd He Hc.
  pose proof (sort_is_perm _ d) as Pm. set (sd := sort_items d) in *.
  assert (Hes : Forall (entry_ok tf) sd).
  { rewrite Forall_forall in *. intros p Hp. apply He. eapply Permutation_in; [apply Permutation_sym; exact Pm|exact Hp]. }
  assert (Hns : NoDup (map fst sd)) by (eapply Permutation_NoDup; [apply Permutation_map; exact Pm|exact Hnd]).
  set (ws := (str ";File created by RosettaSciIO version " ++ version) :: line_of (str "key", str "value") :: map line_of sd).
  assert (Hclean : Forall (fun w => (~ In 10 w /\ ~ In 13 w) /\ Forall (fun c => c < 256) w) ws).
  { unfold ws. constructor; [|constructor].
    - split; [split; intro K; apply in_app_or in K; (destruct K as [K|K]; [revert K; cbn; lia|tauto])|].
      apply Forall_app. split; [cbn; repeat constructor|exact V4].
    - split; [split; cbn; lia|cbn; repeat constructor].
    - rewrite Forall_map. eapply Forall_impl; [|exact Hes]. intros [k v] [K1 [K2 _]]. cbn [fst snd] in *. unfold line_of. cbn [fst snd].
      assert (L : forall s, clean s -> Forall (fun c => c < 256) s) by (intros s [A _]; eapply Forall_impl; [|exact A]; cbn; lia).
      assert (N : forall c, c = 10 \/ c = 13 -> ~ In c (k ++ [9] ++ v)).
      { intros c Hcc K. apply in_app_or in K. destruct K as [K|K]; [|apply in_app_or in K; destruct K as [K|K]].
        - revert K. apply clean_no; [auto|lia].
        - destruct K as [K|[]]. lia.
        - revert K. apply clean_no; [auto|lia]. }
      split; [split; apply N; auto|].
      apply Forall_app. split; [auto|]. apply Forall_app. split; [repeat constructor|auto]. }
  assert (Hfile : write_rpl version d = flat_map (fun w => w ++ [10]) ws).
  { assert (FM : forall l, flat_map (fun p : pystr * pystr => fst p ++ [9] ++ snd p ++ [10]) l = flat_map (fun w => w ++ [10]) (map line_of l)).
    { induction l as [|p l IHl]; [reflexivity|]. cbn [flat_map map]. rewrite IHl. unfold line_of at 2. rewrite <- !app_assoc. reflexivity. }
    assert (EQ : str ";File created by RosettaSciIO version " ++ version ++ [10] ++ str "key" ++ [9] ++ str "value" ++ [10] ++
      flat_map (fun p : pystr * pystr => fst p ++ [9] ++ snd p ++ [10]) sd = flat_map (fun w => w ++ [10]) ws).
    { unfold ws. rewrite FM. cbn [flat_map]. unfold line_of at 2. cbn [fst snd]. rewrite <- !app_assoc. reflexivity. }
    transitivity (latin1 (flat_map (fun w => w ++ [10]) ws)); [exact (f_equal latin1 EQ)|]. apply latin1_id.
    apply Forall_forall. intros c K. apply in_flat_map in K. destruct K as [w [Hw K]].
    rewrite Forall_forall in Hclean. destruct (Hclean w Hw) as [_ A]. rewrite Forall_forall in A.
    apply in_app_or in K. destruct K as [K|[K|[]]]; [apply A; exact K|lia]. }
  rewrite Hfile. unfold parse_ripple. rewrite file_lines_ok by (eapply Forall_impl; [|exact Hclean]; cbn; tauto).
  unfold ws at 1.
  assert (E0 : existsb (Z.eqb 40) (str ";File created by RosettaSciIO version " ++ version) = false).
  { rewrite existsb_app. destruct (existsb (Z.eqb 40) version) eqn:E; [|reflexivity].
    apply existsb_exists in E. destruct E as [x [Hx E]]. exfalso. apply V3. replace 40 with x by lia. exact Hx. }
  rewrite E0. unfold ws. cbn [parse_lines].
  assert (E1 : parse_line tf (str ";File created by RosettaSciIO version " ++ version) [] = Ok []).
  { unfold parse_line.
    assert (R : forall n r s, exists t, replace_sub n (str "data-Length") r (59 :: s) = 59 :: t).
    { intros [|n] r s; [eexists; reflexivity|]. cbn. eexists. reflexivity. }
    change (str ";File created by RosettaSciIO version " ++ version) with (59 :: (str "File created by RosettaSciIO version " ++ version)).
    destruct (R (List.length (59 :: (str "File created by RosettaSciIO version " ++ version))) (str "data-length")
       (str "File created by RosettaSciIO version " ++ version)) as [t E]. rewrite E. reflexivity. }
  rewrite E1. cbn [bind].
  assert (E2 : parse_line tf (line_of (str "key", str "value")) [] = Ok [(str "key", RStr (str "value"))]) by reflexivity.
  rewrite E2. cbn [bind].
  destruct (parse_entries tf sd [(str "key", RStr (str "value"))] Hes Hns) as [r [F1 [F2 F3]]].
  rewrite F1. cbn [bind].
  assert (F2' : forall k v w, In (k, v) d -> means tf k v w -> lookup k r = Some w).
  { intros k v w Hin. apply F2. eapply Permutation_in; [exact Pm|exact Hin]. }
  assert (G : forall k v, In (k, v) d -> exists w, means tf k v w /\ lookup k r = Some w).
  { intros k v Hin. rewrite Forall_forall in He. destruct (He _ Hin) as [_ [_ [_ [w Hw]]]]. exists w. split; [exact Hw|]. eapply F2'; eassumption. }
  assert (Hchk : check_info r = Ok tt).
  { destruct Hc as (dep & rec & ty & len & ord & I1 & I2 & I3 & I4 & I5 & C1 & C2 & C3).
    assert (L1 : lookup (str "depth") r = Some (RInt dep)).
    { eapply F2'; [exact I1|]. cbn. exists dep. auto. }
    assert (L2 : lookup (str "record-by") r = Some (RStr rec)).
    { destruct (G _ _ I2) as [w [M1 M2]]. cbn in M1. destruct M1 as [_ ->]. exact M2. }
    assert (L3 : lookup (str "data-type") r = Some (RStr ty)).
    { destruct (G _ _ I3) as [w [M1 M2]]. cbn in M1. destruct M1 as [_ ->]. exact M2. }
    assert (L4 : lookup (str "data-length") r = Some (RStr len)).
    { destruct (G _ _ I4) as [w [M1 M2]]. cbn in M1. destruct M1 as [_ ->]. exact M2. }
    assert (L5 : lookup (str "byte-order") r = Some (RStr ord)).
    { destruct (G _ _ I5) as [w [M1 M2]]. cbn in M1. destruct M1 as [_ ->]. exact M2. }
    unfold check_info, get_key. rewrite L1, L2, L3, L4, L5. cbn [bind is_str].
    destruct (Z.eq_dec dep 1) as [D|D].
    - subst dep. rewrite (C1 eq_refl). cbn [bind]. rewrite eqb_str_refl. cbn [negb].
      destruct (eqb_str ty (str "float")) eqn:T.
      + apply eqb_str_spec in T. destruct (C2 T) as [->| ->]; reflexivity.
      + cbn [bind]. destruct (eqb_str len (str "1")) eqn:T1; [|reflexivity].
        apply eqb_str_spec in T1. rewrite (C3 T1). reflexivity.
    - assert (X : (match dep with 1 => Ok (negb (eqb_str rec (str "dont-care"))) | _ => Ok false end) = Ok false).
      { destruct dep as [|p|p]; try reflexivity. destruct p; try reflexivity. congruence. }
      rewrite X. cbn [bind].
      destruct (eqb_str ty (str "float")) eqn:T.
      + apply eqb_str_spec in T. destruct (C2 T) as [->| ->]; reflexivity.
      + cbn [bind]. destruct (eqb_str len (str "1")) eqn:T1; [|reflexivity].
        apply eqb_str_spec in T1. rewrite (C3 T1). reflexivity. }
  rewrite Hchk. cbn [bind]. exists r. split; [reflexivity|]. split; [exact F2'|].
  intros k Hk Hkey. rewrite F3.
  - cbn [lookup]. destruct (eqb_str k (str "key")) eqn:E; [apply eqb_str_spec in E; congruence|reflexivity].
  - intro K. apply Hk. eapply Permutation_in; [apply Permutation_map, Permutation_sym; exact Pm|exact K].
Qed.
Print Assumptions C19_header_round_trip.

(** A typical header. *)
Definition ex_rpl : list (pystr * pystr) :=
  [(str "width", str "512"); (str "height", str "1"); (str "depth", str "1024"); (str "offset", str "0");
   (str "data-type", str "unsigned"); (str "data-length", str "2"); (str "byte-order", str "dont-care");
   (str "record-by", str "vector"); (str "title", str "map 1 (test)"); (str "signal", str "EDS_SEM")].
Example C19_example :
  (let! r := parse_ripple (fun _ => None) (write_rpl (str "0.7") ex_rpl) in
   Ok (lookup (str "width") r, lookup (str "title") r, lookup (str "nothing") r)) =
  Ok (Some (RInt 512), Some (RStr (str "map 1 (test)")), None).
Proof. vm_compute. reflexivity. Qed.
Example C19_example_hyps : NoDup (map fst ex_rpl) /\ Forall (entry_ok (fun _ => None)) ex_rpl /\ complete ex_rpl.
Proof.
  split; [|split].
  - cbn [map fst ex_rpl]. solve_nodup.
  - unfold ex_rpl. repeat apply Forall_cons; try apply Forall_nil;
      (split; [split; [cbn; repeat constructor; lia|cbn; split; reflexivity]|
       split; [split; [cbn; repeat constructor; lia|cbn; split; reflexivity]|split; [reflexivity|]]]).
    1: exists (RInt 512); exists 512; split; reflexivity.
    1: exists (RInt 1); exists 1; split; reflexivity.
    1: exists (RInt 1024); exists 1024; split; reflexivity.
    1: exists (RInt 0); exists 0; split; reflexivity.
    all: eexists; cbn; first [reflexivity | split; [tauto|reflexivity]].
  - exists 1024, (str "vector"), (str "unsigned"), (str "2"), (str "dont-care"). cbn.
    repeat split; try tauto; try lia; intro H; discriminate H.
Qed.

(** Outside the guard a title is cut or changed. *)
Definition with_title (t : pystr) : list (pystr * pystr) :=
  filter (fun p => negb (eqb_str (fst p) (str "title"))) ex_rpl ++ [(str "title", t)].
Definition title_read (t : pystr) : res (option rval) :=
  let! r := parse_ripple (fun _ => None) (write_rpl (str "0.7") (with_title t)) in Ok (lookup (str "title") r).
(** Inconsistent headers are refused: whatever the text, a header that is accepted has
    floats of at least four bytes, a byte order only for types longer than a byte, and
    an order of axes only for more than two dimensions. *)
Theorem C19_consistent : forall tofloat text d, parse_ripple tofloat text = Ok d ->
  (lookup (str "depth") d = Some (RInt 1) -> lookup (str "record-by") d = Some (RStr (str "dont-care"))) /\
  (lookup (str "data-type") d = Some (RStr (str "float")) ->
     forall s n, lookup (str "data-length") d = Some (RStr s) -> parse_int s = Ok n -> 4 <= n) /\
  (lookup (str "data-length") d = Some (RStr (str "1")) -> lookup (str "byte-order") d = Some (RStr (str "dont-care"))).
Proof.
  intros tf text d H. assert (C : check_info d = Ok tt).
  { unfold parse_ripple in H. destruct (file_lines text) as [|l ls] eqn:E; [discriminate H|].
    destruct (existsb (Z.eqb 40) l); [discriminate H|]. destruct (parse_lines tf (l :: ls) []) as [d'|] eqn:Ed; [|discriminate H].
    cbn [bind] in H. destruct (check_info d') as [[]|] eqn:Ec; cbn [bind] in H; [|discriminate H]. injection H as <-. exact Ec. }
  clear H. unfold check_info, get_key in C.
  destruct (lookup (str "depth") d) as [dep|]; cbn [bind] in C; [|discriminate C].
  assert (D1 : (dep = RInt 1 -> lookup (str "record-by") d = Some (RStr (str "dont-care"))) /\
     (let! ty := match lookup (str "data-type") d with Some v => Ok v | None => Err KeyError end in
      let! c2 := if is_str ty "float" then
               let! len := match lookup (str "data-length") d with Some v => Ok v | None => Err KeyError end in
               match len with
               | RStr s => let! n := parse_int s in Ok (n <? 4)
               | RInt n => Ok (n <? 4)
               | RFloat _ => Err TypeError
               end
             else Ok false in
  if c2 : bool then Err IOError else
  let! len := match lookup (str "data-length") d with Some v => Ok v | None => Err KeyError end in
  let! c3 := if is_str len "1" then let! b := match lookup (str "byte-order") d with Some v => Ok v | None => Err KeyError end in Ok (negb (is_str b "dont-care")) else Ok false in
  if c3 : bool then Err IOError else Ok tt) = Ok tt).
  { destruct dep as [z|f|s0]; cbn [bind] in C; [|split; [discriminate|exact C]|split; [discriminate|exact C]].
    destruct (Z.eq_dec z 1) as [->|Hz].
    - destruct (lookup (str "record-by") d) as [r|]; cbn [bind] in C; [|discriminate C].
      destruct (is_str r "dont-care") eqn:Er; cbn [negb] in C; [|discriminate C]. split; [|exact C]. intros _.
      destruct r as [| |s0]; cbn [is_str] in Er; try discriminate Er. apply eqb_str_spec in Er. subst s0. reflexivity.
    - split; [intro K; injection K as K; contradiction|]. destruct z as [|p|p]; try exact C. destruct p; try exact C. lia. }
  clear C. destruct D1 as [D1 C]. split; [intro K; injection K as ->; apply D1; reflexivity|].
  destruct (lookup (str "data-type") d) as [ty|]; cbn [bind] in C; [|discriminate C].
  split.
  - intros K s0 n Hl Hn. injection K as ->. rewrite Hl in C. change (is_str (RStr (str "float")) "float") with true in C. cbv iota in C.
    cbn [bind] in C. rewrite Hn in C. cbn [bind] in C. destruct (n <? 4) eqn:E; [discriminate C|lia].
  - intro K. rewrite K in C. cbn [bind] in C.
    match type of C with bind ?X _ = _ => destruct X as [c2|]; cbn [bind] in C; [|discriminate C] end.
    destruct c2; [discriminate C|]. change (is_str (RStr (str "1")) "1") with true in C. cbv iota in C.
    destruct (lookup (str "byte-order") d) as [b|]; cbn [bind] in C; [|discriminate C].
    destruct (is_str b "dont-care") eqn:Eb; cbn [negb] in C; [|discriminate C].
    destruct b as [| |s0]; cbn [is_str] in Eb; try discriminate Eb. apply eqb_str_spec in Eb. subst s0. reflexivity.
Qed.
Print Assumptions C19_consistent.

Theorem C19_semicolon_refuted : title_read (str "a;b") = Ok (Some (RStr (str "a"))).
Proof. vm_compute. reflexivity. Qed.
Theorem C19_tab_refuted : title_read ([97; 9; 98]) = Ok (Some (RStr (str "a"))).
Proof. vm_compute. reflexivity. Qed.
Theorem C19_newline_refuted : title_read ([97; 10; 98]) = Err IOError.
Proof. vm_compute. reflexivity. Qed.
Theorem C19_latin1_refuted : title_read ([945; 98]) = Ok (Some (RStr (str "b"))).
Proof. vm_compute. reflexivity. Qed.
Print Assumptions C19_semicolon_refuted.
Print Assumptions C19_tab_refuted.
Print Assumptions C19_newline_refuted.
Print Assumptions C19_latin1_refuted.

(** * C20: raw data round trip *)

(** ** Specification *)
(** Navigation axes first, then signal axes, each in their order. *)
Definition nav_first {A} (flags : list bool) (xs : list A) : list A :=
  map snd (filter fst (combine flags xs)) ++ map snd (filter (fun p => negb (fst p)) (combine flags xs)).

Definition sizes (s : rsig) : list Z := map fst (g_axes s).
Definition flags (s : rsig) : list bool := map snd (g_axes s).
(** Number of axes with a flag. *)
Definition n_axes (nav : bool) (s : rsig) : nat := List.length (filter (fun p => Bool.eqb (snd p) nav) (g_axes s)).

(** The signals the format can hold: at most three axes, one or two of them of the signal;
    with one signal axis that axis, with two signal axes and a navigation axis the
    latter, and with two signal axes only the last one, has more than one element. *)
Definition storable (s : rsig) : Prop :=
  (List.length (g_axes s) <= 3)%nat /\ Forall (fun n => 1 <= n) (sizes s) /\
  (forall idx, 0 <= g_get s idx < 256 ^ Z.of_nat (dtype_len (g_type s))) /\
  ((n_axes false s = 1%nat /\ (forall n, In (n, false) (g_axes s) -> 1 < n)) \/
   (n_axes false s = 2%nat /\ n_axes true s = 1%nat /\ (forall n, In (n, true) (g_axes s) -> 1 < n)) \/
   (n_axes false s = 2%nat /\ n_axes true s = 0%nat /\ 1 < last (sizes s) 0)).

(** ** Proof *)
Lemma dec_enc_order : forall t o x, 0 <= x < 256 ^ Z.of_nat (dtype_len t) ->
  dec_int (eqb_str (order_key t o) (str "big-endian")) (enc (big_of o) (dtype_len t) x) = x.
Proof.
  intros t o x H.
  assert (E : eqb_str (order_key t o) (str "big-endian") = big_of o \/ dtype_len t = 1%nat).
  { destruct t, o as [[]|]; cbn; auto. }
  destruct E as [->|E]; [apply dec_enc; exact H|]. rewrite E in *.
  destruct (eqb_str (order_key t o) (str "big-endian")), o as [[]|]; cbn in *; lia.
Qed.

Lemma raw_decode : forall t o vals count, Forall (fun x => 0 <= x < 256 ^ Z.of_nat (dtype_len t)) vals -> List.length vals = count ->
  map (dec_int (eqb_str (order_key t o) (str "big-endian"))) (records count (dtype_len t) (flat_map (enc (big_of o) (dtype_len t)) vals)) = vals.
Proof.
  intros t o vals count H <-. rewrite flat_map_concat_map.
  rewrite <- (map_length (enc (big_of o) (dtype_len t)) vals) at 1. rewrite <- (app_nil_r (List.concat _)).
  rewrite records_concat.
  - rewrite map_map. rewrite <- (map_id vals) at 2. apply map_ext_in. intros x Hx. apply dec_enc_order. rewrite Forall_forall in H. auto.
  - rewrite Forall_map. apply Forall_forall. intros; apply enc_length.
Qed.

Lemma dtype_of_key : forall t, dtype_of (dtype_key t) (Z.of_nat (dtype_len t)) = Ok t.
Proof. destruct t; reflexivity. Qed.

(** Reading what was written, for a full shape and the array elements [vals]. *)
Definition full_shape (i : info) : list Z :=
  if eqb_str (i_record i) (str "vector") then [i_height i; i_width i; i_depth i]
  else if eqb_str (i_record i) (str "image") then [i_depth i; i_height i; i_width i] else [i_height i; i_width i].
Definition axes_read (i : info) : list (Z * bool) :=
  let names := if eqb_str (i_record i) (str "vector") then [i_height i; i_width i; i_depth i]
               else [i_depth i; i_height i; i_width i] in
  let navigate := if eqb_str (i_record i) (str "vector") then [true; true; false]
                  else if eqb_str (i_record i) (str "image") then [true; false; false]
                  else if Nat.eqb (List.length (filter (fun n => 1 <? n) (full_shape i))) 1 then [true; true; false] else [true; false; false] in
  filter (fun p => 1 <? fst p) (combine names navigate).

Lemma read_back : forall t o sh get i,
  i_type i = dtype_key t -> i_len i = Z.of_nat (dtype_len t) -> i_order i = order_key t o ->
  In (i_record i) [str "vector"; str "image"; str "dont-care"] ->
  (i_record i = str "dont-care" \/ 1 < i_depth i) ->
  Forall (fun n => 1 <= n) sh -> Forall (fun n => 1 <= n) (full_shape i) ->
  prodZ sh = prodZ (full_shape i) ->
  (forall idx, 0 <= get idx < 256 ^ Z.of_nat (dtype_len t)) ->
  read_raw_file i (flat_map (enc (big_of o) (dtype_len t)) (ravel sh get)) =
  Ok {| d_type := t; d_shape := filter (fun n => 1 <? n) (full_shape i); d_flat := ravel sh get; d_axes := axes_read i |}.
Proof.
  intros t o sh get i Ht Hl Ho Hr Hd Hsh Hfull Hp Hget. unfold read_raw_file.
  assert (E0 : (i_depth i =? 1) && negb (eqb_str (i_record i) (str "dont-care")) = false).
  { destruct Hd as [->|Hd]; [apply andb_false_r|]. apply andb_false_intro1. lia. }
  rewrite E0, Ht, Hl, dtype_of_key. cbn [bind].
  assert (E1 : (if eqb_str (i_record i) (str "vector") then Ok [i_height i; i_width i; i_depth i]
               else if eqb_str (i_record i) (str "image") then Ok [i_depth i; i_height i; i_width i]
               else if eqb_str (i_record i) (str "dont-care") then Ok [i_height i; i_width i]
               else Err TypeError) = Ok (full_shape i)).
  { unfold full_shape. destruct Hr as [<-|[<-|[<-|[]]]]; reflexivity. }
  rewrite E1. cbn [bind].
  change (fold_right Z.mul 1 (filter (fun n => 1 <? n) (full_shape i))) with (prodZ (filter (fun n => 1 <? n) (full_shape i))).
  rewrite prodZ_squeeze by exact Hfull. rewrite <- Hp.
  assert (L : List.length (ravel sh get) = Z.to_nat (prodZ sh)).
  { unfold ravel. rewrite map_length. rewrite <- (box_length sh) by (eapply Forall_impl; [|exact Hsh]; cbn; lia). lia. }
  assert (L2 : List.length (flat_map (enc (big_of o) (dtype_len t)) (ravel sh get)) = (Z.to_nat (prodZ sh) * dtype_len t)%nat).
  { rewrite (flat_map_len _ _ _ _ (dtype_len t)) by (intros; apply enc_length). rewrite L. reflexivity. }
  rewrite L2. rewrite Nat.ltb_irrefl. rewrite Ho.
  rewrite raw_decode; [reflexivity| |exact L].
  unfold ravel. rewrite Forall_map. apply Forall_forall. intros; apply Hget.
Qed.

Lemma in_perm2 : forall sz f (idx : list Z), in_shape (map fst sz) idx -> map snd sz = f -> in_shape (nav_first f (map fst sz)) (nav_first f idx).
Proof.
  intros sz f idx H <-. unfold nav_first, in_shape in *.
  assert (K : forall b, Forall2 (fun n i => 0 <= i < n)
     (map snd (filter (fun p => Bool.eqb (fst p) b) (combine (map snd sz) (map fst sz)))) (map snd (filter (fun p => Bool.eqb (fst p) b) (combine (map snd sz) idx)))).
  { intros b. revert idx H. induction sz as [|[n g] sz IH]; intros idx H; inversion H as [|? ? ? ? H1 H2]; subst; cbn; [constructor|].
    destruct (Bool.eqb g b); cbn; [constructor; [exact H1|]|]; apply IH; exact H2. }
  pose proof (K true) as K1. pose proof (K false) as K2.
  assert (F1 : forall A (l : list (bool * A)), filter (fun p => Bool.eqb (fst p) true) l = filter fst l).
  { intros A l. apply filter_ext. intros [[] ?]; reflexivity. }
  assert (F2 : forall A (l : list (bool * A)), filter (fun p => Bool.eqb (fst p) false) l = filter (fun p => negb (fst p)) l).
  { intros A l. apply filter_ext. intros [[] ?]; reflexivity. }
  rewrite !F1 in K1. rewrite !F2 in K2. apply Forall2_app; assumption.
Qed.

Ltac fin := try reflexivity; cbn [i_record i_width i_height i_depth]; auto;
  try (cbn; tauto); try (unfold full_shape; cbn; repeat constructor; lia);
  try (repeat constructor; assumption);
  try (match goal with |- prodZ ?a = prodZ ?b => let b' := eval cbn in b in change (prodZ a = prodZ b'); unfold prodZ; cbn [fold_right]; ring end).

(** What the writer stores and the reader returns. *)
Lemma write_read : forall s, storable s ->
  exists i file perm, write_raw_file s = Ok (Some (i, file)) /\
    read_raw_file i file = Ok {| d_type := g_type s; d_shape := filter (fun n => 1 <? n) (nav_first (flags s) (sizes s));
      d_flat := ravel (nav_first (flags s) (sizes s)) (fun idx => g_get s (unpermute perm idx));
      d_axes := filter (fun p => 1 <? fst p) (nav_first (flags s) (g_axes s)) |} /\
    (forall idx : list Z, List.length idx = List.length (g_axes s) -> unpermute perm (nav_first (flags s) idx) = idx).
Proof.
  intros [t o axes get] [Hn [Hs [Hg Hc]]]. unfold sizes, flags, n_axes in *. cbn [g_type g_order g_axes g_get] in *.
  assert (Len1 : forall idx : list Z, List.length idx = 1%nat -> exists a, idx = [a]).
  { intros [|a [|? ?]]; cbn; try discriminate. eexists; reflexivity. }
  assert (Len2 : forall idx : list Z, List.length idx = 2%nat -> exists a b, idx = [a; b]).
  { intros [|a [|b [|? ?]]]; cbn; try discriminate. eexists; eexists; reflexivity. }
  assert (Len3 : forall idx : list Z, List.length idx = 3%nat -> exists a b c, idx = [a; b; c]).
  { intros [|a [|b [|c [|? ?]]]]; cbn; try discriminate. do 3 eexists; reflexivity. }
  destruct axes as [|[n1 f1] [|[n2 f2] [|[n3 f3] [|? ?]]]]; [| | | |cbn in Hn; lia].
  - exfalso. cbn in Hc. destruct Hc as [[H _]|[[H _]|[H _]]]; discriminate.
  - destruct f1; [exfalso; cbn in Hc; destruct Hc as [[H _]|[[H _]|[H _]]]; discriminate|].
    assert (B : 1 < n1) by (cbn in Hc; destruct Hc as [[_ H]|[[H _]|[H _]]]; [apply H; left; reflexivity|discriminate|discriminate]).
    do 2 eexists. exists [0%nat]. split; [reflexivity|]. split.
    + rewrite (read_back t o [n1]); fin.
    + intros idx H. destruct (Len1 _ H) as [a ->]. reflexivity.
  - cbn in Hs. inversion Hs as [|? ? B1 Hs2]; subst. inversion Hs2 as [|? ? B2 _]; subst.
    destruct f1, f2; cbn in Hc.
    + exfalso. destruct Hc as [[H _]|[[H _]|[H _]]]; discriminate.
    + assert (B : 1 < n2) by (destruct Hc as [[_ H]|[[H _]|[H _]]]; [apply H; auto|discriminate|discriminate]).
      do 2 eexists. exists [0%nat; 1%nat]. split; [reflexivity|]. split.
      * cbn [roll_last]. rewrite (read_back t o [n1; n2]); fin.
      * intros idx H. destruct (Len2 _ H) as [a [b ->]]. reflexivity.
    + assert (B : 1 < n1) by (destruct Hc as [[_ H]|[[H _]|[H _]]]; [apply H; auto|discriminate|discriminate]).
      do 2 eexists. exists [1%nat; 0%nat]. split; [reflexivity|]. split.
      * cbn [roll_last]. rewrite (read_back t o [n2; n1]); fin.
      * intros idx H. destruct (Len2 _ H) as [a [b ->]]. reflexivity.
    + assert (B : 1 < n2) by (destruct Hc as [[H _]|[[_ [H _]]|[_ [_ H]]]]; [discriminate|discriminate|exact H]).
      do 2 eexists. exists [0%nat; 1%nat]. split; [reflexivity|]. split.
      * rewrite (read_back t o [n1; n2]); fin.
        f_equal. unfold axes_read. cbn. destruct (1 <? n1) eqn:E1, (1 <? n2) eqn:E2; cbn; try rewrite E1; try rewrite E2; try reflexivity; lia.
      * intros idx H. destruct (Len2 _ H) as [a [b ->]]. reflexivity.
  - cbn in Hs. inversion Hs as [|? ? B1 Hs2]; subst. inversion Hs2 as [|? ? B2 Hs3]; subst. inversion Hs3 as [|? ? B3 _]; subst.
    destruct f1, f2, f3; cbn in Hc;
      try (exfalso; destruct Hc as [[H _]|[[H [H' _]]|[H [H' _]]]]; discriminate).
    + assert (B : 1 < n3) by (destruct Hc as [[_ H]|[[H _]|[H _]]]; [apply H; auto|discriminate|discriminate]).
      do 2 eexists. exists [0%nat; 1%nat; 2%nat]. split; [reflexivity|]. split.
      * cbn [roll_last]. rewrite (read_back t o [n1; n2; n3]); fin.
      * intros idx H. destruct (Len3 _ H) as [a [b [c ->]]]. reflexivity.
    + assert (B : 1 < n2) by (destruct Hc as [[_ H]|[[H _]|[H _]]]; [apply H; auto|discriminate|discriminate]).
      do 2 eexists. exists [0%nat; 2%nat; 1%nat]. split; [reflexivity|]. split.
      * cbn [roll_last]. rewrite (read_back t o [n1; n3; n2]); fin.
      * intros idx H. destruct (Len3 _ H) as [a [b [c ->]]]. reflexivity.
    + assert (B : 1 < n1) by (destruct Hc as [[H _]|[[_ [_ H]]|[_ [H _]]]]; [discriminate|apply H; auto|discriminate]).
      do 2 eexists. exists [0%nat; 1%nat; 2%nat]. split; [reflexivity|]. split.
      * cbn [roll_first]. rewrite (read_back t o [n1; n2; n3]); fin.
      * intros idx H. destruct (Len3 _ H) as [a [b [c ->]]]. reflexivity.
    + assert (B : 1 < n1) by (destruct Hc as [[_ H]|[[H _]|[H _]]]; [apply H; auto|discriminate|discriminate]).
      do 2 eexists. exists [1%nat; 2%nat; 0%nat]. split; [reflexivity|]. split.
      * cbn [roll_last]. rewrite (read_back t o [n2; n3; n1]); fin.
      * intros idx H. destruct (Len3 _ H) as [a [b [c ->]]]. reflexivity.
    + assert (B : 1 < n2) by (destruct Hc as [[H _]|[[_ [_ H]]|[_ [H _]]]]; [discriminate|apply H; auto|discriminate]).
      do 2 eexists. exists [1%nat; 0%nat; 2%nat]. split; [reflexivity|]. split.
      * cbn [roll_first]. rewrite (read_back t o [n2; n1; n3]); fin.
      * intros idx H. destruct (Len3 _ H) as [a [b [c ->]]]. reflexivity.
    + assert (B : 1 < n3) by (destruct Hc as [[H _]|[[_ [_ H]]|[_ [H _]]]]; [discriminate|apply H; auto|discriminate]).
      do 2 eexists. exists [2%nat; 0%nat; 1%nat]. split; [reflexivity|]. split.
      * cbn [roll_first]. rewrite (read_back t o [n3; n1; n2]); fin.
      * intros idx H. destruct (Len3 _ H) as [a [b [c ->]]]. reflexivity.
Qed.

Theorem C20_raw_round_trip : forall s, storable s ->
  exists i file d, write_raw_file s = Ok (Some (i, file)) /\ read_raw_file i file = Ok d /\
    d_type d = g_type s /\
    d_axes d = filter (fun a => 1 <? fst a) (nav_first (flags s) (g_axes s)) /\
    d_shape d = map fst (d_axes d) /\
    Z.of_nat (List.length (d_flat d)) = prodZ (sizes s) /\
    forall idx, in_shape (sizes s) idx ->
      nth_error (d_flat d) (Z.to_nat (row_major (nav_first (flags s) (sizes s)) (nav_first (flags s) idx))) = Some (g_get s idx).
Proof.
  intros s H. destruct (write_read s H) as [i [file [perm [E1 [E2 E3]]]]].
  do 3 eexists. split; [exact E1|]. split; [exact E2|]. cbn [d_type d_axes d_shape d_flat].
  destruct H as [_ [Hs _]].
  assert (Mf : forall l : list (Z * bool), map fst (filter (fun a => 1 <? fst a) l) = filter (fun n => 1 <? n) (map fst l)).
  { induction l as [|[n f] l IH]; [reflexivity|]. cbn [filter map fst]. destruct (1 <? n); cbn [map fst]; rewrite IH; reflexivity. }
  assert (Mn : forall f (l : list (Z * bool)), map fst (nav_first f l) = nav_first f (map fst l)).
  { intros f l. unfold nav_first. rewrite map_app, !map_map.
    assert (G : forall g, map (fun x : bool * (Z * bool) => fst (snd x)) (filter (fun p => g (fst p)) (combine f l)) =
       map snd (filter (fun p => g (fst p)) (combine f (map fst l)))).
    { intros g. revert l. induction f as [|b f IH]; intros [|x l]; [reflexivity..|]. cbn [combine map filter fst].
      destruct (g b); cbn [map snd]; rewrite IH; reflexivity. }
    f_equal; [exact (G (fun b => b))|exact (G negb)]. }
  assert (Pn : forall f (l : list Z), List.length f = List.length l -> prodZ (nav_first f l) = prodZ l).
  { intros f l. unfold nav_first, prodZ. revert l. induction f as [|b f IH]; intros [|x l] L; try discriminate; [reflexivity|].
    injection L as L. specialize (IH l L). destruct b; cbn [combine filter fst negb map snd app fold_right].
    - rewrite IH. reflexivity.
    - rewrite <- IH. rewrite !fold_right_app. cbn [fold_right].
      generalize (fold_right Z.mul 1 (map snd (filter (fun p : bool * Z => negb (fst p)) (combine f l)))). intros m.
      generalize (map snd (filter fst (combine f l))). induction l0 as [|y l0 IH0]; cbn [fold_right]; [ring|rewrite IH0; ring]. }
  assert (Fn : forall f (l : list Z), Forall (fun n => 1 <= n) l -> Forall (fun n => 1 <= n) (nav_first f l)).
  { intros f l Hl. rewrite Forall_forall in *. intros n Hn. apply Hl. unfold nav_first in Hn.
    apply in_app_or in Hn. destruct Hn as [Hn|Hn]; apply in_map_iff in Hn; destruct Hn as [[b m] [<- Hn]];
      apply filter_In in Hn; destruct Hn as [Hn _]; apply in_combine_r in Hn; exact Hn. }
  split; [reflexivity|]. split; [reflexivity|]. split; [rewrite Mf, Mn; reflexivity|]. split.
  - unfold ravel. rewrite map_length, box_length.
    + apply Pn. unfold flags, sizes. rewrite !map_length. reflexivity.
    + eapply Forall_impl; [|apply Fn; exact Hs]. cbn. lia.
  - intros idx Hi. unfold ravel. rewrite nth_error_map, box_nth.
    + cbn [option_map]. rewrite E3; [reflexivity|]. apply in_shape_length in Hi. unfold sizes in Hi. rewrite map_length in Hi. auto.
    + apply in_perm2; [exact Hi|reflexivity].
Qed.
Print Assumptions C20_raw_round_trip.

(** A stack of two 3-by-2 images whose navigation axis is the middle one, big endian. *)
Definition ex_raw : rsig :=
  {| g_type := U16; g_order := Some true; g_axes := [(3, false); (2, true); (2, false)];
     g_get := fun idx => match idx with [a; b; c] => (100 * a + 10 * b + c) mod 65536 | _ => 7 end |}.
Example C20_example_hyps : storable ex_raw.
Proof.
  repeat split.
  - cbn. lia.
  - cbn. repeat constructor; lia.
  - cbn [g_get ex_raw]. destruct idx as [|a [|b [|c [|? ?]]]]; try lia; apply Z.mod_pos_bound; lia.
  - change (256 ^ Z.of_nat (dtype_len (g_type ex_raw))) with 65536. cbn [g_get ex_raw].
    destruct idx as [|a [|b [|c [|? ?]]]]; try lia; apply Z.mod_pos_bound; lia.
  - right. left. split; [reflexivity|]. split; [reflexivity|]. cbn. intros n [H|[H|[H|[]]]]; injection H; lia.
Qed.
Example C20_example :
  (let! w := write_raw_file ex_raw in match w with Some (i, file) => read_raw_file i file | None => Err OutOfFuel end) =
  Ok {| d_type := U16; d_shape := [2; 3; 2]; d_flat := [0; 1; 100; 101; 200; 201; 10; 11; 110; 111; 210; 211];
        d_axes := [(2, true); (3, false); (2, false)] |}.
Proof. vm_compute. reflexivity. Qed.

(** Signals that can be built but do not survive. *)
Definition round (s : rsig) : res (option rdata) :=
  let! w := write_raw_file s in
  match w with Some (i, file) => let! d := read_raw_file i file in Ok (Some d) | None => Ok None end.
(** A spectrum of one channel, or a line of images of one step, is written, but the reader
    refuses it. *)
Theorem C20_depth_one_refuted : exists s, (let! w := write_raw_file s in Ok (match w with Some _ => true | None => false end)) = Ok true /\ round s = Err IOError.
Proof. exists {| g_type := U16; g_order := None; g_axes := [(5, true); (1, false)]; g_get := fun _ => 1 |}. split; vm_compute; reflexivity. Qed.
(** An image of one column comes back as a navigation axis. *)
Theorem C20_column_refuted : exists s, g_axes s = [(3, false); (1, false)] /\
  round s = Ok (Some {| d_type := U16; d_shape := [3]; d_flat := [1; 1; 1]; d_axes := [(3, true)] |}).
Proof. exists {| g_type := U16; g_order := None; g_axes := [(3, false); (1, false)]; g_get := fun _ => 1 |}. split; vm_compute; reflexivity. Qed.
(** Three signal axes, or none: nothing is written and no error is raised. *)
Theorem C20_silent_refuted : forall s, (List.length (g_axes s) <= 3)%nat -> n_axes false s = 0%nat \/ n_axes false s = 3%nat -> round s = Ok None.
Proof.
  intros [t o axes get] Hn H. unfold n_axes in H. cbn [g_axes] in *.
  destruct axes as [|[n1 f1] [|[n2 f2] [|[n3 f3] [|? ?]]]]; [| | | |cbn in Hn; lia]; [reflexivity|..];
    repeat match goal with f : bool |- _ => destruct f end; cbn in H; try (exfalso; clear - H; lia); reflexivity.
Qed.
Example C20_silent_example : n_axes false {| g_type := U16; g_order := None; g_axes := [(3, false); (4, false); (2, false)]; g_get := fun _ => 1 |} = 3%nat.
Proof. reflexivity. Qed.
Print Assumptions C20_depth_one_refuted.
Print Assumptions C20_column_refuted.
Print Assumptions C20_silent_refuted.
