(** MSA files written from a signal: the rest of C21 and C23. *)
From Verif Require Import Base Text Bytes HierModel HierProof HierProps Dict RplModel RplProps MsaModel MsaProps.

(** ** Specification *)
(** The values of a signal can be written: every value is text that fits its line. *)
Definition axis_keys : list pystr := map str ["NPOINTS"; "XPERCHAN"; "OFFSET"; "XLABEL"; "XUNITS"]%string.
Definition signal_ok (t : list kw) (s : msig) : Prop :=
  map fst (ms_axis s) = axis_keys /\ Forall field_ok (ms_axis s) /\
  (forall v, ms_date s = Some v -> field_ok (str "DATE", v)) /\
  (forall k path v, In k t -> k_path k = Some path -> lookup path (ms_md s) = Some v -> field_ok (k_name k, v)) /\
  Forall (fun p => token_ok (fst p) /\ token_ok (snd p)) (ms_data s).

(** ** Lemmas *)
Definition ok_entry (p : pystr * pystr) : Prop := fst p = str "FORMAT" \/ fst p = str "VERSION" \/ field_ok p.
Definition good (d : list (pystr * pystr)) : Prop := NoDup (map fst d) /\ forall k v, lookup k d = Some v -> ok_entry (k, v).

Lemma good_put : forall k v d, good d -> ok_entry (k, v) -> good (put k v d).
Proof.
  intros k v d [H1 H2] H. split; [apply put_nodup; exact H1|]. intros k' v' E. rewrite lookup_put in E.
  destruct (eqb_str k' k) eqn:Ek; [|apply H2; exact E]. apply eqb_str_spec in Ek. subst k'. injection E as <-. exact H.
Qed.

Lemma good_update : forall ks d, Forall ok_entry ks -> good d -> good (update ks d).
Proof.
  induction ks as [|[k v] ks IH]; intros d Hk Hd; cbn [update]; [exact Hd|]. inversion Hk as [|? ? K1 K2]; subst.
  apply IH; [exact K2|]. destruct (lookup k d); [destruct v; [exact Hd|]|]; apply good_put; assumption.
Qed.

Lemma good_from : forall t md d, (forall k p v, In k t -> k_path k = Some p -> lookup p md = Some v -> field_ok (k_name k, v)) ->
  good d -> good (from_metadata t md d).
Proof.
  induction t as [|k t IH]; intros md d H Hd; cbn [from_metadata]; [exact Hd|]. apply IH; [intros; eapply H; [right|..]; eassumption|].
  destruct (k_path k) as [p|] eqn:Ep; [|exact Hd]. destruct (lookup p md) as [v|] eqn:El; [|exact Hd].
  apply good_put; [exact Hd|]. right. right. eapply H; [left; reflexivity|exact Ep|exact El].
Qed.

Lemma from_other : forall t md d x, (forall k, In k t -> k_name k = x -> k_path k = None) ->
  lookup x (from_metadata t md d) = lookup x d.
Proof.
  induction t as [|k t IH]; intros md d x H; cbn [from_metadata]; [reflexivity|].
  rewrite IH by (intros; apply H; [right|]; assumption). destruct (k_path k) as [p|] eqn:Ep; [|reflexivity].
  destruct (lookup p md) as [v|]; [|reflexivity]. rewrite lookup_put. destruct (eqb_str x (k_name k)) eqn:E; [|reflexivity].
  apply eqb_str_spec in E. rewrite (H k) in Ep; [discriminate|left; reflexivity|auto].
Qed.

Lemma from_here : forall t md d k p v, NoDup (map k_name t) -> In k t -> k_path k = Some p -> lookup p md = Some v ->
  lookup (k_name k) (from_metadata t md d) = Some v.
Proof.
  induction t as [|k0 t IH]; intros md d k p v Hn Hk Hp Hl; [contradiction|]. cbn [from_metadata map] in *.
  inversion Hn as [|? ? N1 N2]; subst. destruct Hk as [->|Hk].
  - rewrite Hp, Hl. rewrite from_other; [rewrite lookup_put, eqb_str_refl; reflexivity|].
    intros k' Hk' En. exfalso. apply N1. rewrite <- En. apply in_map. exact Hk'.
  - eapply IH; eassumption.
Qed.

Lemma update_other : forall ks d x, ~ In x (map fst ks) -> lookup x (update ks d) = lookup x d.
Proof.
  induction ks as [|[k v] ks IH]; intros d x H; cbn [update map fst] in *; [reflexivity|]. rewrite IH by (intro K; apply H; right; exact K).
  assert (E : eqb_str x k = false) by (destruct (eqb_str x k) eqn:E; [apply eqb_str_spec in E; exfalso; apply H; left; auto|reflexivity]).
  destruct (lookup k d); [destruct v; [reflexivity|]|]; rewrite lookup_put, E; reflexivity.
Qed.

Lemma update_here : forall a b x v d, v <> [] -> ~ In x (map fst b) -> lookup x (update (a ++ (x, v) :: b) d) = Some v.
Proof.
  induction a as [|[k w] a IH]; intros b x v d Hv Hb; cbn [app update].
  - rewrite update_other by exact Hb. destruct v as [|c v]; [congruence|].
    destruct (lookup x d); rewrite lookup_put, eqb_str_refl; reflexivity.
  - apply IH; assumption.
Qed.

Lemma del_spec : forall k d, NoDup (map fst d) -> NoDup (map fst (del k d)) /\
  (forall x, In x (map fst (del k d)) -> In x (map fst d)) /\
  forall x, lookup x (del k d) = if eqb_str x k then None else lookup x d.
Proof.
  induction d as [|[k' v] d IH]; intros Hn; cbn [del map fst lookup] in *.
  - split; [constructor|]. split; [auto|]. intros x. destruct (eqb_str x k); reflexivity.
  - inversion Hn as [|? ? N1 N2]; subst. destruct (IH N2) as [A [B C]]. destruct (eqb_str k k') eqn:E.
    + apply eqb_str_spec in E. subst k'. split; [exact N2|]. split; [intros x K; right; exact K|]. intros x. destruct (eqb_str x k) eqn:Ex; [|reflexivity].
      apply eqb_str_spec in Ex. subst x. destruct (lookup k d) as [w|] eqn:El; [|reflexivity]. exfalso. apply N1.
      apply lookup_some_in in El. exact (in_map fst d (k, w) El).
    + cbn [map fst lookup]. split; [constructor; [intro K; apply N1; apply B; exact K|exact A]|].
      split; [intros x [K|K]; [left; exact K|right; apply B; exact K]|]. intros x. rewrite C.
      destruct (eqb_str x k') eqn:E1, (eqb_str x k) eqn:E2; try reflexivity.
      apply eqb_str_spec in E1, E2. subst. rewrite eqb_str_refl in E. discriminate.
Qed.

Lemma good_del : forall k d, good d -> good (del k d).
Proof.
  intros k d [H1 H2]. destruct (del_spec k d H1) as [A [_ C]]. split; [exact A|]. intros x v E. rewrite C in E.
  destruct (eqb_str x k); [discriminate|]. apply H2. exact E.
Qed.

(** Checks for constants. *)
Lemma not_in_str : forall (x : pystr) l, existsb (eqb_str x) l = false -> ~ In x l.
Proof.
  intros x l H K. assert (existsb (eqb_str x) l = true); [|congruence]. apply existsb_exists. exists x. split; [exact K|apply eqb_str_refl].
Qed.
Fixpoint nodupb (l : list pystr) : bool := match l with [] => true | x :: l' => negb (existsb (eqb_str x) l') && nodupb l' end.
Lemma nodup_str : forall l, nodupb l = true -> NoDup l.
Proof.
  induction l as [|x l IH]; intros H; constructor; cbn [nodupb] in H; apply andb_prop in H; destruct H as [H1 H2].
  - apply not_in_str. apply negb_true_iff. exact H1.
  - apply IH. exact H2.
Qed.
Definition key_okb (k : pystr) : bool :=
  forallb (fun c => negb (c =? 35) && negb (c =? 58) && negb (c =? 45) && (c <? 256) && negb (c =? 10) && negb (c =? 13)) k &&
  match k with [] => true | c :: _ => negb (is_space c) && negb (is_space (last k 0)) end.
Definition field_okb (k v : pystr) : bool :=
  key_okb k && negb (eqb_str k (str "SPECTRUM")) && forallb (fun c => (c <? 256) && negb (c =? 10) && negb (c =? 13)) v &&
  negb (multiline k && match v with [] => false | _ => true end) && negb (contains [58; 32] v) && negb (is_space (last v 0)).

Lemma field_okb_ok : forall k v, field_okb k v = true -> field_ok (k, v).
Proof.
  intros k v H. unfold field_okb, key_okb in H. rewrite !andb_true_iff, !negb_true_iff in H.
  destruct H as [[[[[[A1 A2] B] C] D] E] G]. rewrite forallb_forall in A1, C. unfold field_ok. cbn [fst snd].
  assert (P : forall c, In c k -> c <> 35 /\ c <> 58 /\ c <> 45 /\ c < 256 /\ c <> 10 /\ c <> 13) by (intros c Hc; specialize (A1 c Hc); lia).
  split; [|split; [|split]].
  - split; [intro K; apply P in K; lia|]. split; [intro K; apply P in K; lia|]. split; [intro K; apply P in K; lia|].
    split; [unfold trimmed; destruct k as [|c k]; [exact I|]; apply andb_prop in A2; rewrite !negb_true_iff in A2; exact A2|].
    apply Forall_forall. intros c Hc. apply P in Hc. lia.
  - intro K. subst k. rewrite eqb_str_refl in B. discriminate.
  - apply Forall_forall. intros c Hc. specialize (C c Hc). lia.
  - destruct (multiline k); [|split; assumption]. destruct v as [|c v]; [|discriminate D].
    intros i. unfold slice. rewrite skipn_nil, firstn_nil. split; reflexivity.
Qed.

Lemma sigtype_ok : forall ty, field_ok (str "SIGNALTYPE", sigtype_key ty).
Proof.
  intros ty. unfold sigtype_key.
  destruct (existsb (eqb_str ty) (map str ["EDS_SEM"; "EDS_TEM"]%string)); [apply field_okb_ok; vm_compute; reflexivity|].
  destruct (eqb_str ty (str "EELS")); [apply field_okb_ok; vm_compute; reflexivity|].
  destruct (existsb (eqb_str ty) (map str ["CL"; "CL_SEM"; "CL_STEM"]%string)); [apply field_okb_ok; vm_compute; reflexivity|].
  destruct (existsb (eqb_str ty) (map str ["EDS"; "WDS"; "ELS"; "AES"; "PES"; "XRF"; "CLS"; "GAM"]%string)) eqn:E; [|apply field_okb_ok; vm_compute; reflexivity].
  apply existsb_exists in E. destruct E as [x [Hx E]]. apply eqb_str_spec in E. subst x.
  cbn [map In] in Hx. repeat (destruct Hx as [<-|Hx]; [apply field_okb_ok; vm_compute; reflexivity|]). contradiction.
Qed.

Definition reserved (t : list kw) : bool :=
  forallb (fun k => negb (existsb (eqb_str (k_name k)) (map str ["DATATYPE"; "VERSION"; "FORMAT"]%string)) ||
                    match k_path k with None => true | Some _ => false end) t.
Lemma tables_reserved : reserved keywords = true /\ reserved (shift keywords) = true.
Proof. split; vm_compute; reflexivity. Qed.
Lemma tables_names : NoDup (map k_name keywords) /\ NoDup (map k_name (shift keywords)).
Proof.
  assert (E : map k_name (shift keywords) = map k_name keywords) by (unfold shift; rewrite map_map; reflexivity).
  rewrite E. assert (N : NoDup (map k_name keywords)); [|split; exact N].
  apply nodup_str. vm_compute. reflexivity.
Qed.

Lemma tables_title : forall t, t = keywords \/ t = shift keywords -> exists k, In k t /\ k_name k = str "TITLE" /\ k_path k = Some (str "General.title").
Proof.
  intros t Ht. exists {| k_name := str "TITLE"; k_type := KStr; k_path := Some (str "General.title") |}. split; [|auto].
  destruct Ht as [->| ->]; right; right; left; reflexivity.
Qed.

(** The keywords written for a signal that was not read from an MSA file. *)
Lemma kwds_ok : forall comment xy t s, t = keywords \/ t = shift keywords -> signal_ok t s -> is_msa s = false ->
  field_ok (str "COMMENT", comment) ->
  let d := loc_kwds comment (format_key xy) t s in
  good d /\ lookup (str "DATATYPE") d = Some (format_key xy) /\ lookup (str "VERSION") d = Some (str "1.0") /\
  forall k p v, In k t -> k_path k = Some p -> lookup p (ms_md s) = Some v ->
    k_name k <> str "SPECTRUM" -> k_name k <> str "ENDOFDATA" -> lookup (k_name k) d = Some v.
Proof.
  intros comment xy t s Ht [S1 [S2 [S3 [S4 _]]]] Hm Hc. cbv zeta. unfold loc_kwds. rewrite Hm.
  set (d0 := match ms_date s with Some v => [(str "DATE", v)] | None => [] end).
  set (d1 := put (str "SIGNALTYPE") (sigtype_key (ms_type s)) d0).
  set (d2 := match lookup (str "COMMENT") d1 with Some _ => d1 | None => put (str "COMMENT") comment d1 end).
  set (title := match lookup (str "General.title") (ms_md s) with Some v => v | None => [] end).
  assert (G0 : good d0).
  { unfold d0. destruct (ms_date s) as [v|] eqn:Ed; [|split; [constructor|discriminate]].
    split; [repeat constructor; intros []|]. intros k w E. cbn [lookup] in E. destruct (eqb_str k (str "DATE")) eqn:Ek; [|discriminate].
    apply eqb_str_spec in Ek. subst k. injection E as <-. right. right. apply S3. reflexivity. }
  assert (G1 : good d1) by (apply good_put; [exact G0|right; right; apply sigtype_ok]).
  assert (G2 : good d2) by (unfold d2; destruct (lookup (str "COMMENT") d1); [exact G1|apply good_put; [exact G1|right; right; exact Hc]]).
  assert (Gt : field_ok (str "TITLE", title)).
  { unfold title. destruct (lookup (str "General.title") (ms_md s)) as [v|] eqn:E; [|apply field_okb_ok; vm_compute; reflexivity].
    destruct (tables_title t Ht) as [k [K1 [K2 K3]]]. rewrite <- K2. apply (S4 k _ v K1 K3 E). }
  set (ks := [(str "FORMAT", FORMAT); (str "VERSION", str "1.0"); (str "TITLE", title); (str "DATE", []); (str "TIME", []);
             (str "OWNER", []); (str "NCOLUMNS", str "1"); (str "DATATYPE", format_key xy); (str "SIGNALTYPE", [])] ++ ms_axis s).
  assert (Gk : Forall ok_entry ks).
  { unfold ks. apply Forall_app. split.
    - apply Forall_cons; [left; reflexivity|]. apply Forall_cons; [right; left; reflexivity|].
      apply Forall_cons; [right; right; exact Gt|].
      destruct xy; repeat (apply Forall_cons; [right; right; apply field_okb_ok; vm_compute; reflexivity|]); constructor.
    - eapply Forall_impl; [|exact S2]. intros p Hp. right. right. exact Hp. }
  assert (G3 : good (update ks d2)) by (apply good_update; assumption).
  assert (G4 : good (from_metadata t (ms_md s) (update ks d2))) by (apply good_from; [exact S4|exact G3]).
  set (d4 := from_metadata t (ms_md s) (update ks d2)) in *.
  assert (G5 : good (del (str "SPECTRUM") d4)) by (apply good_del; exact G4).
  assert (R : forall x, In x (map str ["DATATYPE"; "VERSION"; "FORMAT"]%string) -> lookup x d4 = lookup x (update ks d2)).
  { intros x Hx. unfold d4. apply from_other. intros k Hk Hkx.
    assert (Rt : reserved t = true) by (destruct Ht as [->| ->]; apply tables_reserved). unfold reserved in Rt. rewrite forallb_forall in Rt.
    specialize (Rt k Hk). destruct (k_path k); [|reflexivity]. rewrite orb_false_r, negb_true_iff in Rt. rewrite Hkx in Rt.
    assert (existsb (eqb_str x) (map str ["DATATYPE"; "VERSION"; "FORMAT"]%string) = true); [|congruence].
    apply existsb_exists. exists x. split; [exact Hx|apply eqb_str_refl]. }
  assert (Del : forall x, x <> str "SPECTRUM" -> x <> str "ENDOFDATA" -> lookup x (del (str "ENDOFDATA") (del (str "SPECTRUM") d4)) = lookup x d4).
  { intros x N1 N2. destruct (del_spec (str "ENDOFDATA") _ (proj1 G5)) as [_ [_ C]]. rewrite C.
    destruct (del_spec (str "SPECTRUM") _ (proj1 G4)) as [_ [_ C']]. rewrite C'.
    assert (E1 : eqb_str x (str "ENDOFDATA") = false) by (destruct (eqb_str x (str "ENDOFDATA")) eqn:E; [apply eqb_str_spec in E; contradiction|reflexivity]).
    assert (E2 : eqb_str x (str "SPECTRUM") = false) by (destruct (eqb_str x (str "SPECTRUM")) eqn:E; [apply eqb_str_spec in E; contradiction|reflexivity]).
    rewrite E1, E2. reflexivity. }
  split; [apply good_del; exact G5|]. split; [|split].
  - rewrite Del by discriminate. rewrite R by (left; reflexivity). unfold ks.
    change (lookup (str "DATATYPE") (update ([(str "FORMAT", FORMAT); (str "VERSION", str "1.0"); (str "TITLE", title); (str "DATE", []); (str "TIME", []);
             (str "OWNER", []); (str "NCOLUMNS", str "1")] ++ (str "DATATYPE", format_key xy) :: ((str "SIGNALTYPE", []) :: ms_axis s)) d2) = Some (format_key xy)).
    apply update_here; [destruct xy; discriminate|]. intros [K|K]; [discriminate K|].
    assert (K' : In (str "DATATYPE") axis_keys) by (rewrite <- S1; exact K). revert K'. apply not_in_str. vm_compute. reflexivity.
  - rewrite Del by discriminate. rewrite R by (right; left; reflexivity). unfold ks.
    change (lookup (str "VERSION") (update ([(str "FORMAT", FORMAT)] ++ (str "VERSION", str "1.0") :: ([(str "TITLE", title); (str "DATE", []); (str "TIME", []);
             (str "OWNER", []); (str "NCOLUMNS", str "1"); (str "DATATYPE", format_key xy); (str "SIGNALTYPE", [])] ++ ms_axis s)) d2) = Some (str "1.0")).
    apply update_here; [discriminate|]. intro K. rewrite map_app in K. apply in_app_or in K. destruct K as [K|K].
    + revert K. apply not_in_str. vm_compute. reflexivity.
    + assert (K' : In (str "VERSION") axis_keys) by (rewrite <- S1; exact K). revert K'. apply not_in_str. vm_compute. reflexivity.
  - intros k p v Hk Hp Hl N1 N2. rewrite Del by assumption. unfold d4.
    apply (from_here t (ms_md s) _ k p v); try assumption. destruct Ht as [->| ->]; apply tables_names.
Qed.

(** C21 and C23 for signals: whatever the table, a signal that was not read from an MSA
    file is written to a file that reads back with its spectrum, and with every piece of
    its metadata that has a keyword in the table used for writing. *)
Theorem C21_signal_round_trip : forall (F : Type) (tofloat : pystr -> option F) comment xy t0 s fs,
  let t := write_table (ms_type s) t0 in
  t0 = keywords \/ t0 = shift keywords -> signal_ok t s -> is_msa s = false -> field_ok (str "COMMENT", comment) ->
  Forall2 (fun p f => tofloat (snd p) = Some f) (ms_data s) fs ->
  exists m, msa_read tofloat t (first (msa_write comment xy t0 s)) = Ok (m, fs) /\
    forall k path v, In k t -> k_path k = Some path -> lookup path (ms_md s) = Some v -> v <> [] ->
      match k_type k with
      | KStr => lookup path m = Some (MText v)
      | KFloat => forall f, tofloat v = Some f -> lookup path m = Some (MNum f)
      end.
Proof.
  intros F tofloat comment xy t0 s fs t Ht0 Hs Hm Hc Hfs.
  assert (Ht : t = keywords \/ t = shift keywords).
  { unfold t, write_table. destruct (contains (str "SEM") (ms_type s)); [|exact Ht0]. right. destruct Ht0 as [->| ->]; [reflexivity|apply shift_shift]. }
  destruct (kwds_ok comment xy t s Ht Hs Hm Hc) as [G [L1 [L2 L3]]]. cbv zeta in *.
  unfold msa_write, first. cbn [fst]. fold t. set (d := loc_kwds comment (format_key xy) t s) in *. rewrite L2.
  assert (G6 : good (del (str "FORMAT") d)) by (apply good_del; exact G).
  assert (G7 : good (written_kwds d)) by (apply good_del; exact G6).
  assert (W : forall x, lookup x (written_kwds d) = if eqb_str x (str "VERSION") then None else if eqb_str x (str "FORMAT") then None else lookup x d).
  { intros x. unfold written_kwds. destruct (del_spec (str "VERSION") _ (proj1 G6)) as [_ [_ C]]. rewrite C.
    destruct (del_spec (str "FORMAT") _ (proj1 G)) as [_ [_ C']]. rewrite C'. reflexivity. }
  assert (NI : forall x, lookup x (written_kwds d) = None -> ~ In x (map fst (written_kwds d))) by (intros x; apply lookup_none_in).
  assert (Ff : Forall field_ok (written_kwds d)).
  { apply Forall_forall. intros [k v] Hin. assert (El : lookup k (written_kwds d) = Some v) by (apply lookup_in; [apply G7|exact Hin]).
    destruct (proj2 G7 k v El) as [E|[E|E]]; [| |exact E]; cbn [fst] in E; subst k; rewrite W in El; discriminate El. }
  assert (Din : In (str "DATATYPE", format_key xy) (written_kwds d)).
  { apply lookup_some_in. rewrite W. exact L1. }
  assert (N1 : ~ In (str "FORMAT") (map fst (written_kwds d))) by (apply NI; rewrite W; reflexivity).
  assert (N2 : ~ In (str "VERSION") (map fst (written_kwds d))) by (apply NI; rewrite W; reflexivity).
  assert (V1 : line_chars (str "1.0")) by (cbn; repeat constructor; lia).
  assert (V2 : piece_ok (str "1.0")) by (split; vm_compute; reflexivity).
  destruct Hs as [_ [_ [_ [_ Hd]]]].
  assert (Base : exists m, msa_read tofloat t (msa_text (str "1.0") (written_kwds d) xy (ms_data s)) = Ok (m, fs)).
  { destruct (tables_title t Ht) as [k [K1 [K2 K3]]].
    destruct (msa_read tofloat t (msa_text (str "1.0") (written_kwds d) xy (ms_data s))) as [[m y]|e] eqn:E.
    - unfold msa_read in E. rewrite (C23_file_round_trip F tofloat (str "1.0") (written_kwds d) xy (ms_data s) fs) in E; try assumption; [|apply G7].
      cbn [bind fst snd] in E. destruct (map_params tofloat t _ []) as [m'|]; cbn [bind] in E; [|discriminate E]. injection E as <- <-. exists m'. reflexivity.
    - exfalso. unfold msa_read in E. rewrite (C23_file_round_trip F tofloat (str "1.0") (written_kwds d) xy (ms_data s) fs) in E; try assumption; [|apply G7].
      cbn [bind fst snd] in E.
      destruct (map_params_path tofloat t (k_name k) KStr (str "General.title")) with (d := (str "FORMAT", Some FORMAT) :: (str "VERSION", Some (str "1.0")) :: entries (written_kwds d)) (m := @nil (pystr * mval F)) as [m [A _]].
      + rewrite K2. destruct Ht as [->| ->]; vm_compute; reflexivity.
      + intros k' Hk' Hp'. assert (U : paths_unique t = true) by (destruct Ht as [->| ->]; apply tables_unique).
        unfold paths_unique in U. rewrite forallb_forall in U. specialize (U k K1). rewrite K3 in U. apply andb_prop in U. destruct U as [U1 _].
        rewrite forallb_forall in U1. specialize (U1 k' Hk'). rewrite Hp', eqb_str_refl in U1. apply eqb_str_spec. exact U1.
      + constructor; [cbn; intuition discriminate|]. constructor; [cbn; intuition discriminate|].
        unfold entries. rewrite Forall_map. eapply Forall_impl; [|exact Ff]. intros p [[_ [_ [H _]]] _]. exact H.
      + assert (Em : map fst (entries (written_kwds d)) = map fst (written_kwds d)) by (unfold entries; rewrite map_map; reflexivity).
        change (NoDup (str "FORMAT" :: str "VERSION" :: map fst (entries (written_kwds d)))). rewrite Em.
        constructor; [intros [H|H]; [discriminate H|tauto]|]. constructor; [exact N2|apply G7].
      + rewrite A in E. discriminate E. }
  destruct Base as [m Em]. exists m. split; [exact Em|]. intros k path v Hk Hp Hl Hne.
  assert (Kn : k_name k <> str "SPECTRUM" /\ k_name k <> str "ENDOFDATA" /\ k_name k <> str "VERSION" /\ k_name k <> str "FORMAT").
  { assert (Q : forallb (fun k => match k_path k with None => true | Some _ => negb (existsb (eqb_str (k_name k)) (map str ["SPECTRUM"; "ENDOFDATA"; "VERSION"; "FORMAT"]%string)) end) t = true)
      by (destruct Ht as [->| ->]; vm_compute; reflexivity).
    rewrite forallb_forall in Q. specialize (Q k Hk). rewrite Hp in Q. rewrite negb_true_iff in Q.
    repeat split; intro K; rewrite K in Q; discriminate Q. }
  destruct Kn as [K1 [K2 [K3 K4]]].
  assert (Ln : lookup (k_name k) (written_kwds d) = Some v).
  { rewrite W. destruct (eqb_str (k_name k) (str "VERSION")) eqn:E1; [apply eqb_str_spec in E1; contradiction|].
    destruct (eqb_str (k_name k) (str "FORMAT")) eqn:E2; [apply eqb_str_spec in E2; contradiction|]. eapply L3; eassumption. }
  destruct (C21_metadata_round_trip F tofloat t (str "1.0") (written_kwds d) xy (ms_data s) fs k path v) as [m' [E' R]]; try assumption.
  - apply lookup_some_in. exact Ln.
  - apply G7.
  - rewrite Em in E'. injection E' as <-. exact R.
Qed.
Print Assumptions C21_signal_round_trip.

Definition ex_sig : msig :=
  {| ms_om := []; ms_md := [(str "General.title", str "gold 3"); (str "Acquisition_instrument.SEM.beam_energy", str "20.0")];
     ms_type := str "EDS_SEM"; ms_date := Some (str "16-NOV-2026");
     ms_axis := [(str "NPOINTS", str "3"); (str "XPERCHAN", str "10.0"); (str "OFFSET", str "-5"); (str "XLABEL", str "Energy"); (str "XUNITS", str "eV")];
     ms_data := ex_data |}.
Example C21_signal_example_ok : signal_ok (write_table (ms_type ex_sig) keywords) ex_sig.
Proof.
  split; [reflexivity|]. split; [repeat (apply Forall_cons; [apply field_okb_ok; vm_compute; reflexivity|]); constructor|].
  split; [intros v E; injection E as <-; apply field_okb_ok; vm_compute; reflexivity|]. split.
  - intros k path v Hk Hp Hl.
    assert (Q : forallb (fun k => match k_path k with Some p => match lookup p (ms_md ex_sig) with
        | Some v => field_okb (k_name k) v || eqb_str (k_name k) (str "TITLE") | None => true end | None => true end)
        (write_table (ms_type ex_sig) keywords) = true) by (vm_compute; reflexivity).
    rewrite forallb_forall in Q. specialize (Q k Hk). rewrite Hp, Hl in Q. apply orb_prop in Q. destruct Q as [Q|Q]; [apply field_okb_ok; exact Q|].
    apply eqb_str_spec in Q. rewrite Q.
    assert (P : forallb (fun k => negb (eqb_str (k_name k) (str "TITLE")) || match k_path k with Some p => eqb_str p (str "General.title") | None => false end)
        (write_table (ms_type ex_sig) keywords) = true) by (vm_compute; reflexivity).
    rewrite forallb_forall in P. specialize (P k Hk). rewrite Q, Hp in P. cbn [negb orb] in P. rewrite eqb_str_refl in P. cbn [negb orb] in P.
    apply eqb_str_spec in P. subst path. vm_compute in Hl. injection Hl as <-.
    split; [vm_compute; repeat split; try reflexivity; try (intuition discriminate); repeat constructor; discriminate|].
    split; [discriminate|]. split; [repeat constructor; discriminate|]. change (multiline (fst (str "TITLE", str "gold 3"))) with true. cbv iota.
    intros [|i]; [split; vm_compute; reflexivity|]. match goal with |- piece_ok ?x => assert (En : x = []); [|rewrite En; split; reflexivity] end.
    unfold slice. rewrite skipn_all2 by (cbn [snd List.length]; lia). apply firstn_nil.
  - repeat constructor; vm_compute; try discriminate; repeat constructor; discriminate.
Qed.
Example C21_signal_example :
  (let! p := msa_read (fun s => Some s) (write_table (ms_type ex_sig) keywords) (first (msa_write (str "c") true keywords ex_sig)) in
   Ok (lookup (str "General.title") (fst p), lookup (str "Acquisition_instrument.SEM.beam_energy") (fst p), snd p)) =
  Ok (Some (MText (str "gold 3")), Some (MNum (str "20.0")), map snd ex_data).
Proof. vm_compute. reflexivity. Qed.
