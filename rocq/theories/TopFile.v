(** Properties C87 (data of scans) and C88 (files and metadata) of Topspin files. *)
From Coq Require Import QArith Permutation Sorting.Sorted Qabs.
From Verif Require Import Base Text Bytes RowMajor HierModel SfsModel SfsProps BcfUnpack SurFloat RenBlocks XmlModel QuadModel QuadSac TopModel TopScan.
Local Open Scope Z_scope.

(** * Data.  Patterns in the order of their numbers *)
Definition stored (file : list Z) (l : list (pystr * h5)) (w s0 s1 : Z) (pos : Z -> Z) : Prop :=
  0 < w /\ 0 <= s0 /\ 0 <= s1 /\ (forall k, 0 <= k < zlen l -> 0 <= pos k /\ pos k + w * (s0 * s1) <= zlen file /\ exists root w' shape, frame l k root w' shape (Some (pos k))).
Definition patterns (file : list Z) (n w s0 s1 : Z) (pos : Z -> Z) : list (list Z) :=
  flat_map (fun k => map (fun m => chars file (pos k + w * m) w) (zseq 0 (Z.to_nat (s0 * s1)))) (zseq 0 (Z.to_nat n)).
(** Axes that stay: those of the scan with one point go *)
Definition stays (a : axis) : bool := negb (a_navigate a && (a_size a =? 1)).
Definition same_axis (a b : axis) : Prop := a_name a = a_name b /\ a_units a = a_units b /\ a_size a = a_size b /\ a_scale a = a_scale b /\ a_offset a = a_offset b /\ a_navigate a = a_navigate b.
Lemma prod4 : forall a b c d, prodZ [a; b; c; d] = a * b * (c * d).
Proof. intros. unfold prodZ. cbn [fold_right]. lia. Qed.
Theorem C87_load : forall file h t e l root w s0 s1 pos y x ky kx, get_path h (path (fst t)) = Ok (Group l) -> first_root l root w s0 s1 -> stored file l w s0 s1 pos ->
  n_axes e = [y; x; ky; kx] -> a_navigate y = true -> a_navigate x = true -> a_navigate ky = false -> a_navigate kx = false -> a_size ky = s0 -> a_size kx = s1 -> a_size y * a_size x = zlen l -> map a_index (n_axes e) = [0; 1; 2; 3] ->
  exists d, load file h t e = Ok d /\ d_entry d = e /\ d_data d = patterns file (zlen l) w s0 s1 pos /\ d_shape d = map a_size (d_axes d) /\ Forall2 same_axis (d_axes d) (filter stays (n_axes e)) /\
    (a_size x <> 1 \/ a_size y = 1 -> map a_index (d_axes d) = zseq 0 (List.length (d_axes d))).
Proof.
  intros file h t e l root w s0 s1 pos y x ky kx GP [k0 [f0 [o0 [data0 [l' [EL [FM FD]]]]]]] [W [S0 [S1 ST]]] EA NY NX NKY NKX KY KX PR IX. unfold load. rewrite GP. cbn [bind]. rewrite EA. unfold keys. cbn [bind].
  assert (HK : exists r, map fst l = k0 :: r) by (rewrite EL; eexists; reflexivity). destruct HK as [r HK]. rewrite HK. cbn [bind]. rewrite <- HK. assert (G : get (Group l) k0 = Ok (Group f0)). { rewrite EL. cbn [get lookup]. rewrite eqb_str_refl. reflexivity. }
  rewrite G. cbn [bind]. unfold get at 1. rewrite FD. cbn [bind array_of fst snd]. rewrite map_length.
  rewrite (mapM_map _ _ _ (fun k => Some (pos k))).
  2:{ intros k K. apply in_zseq in K. destruct (ST k ltac:(unfold zlen; lia)) as [_ [_ [ro [w' [sh [f [data [F [_ D]]]]]]]]]. unfold get at 1. rewrite F. cbn [bind]. unfold get. rewrite D. reflexivity. }
  cbn [bind]. rewrite (mapM_map _ _ _ (fun o => match o with Some p => map (fun m => chars file (p + w * m) w) (zseq 0 (Z.to_nat (s0 * s1))) | None => [] end)).
  2:{ intros o O. apply in_map_iff in O. destruct O as [k [<- K]]. apply in_zseq in K. destruct (ST k ltac:(unfold zlen; lia)) as [P1 [P2 _]]. replace (prodZ [s0; s1]) with (s0 * s1) by (unfold prodZ; cbn [fold_right]; lia). apply from_at; nia. }
  cbn [bind]. assert (LZ : zlen (map fst l) = zlen l) by (unfold zlen; rewrite map_length; reflexivity). rewrite LZ. set (axes := drop_y (drop_x [y; x; ky; kx])).
  assert (DATA : List.concat (map (fun o => match o with Some p => map (fun m => chars file (p + w * m) w) (zseq 0 (Z.to_nat (s0 * s1))) | None => [] end) (map (fun k => Some (pos k)) (zseq 0 (List.length l)))) = patterns file (zlen l) w s0 s1 pos).
  { unfold patterns. rewrite flat_map_concat_map, map_map. unfold zlen. rewrite Nat2Z.id. reflexivity. }
  rewrite EA in IX. cbn [map] in IX. injection IX as I0 I1 I2 I3.
  assert (AX : prodZ (map a_size axes) = zlen l * prodZ [s0; s1] /\ Forall2 same_axis axes (filter stays [y; x; ky; kx]) /\ (a_size x <> 1 \/ a_size y = 1 -> map a_index axes = zseq 0 (List.length axes))).
  { assert (SY : stays y = negb (a_size y =? 1)) by (unfold stays; rewrite NY; reflexivity). assert (SX : stays x = negb (a_size x =? 1)) by (unfold stays; rewrite NX; reflexivity). assert (SKY : stays ky = true) by (unfold stays; rewrite NKY; reflexivity). assert (SKX : stays kx = true) by (unfold stays; rewrite NKX; reflexivity).
    rewrite <- PR. unfold axes, drop_x. destruct (a_size x =? 1) eqn:X1.
    - apply Z.eqb_eq in X1. cbn [drop_y]. cbn [filter]. rewrite SY, SX, SKY, SKX, X1. replace (1 =? 1) with true by lia. cbn [negb]. destruct (a_size y =? 1) eqn:Y1; cbn [negb map a_size a_index List.length with_index zseq].
      + apply Z.eqb_eq in Y1. rewrite KY, KX, Y1. split; [unfold prodZ; cbn [fold_right]; lia|]. split; [repeat constructor|intros _; reflexivity].
      + rewrite KY, KX. split; [unfold prodZ; cbn [fold_right]; lia|]. split; [repeat constructor|]. intros [H|H]; [congruence|lia].
    - cbn [drop_y]. cbn [filter]. rewrite SY, SX, SKY, SKX. cbn [negb]. destruct (a_size y =? 1) eqn:Y1; cbn [negb map a_size a_index List.length with_index zseq].
      + apply Z.eqb_eq in Y1. rewrite KY, KX, Y1. split; [unfold prodZ; cbn [fold_right]; lia|]. split; [repeat constructor|reflexivity].
      + rewrite KY, KX. split; [unfold prodZ; cbn [fold_right]; lia|]. split; [repeat constructor|]. intros _. rewrite I0, I1, I2, I3. reflexivity. }
  destruct AX as [A1 [A2 A3]]. rewrite A1, Z.eqb_refl. eexists. split; [reflexivity|]. cbn [d_entry d_axes d_data d_shape]. split; [reflexivity|]. split; [exact DATA|]. split; [reflexivity|]. split; assumption.
Qed.
(** A column of patterns has its two last axes exchanged *)
Theorem C87_column_refuted : forall file h t e l root w s0 s1 pos y x ky kx d, get_path h (path (fst t)) = Ok (Group l) -> first_root l root w s0 s1 -> stored file l w s0 s1 pos ->
  n_axes e = [y; x; ky; kx] -> a_size x = 1 -> 1 < a_size y -> load file h t e = Ok d -> map a_name (d_axes d) = [a_name y; a_name ky; a_name kx] /\ map a_index (d_axes d) = [a_index y; 2; 1].
Proof.
  intros file h t e l root w s0 s1 pos y x ky kx d GP _ _ EA X1 Y1 H. unfold load in H. rewrite GP, EA in H. cbn [bind] in H. destruct (keys (Group l)) as [names|]; [|discriminate H]. cbn [bind] in H. destruct names as [|k0 names]; [discriminate H|]. cbn [bind] in H. destruct (get (Group l) k0); [|discriminate H]. cbn [bind] in H. destruct (get _ (str "Data")); [|discriminate H]. cbn [bind] in H. destruct (array_of _) as [ar|]; [|discriminate H]. cbn [bind] in H.
  destruct (mapM _ _) as [offs|] in H; [|discriminate H]. cbn [bind] in H. destruct (mapM _ _) as [frames|] in H; [|discriminate H]. cbn [bind] in H. unfold drop_x in H. rewrite X1 in H. replace (1 =? 1) with true in H by lia. cbn [drop_y] in H. replace (a_size y =? 1) with false in H by lia. destruct (_ =? _) in H; [|discriminate H]. injection H as <-. split; reflexivity.
Qed.

(** * Metadata *)
(** Title, date and notes *)
Theorem C88_date : forall m d y t rest, ~ In 32 (m ++ d ++ y ++ t) -> ~ In 47 (m ++ d ++ y) -> rest = [] \/ hd 0 rest = 32 -> date_time (m ++ [47] ++ d ++ [47] ++ y ++ [32] ++ t ++ rest) = Ok (y ++ str "-" ++ m ++ str "-" ++ d, t).
Proof.
  intros m d y t rest NB NS R. repeat rewrite in_app_iff in NB. repeat rewrite in_app_iff in NS. unfold date_time.
  assert (E : split_char 32 (m ++ [47] ++ d ++ [47] ++ y ++ [32] ++ t ++ rest) = (m ++ [47] ++ d ++ [47] ++ y) :: split_char 32 (t ++ rest)).
  { replace (m ++ [47] ++ d ++ [47] ++ y ++ [32] ++ t ++ rest) with ((m ++ [47] ++ d ++ [47] ++ y) ++ 32 :: (t ++ rest)) by (rewrite <- !app_assoc; reflexivity). apply split_char_app. rewrite !in_app_iff. intro H. repeat (destruct H as [H | H]); try discriminate H; try (destruct H); tauto. }
  rewrite E. cbn [hd]. assert (E2 : split_char 47 (m ++ [47] ++ d ++ [47] ++ y) = [m; d; y]).
  { cbn [app]. rewrite split_char_app by intuition auto. rewrite split_char_app by intuition auto. rewrite split_char_nosep by intuition auto. reflexivity. }
  rewrite E2. assert (E3 : exists r, split_char 32 (t ++ rest) = t :: r).
  { destruct R as [-> | R]; [rewrite app_nil_r; rewrite split_char_nosep by (intuition auto); exists []; reflexivity|]. destruct rest as [|c rest]; [discriminate R|]. cbn [hd] in R. subst c. rewrite split_char_app by intuition auto. eexists. reflexivity. }
  destruct E3 as [r E3]. rewrite E3. reflexivity.
Qed.
Section File.
Variable number : pystr -> res Z.
Definition text_none (v : xml) : pystr := match x_text v with [] => str "None" | t => t end.
Definition simple (nested : bool) (v : xml) (m : mval) : Prop :=
  exists s, lookup (str "Serializer") (x_attrs v) = Some s /\
    ((s = str "Boolean" /\ m = (if nested then MBool (match x_text v with [] => false | _ => true end) else MText (x_text v))) \/
     (s = str "Double" /\ x_text v <> [] /\ exists n, number (x_text v) = Ok n /\ m = MFloat n) \/
     (s = str "String" /\ m = MText (text_none v)) \/
     ((s = str "UInt32" \/ s = str "Int32") /\ exists n, x_text v = str_int n /\ m = MInt n)).
Definition plain_types : list pystr := map str ["Boolean"; "Double"; "String"; "UInt32"; "Int32"]%string.
Definition marked (x : xml) : bool := match x_attrs x with [] => false | _ => true end.
Definition says (v : xml) (m : mval) : Prop :=
  simple false v m \/
  exists s ps, lookup (str "Serializer") (x_attrs v) = Some s /\ ~ In s plain_types /\ Forall2 (fun leaf p => fst p = x_tag leaf /\ simple true leaf (snd p)) (filter marked (x_children v)) ps /\ NoDup (map fst ps) /\ m = MDict ps.
Definition item (leaf : xml) (p : pystr * mval) : Prop := exists n v rest, x_children leaf = n :: v :: rest /\ fst p = x_text n /\ says v (snd p).
Definition branch (b : xml) (p : pystr * mval) : Prop :=
  fst p = x_tag b /\
  (if in_dec (list_eq_dec Z.eq_dec) (x_tag b) [str "ProcedureData"; str "HardwareSettings"] then exists ps, Forall2 item (x_children b) ps /\ NoDup (map fst ps) /\ snd p = MDict ps
   else snd p = MText (x_text b)).
Lemma str_int_ne : forall n, str_int n <> [].
Proof. intros n H. unfold str_int in H. destruct (n <? 0) eqn:E; [discriminate H|]. apply (dec_ne n) in H; [exact H|lia]. Qed.
Lemma int_text : forall v n, x_text v = str_int n -> int_of v = Ok n.
Proof. intros v n H. unfold int_of. rewrite H. pose proof (str_int_ne n) as N. destruct (str_int n) eqn:E; [contradiction|]. rewrite <- E. apply parse_int_str_int. Qed.
Lemma float_text2 : forall e v, x_text e <> [] -> number (x_text e) = Ok v -> float_of number e = Ok v.
Proof. intros e v N H. unfold float_of. destruct (x_text e); [contradiction|exact H]. Qed.
Lemma decode_simple : forall v m, simple true v m -> decode number v = Ok [(x_tag v, m)].
Proof.
  intros [tag attrs text tail cs] m [s [L H]]. cbn [x_attrs] in L. cbn [decode]. rewrite L. cbn [x_text x_tag] in *. destruct H as [[-> ->] | [[-> [N [n [E ->]]]] | [[-> ->] | [[-> | ->] [n [E ->]]]]]].
  - reflexivity.
  - change (eqb_str (str "Double") (str "Boolean")) with false. cbn iota. rewrite eqb_str_refl. rewrite (float_text2 _ n); [reflexivity|exact N|exact E].
  - destruct text; reflexivity.
  - change (eqb_str (str "UInt32") (str "Boolean")) with false. change (eqb_str (str "UInt32") (str "Double")) with false. change (eqb_str (str "UInt32") (str "String")) with false. rewrite eqb_str_refl. cbn [orb]. rewrite (int_text (Elem tag attrs text tail cs) n E). reflexivity.
  - change (eqb_str (str "Int32") (str "Boolean")) with false. change (eqb_str (str "Int32") (str "Double")) with false. change (eqb_str (str "Int32") (str "String")) with false. rewrite eqb_str_refl. rewrite orb_true_r. rewrite (int_text (Elem tag attrs text tail cs) n E). reflexivity.
Qed.
Definition go_leaves := fix go (l : list xml) (out : list (pystr * mval)) : res (list (pystr * mval)) :=
  match l with [] => Ok out | leaf :: l' => match x_attrs leaf with [] => go l' out | _ => let! d := decode number leaf in go l' (update out d) end end.
Lemma go_simple : forall cs ps out, Forall2 (fun leaf p => fst p = x_tag leaf /\ simple true leaf (snd p)) (filter marked cs) ps -> NoDup (map fst (out ++ ps)) -> go_leaves cs out = Ok (out ++ ps).
Proof.
  induction cs as [|c cs IH]; intros ps out F N; cbn [filter] in F.
  - inversion F. rewrite app_nil_r. reflexivity.
  - cbn [go_leaves]. unfold marked in F at 1. destruct (x_attrs c) eqn:A; [apply IH; assumption|]. cbn iota in F. inversion F as [|? [k m] ? ps' [H1 H2] F']; subst. cbn [fst snd] in *. rewrite (decode_simple c m H2). cbn [bind]. unfold update. cbn [fold_left fst snd].
    rewrite put_fresh. 2:{ rewrite map_app in N. cbn [map fst] in N. apply NoDup_remove_2 in N. rewrite <- H1. intro I. apply N. apply in_or_app. left. exact I. }
    rewrite (IH ps'); [rewrite <- app_assoc; cbn [app]; subst k; reflexivity|exact F'|]. rewrite <- app_assoc. cbn [app]. rewrite <- H1. exact N.
Qed.
Lemma not_plain : forall s, ~ In s plain_types -> forall k, In k plain_types -> eqb_str s k = false.
Proof. intros s H k K. apply eqb_str_neq. intro E. subst k. contradiction. Qed.
Lemma item_says : forall v m, says v m -> item_value number v = Ok m.
Proof.
  intros v m [[s [L H]] | [s [ps [L [NP [F [ND ->]]]]]]].
  - unfold item_value, attr. rewrite L. cbn [bind]. destruct H as [[-> ->] | [[-> [N [n [E ->]]]] | [[-> ->] | [[-> | ->] [n [E ->]]]]]].
    + reflexivity.
    + change (eqb_str (str "Double") (str "Boolean")) with false. rewrite eqb_str_refl. rewrite (float_text2 _ n N E). reflexivity.
    + reflexivity.
    + change (eqb_str (str "UInt32") (str "Boolean")) with false. change (eqb_str (str "UInt32") (str "Double")) with false. change (eqb_str (str "UInt32") (str "String")) with false. rewrite eqb_str_refl. cbn [orb]. rewrite (int_text _ n E). reflexivity.
    + change (eqb_str (str "Int32") (str "Boolean")) with false. change (eqb_str (str "Int32") (str "Double")) with false. change (eqb_str (str "Int32") (str "String")) with false. rewrite eqb_str_refl. rewrite orb_true_r. rewrite (int_text _ n E). reflexivity.
  - unfold item_value, attr. rewrite L. cbn [bind]. pose proof (not_plain s NP) as Q. unfold plain_types in Q. cbn [map In] in Q.
    rewrite !Q by auto 10. cbn [orb]. destruct v as [tag attrs text tail cs]. cbn [x_attrs x_children] in *. cbn [decode]. rewrite L. rewrite !Q by auto 10. cbn [orb]. pose proof (go_simple cs ps [] F) as G. cbn [app] in G. specialize (G ND). unfold go_leaves in G. rewrite G. reflexivity.
Qed.
Lemma items_all : forall l ps out, Forall2 item l ps -> NoDup (map fst (out ++ ps)) -> items number l out = Ok (out ++ ps).
Proof.
  intros l ps out F. revert out. induction F as [|leaf [k m] l ps [n [v [rest [C [K S]]]]] F IH]; intros out N; [rewrite app_nil_r; reflexivity|]. cbn [items]. unfold child. rewrite C. cbn [nth_error bind]. cbn [fst snd] in *. rewrite (item_says v m S). cbn [bind]. rewrite put_fresh.
  - rewrite IH; rewrite <- app_assoc; cbn [app]; rewrite <- K; [reflexivity|exact N].
  - rewrite map_app in N. cbn [map fst] in N. apply NoDup_remove_2 in N. rewrite <- K. intro I. apply N. apply in_or_app. left. exact I.
Qed.
Lemma branches_all : forall l ps out, Forall2 branch l ps -> NoDup (map fst (out ++ ps)) -> branches number l out = Ok (out ++ ps).
Proof.
  intros l ps out F. revert out. induction F as [|b [k m] l ps [K S] F IH]; intros out N; [rewrite app_nil_r; reflexivity|]. cbn [branches fst snd] in *.
  assert (FR : ~ In (x_tag b) (map fst out)). { rewrite map_app in N. cbn [map fst] in N. apply NoDup_remove_2 in N. rewrite <- K. intro I. apply N. apply in_or_app. left. exact I. }
  destruct (in_dec _ _ _) as [I|I] in S.
  - replace (_ || _) with true by (destruct I as [<- | [<- | []]]; reflexivity). destruct S as [qs [Q [ND ->]]]. pose proof (items_all (x_children b) qs [] Q ND) as E. cbn [app] in E. rewrite E. cbn [bind]. rewrite put_fresh by exact FR. rewrite IH; rewrite <- app_assoc; cbn [app]; rewrite <- K; [reflexivity|exact N].
  - replace (_ || _) with false. 2:{ symmetry. apply orb_false_iff. split; apply eqb_str_neq; intro E; apply I; rewrite E; cbn [In]; auto. }
    rewrite put_fresh by exact FR. subst m. rewrite IH; rewrite <- app_assoc; cbn [app]; rewrite <- K; [reflexivity|exact N].
Qed.
Theorem C88_metadata : forall root ps, Forall2 branch (x_children root) ps -> NoDup (map fst ps) -> original number root = Ok ps.
Proof. intros root ps F N. apply (branches_all (x_children root) ps [] F N). Qed.
Definition note (all : list (pystr * mval)) (k : string) (t : pystr) : Prop := match lookup (str k) all with None => t = [] | Some v => exists s, v = MText s /\ t = str k ++ str ":  " ++ (match s with [] => str "None" | _ => s end) ++ str " " ++ [10] end.
Theorem C88_general : forall all title, lookup (str "Id") all = Some title ->
  (forall k, In k (map str ["CreatedDateTime"; "ProcedureName"; "FriendlyName"; "Title"; "SystemName"; "Specimen"; "Comments"]%string) -> forall v, lookup k all = Some v -> exists s, v = MText s) ->
  (forall s, lookup (str "CreatedDateTime") all = Some (MText s) -> s <> [] /\ exists r, date_time s = Ok r) ->
  exists g, general_of all = Ok g /\ e_title g = title /\ e_specimen g = lookup (str "Specimen") all /\
    (forall s, lookup (str "CreatedDateTime") all = Some (MText s) -> exists r, date_time s = Ok r /\ e_date g = Some r) /\ (lookup (str "CreatedDateTime") all = None -> e_date g = None) /\
    exists a b c d e f, note all "ProcedureName" a /\ note all "FriendlyName" b /\ note all "Title" c /\ note all "SystemName" d /\ note all "Specimen" e /\ note all "Comments" f /\ e_notes g = a ++ b ++ c ++ d ++ e ++ f.
Proof.
  intros all title ID TX DT. unfold general_of. rewrite ID. cbn [bind].
  assert (NOTE : forall k, In (str k) (map str ["CreatedDateTime"; "ProcedureName"; "FriendlyName"; "Title"; "SystemName"; "Specimen"; "Comments"]%string) -> note all k (note_of all k)).
  { intros k K. unfold note, note_of. specialize (TX _ K). destruct (lookup (str k) all) as [v|]; [|reflexivity]. destruct (TX v eq_refl) as [s ->]. exists s. split; reflexivity. }
  assert (D : exists o, (match lookup (str "CreatedDateTime") all with None => Ok None | Some (MText []) => Err AttributeError | Some (MText s) => let! r := date_time s in Ok (Some r) | Some _ => Err AttributeError end) = Ok o /\
    (forall s, lookup (str "CreatedDateTime") all = Some (MText s) -> exists r, date_time s = Ok r /\ o = Some r) /\ (lookup (str "CreatedDateTime") all = None -> o = None)).
  { destruct (lookup (str "CreatedDateTime") all) as [v|] eqn:L.
    - destruct (TX (str "CreatedDateTime") ltac:(left; reflexivity) v L) as [s ->]. destruct (DT s eq_refl) as [NE [r R]]. exists (Some r). destruct s; [contradiction|]. rewrite R. split; [reflexivity|]. split; [intros s' E; injection E as <-; exists r; split; [exact R|reflexivity]|discriminate].
    - exists None. split; [reflexivity|]. split; [discriminate|reflexivity]. }
  destruct D as [o [EO [D1 D2]]]. rewrite EO. cbn [bind]. eexists. split; [reflexivity|]. cbn [e_title e_specimen e_date e_notes]. do 2 (split; [reflexivity|]). split; [exact D1|]. split; [exact D2|].
  exists (note_of all "ProcedureName"), (note_of all "FriendlyName"), (note_of all "Title"), (note_of all "SystemName"), (note_of all "Specimen"), (note_of all "Comments").
  do 6 (split; [apply NOTE; cbn [map In]; auto 10|]). cbn [map List.concat]. rewrite app_nil_r. reflexivity.
Qed.
End File.
