(** Claims C55 and C56: the images of Digital Micrograph files and their axes. *)
From Verif Require Import Base Text Bytes RowMajor HierModel SfsModel SfsProps BcfUnpack RplModel PySlice DmModel DmImageModel DmProps.

(** * Specification *)
(** A tag of a group, by its key. *)
Definition child (kids : list (pystr * ttree)) (k name : pystr) (t : ttree) : Prop :=
  exists n, nth_error kids n = Some (name, t) /\ nth_error (keys 0 0 kids) n = Some k.
Definition number (t : ttree) (x : Z) : Prop := exists j ty, t = Leaf j (TSimple ty x) /\ means ty x = DInt x.
(** Data of an image: number of elements and data. *)
Definition count (d : tdata) : option Z :=
  match d with TArray _ xs => Some (zlen xs) | TStructs _ rows => Some (zlen rows) | _ => None end.
Inductive image_tree (dims : list Z) (code : Z) (d : tdata) : ttree -> Prop :=
| image_tree_intro : forall a b j kids n1 a1 b1 j1 kids1 nd jd nt tt ns as_ bs js kids2,
    child kids (str "ImageData") n1 (Node a1 b1 j1 kids1) ->
    child kids1 (str "Data") nd (Leaf jd d) ->
    child kids1 (str "DataType") nt tt -> number tt code ->
    child kids1 (str "Dimensions") ns (Node as_ bs js kids2) -> Forall2 number (map snd kids2) dims ->
    image_tree dims code d (Node a b j kids).
(** Bytes of an element by the code of its type. *)
Definition element_types : list (Z * Z) :=
  [(1, 2); (2, 4); (3, 8); (6, 1); (7, 4); (8, 4); (9, 1); (10, 2); (11, 4); (12, 8); (13, 16); (14, 1); (23, 4)].
(** Position of a pixel: the first dimension varies fastest. *)
Fixpoint first_fastest (dims pos : list Z) : Z :=
  match dims, pos with d :: dims', p :: pos' => p + d * first_fastest dims' pos' | _, _ => 0 end.
(** Colours are stored as blue, green, red, alpha. *)
Definition colours (code : Z) (e e' : list Z) : Prop :=
  if (code =? 8) || (code =? 23) then exists r g b a, e = [b; g; r; a] /\ e' = [r; g; b; a] else e' = e.

(** * Tags by key *)
Lemma reads_child : forall big file group kids nd ng e n name t k, reads_kids big file group nd ng kids e -> NoDup (keys nd ng kids) ->
  nth_error kids n = Some (name, t) -> nth_error (keys nd ng kids) n = Some k ->
  exists v, lookup k e = Some v /\ reads big file k (is_image group name) t v.
Proof.
  intros big file group kids. induction kids as [|[name0 t0] kids IH]; intros nd ng e n name t k R ND Hn Hk; [destruct n; discriminate|].
  destruct e as [|[k0 v0] e]; [contradiction|]. cbn [reads_kids keys] in *. destruct R as [-> [R0 R]]. inversion ND as [|? ? Hnin ND']; subst.
  destruct n as [|n]; cbn [nth_error] in *.
  - injection Hn as <- <-. injection Hk as <-. exists v0. split; [|exact R0]. cbn [lookup]. rewrite eqb_str_refl. reflexivity.
  - destruct (IH _ _ e n name t k R ND' Hn Hk) as [v [L Rv]]. exists v. split; [|exact Rv]. cbn [lookup].
    assert (E : eqb_str k (key nd ng name0 t0) = false).
    { apply eqb_str_neq. intros ->. apply Hnin. apply nth_error_In in Hk. exact Hk. }
    rewrite E. exact L.
Qed.
Lemma child_field : forall v4 big file g skip a b j kids v k name t, reads big file g skip (Node a b j kids) v -> tree_ok v4 g skip (Node a b j kids) -> child kids k name t ->
  exists x, field k v = Ok x /\ reads big file k (is_image g name) t x /\ exists sk, tree_ok v4 k sk t /\ sk = is_image g name.
Proof.
  intros v4 big file g skip a b j kids v k name t R O [n [Hn Hk]]. apply reads_node in R. destruct R as [e [-> R]]. apply tree_kids_ok in O. destruct O as [_ [ND KO]].
  destruct (reads_child big file g kids 0 0 e n name t k R ND Hn Hk) as [x [L Rx]]. exists x. split; [cbn [field]; rewrite L; reflexivity|]. split; [exact Rx|].
  exists (is_image g name). split; [|reflexivity]. clear - KO Hn Hk. revert KO n Hn Hk. generalize 0 at 1 3. generalize 0.
  induction kids as [|[n0 t0] kids IH]; intros ng nd KO n Hn Hk; [destruct n; discriminate|]. cbn [kids_ok keys] in *. destruct KO as [_ [T KO]].
  destruct n as [|n]; cbn [nth_error] in *; [injection Hn as <- <-; injection Hk as <-; exact T|]. apply (IH _ _ KO n Hn Hk).
Qed.
Lemma key_of : forall kids nd ng n name t k, 0 <= nd -> 0 <= ng -> nth_error kids n = Some (name, t) -> nth_error (keys nd ng kids) n = Some k ->
  exists nd' ng', 0 <= nd' /\ 0 <= ng' /\ k = key nd' ng' name t.
Proof.
  induction kids as [|[n0 t0] kids IH]; intros nd ng n name t k H1 H2 Hn Hk; [destruct n; discriminate|]. cbn [keys] in Hk. destruct n as [|n]; cbn [nth_error] in *.
  - injection Hn as <- <-. injection Hk as <-. exists nd, ng. auto.
  - apply (IH (next_d nd n0 t0) (next_g ng n0 t0) n name t k); try assumption; unfold next_d, next_g; destruct (_ && _); lia.
Qed.
Lemma data_key : forall kids name j d, child kids (str "Data") name (Leaf j d) -> is_image (str "ImageData") name = true.
Proof.
  intros kids name j d [n [Hn Hk]]. destruct (key_of kids 0 0 n name _ _ ltac:(lia) ltac:(lia) Hn Hk) as [nd [ng [H1 [H2 E]]]].
  unfold key in E. destruct (unnamed name) eqn:U.
  - exfalso. cbn [is_leaf] in E. apply (f_equal (@List.length Z)) in E. rewrite app_length in E. cbn in E.
    assert (str_int nd <> []) by (unfold str_int; replace (nd <? 0) with false by lia; apply dec_ne; exact H1). destruct (str_int nd); [contradiction|cbn in E; lia].
  - unfold is_image. rewrite <- E. reflexivity.
Qed.

Lemma number_reads : forall big file g sk t x v, number t x -> reads big file g sk t v -> v = DInt x.
Proof. intros big file g sk t x v [j [ty [-> M]]] R. cbn in R. rewrite R. exact M. Qed.
Lemma numbers_read : forall big file g kids nd ng e xs, reads_kids big file g nd ng kids e -> Forall2 number (map snd kids) xs -> mapM as_int (map snd e) = Ok xs.
Proof.
  intros big file g kids. induction kids as [|[n t] kids IH]; intros nd ng e xs R F; destruct e as [|[k v] e]; try contradiction; inversion F as [|? x ? xs' Hx F']; subst; [reflexivity|].
  cbn [reads_kids map snd mapM] in *. destruct R as [_ [Rv R]]. rewrite (number_reads _ _ _ _ _ _ _ Hx Rv). cbn [as_int bind]. rewrite (IH _ _ e xs' R F'). reflexivity.
Qed.

Lemma prodZ_app : forall a b, prodZ (a ++ b) = prodZ a * prodZ b.
Proof. induction a as [|x a IH]; intro b; [unfold prodZ; cbn [app fold_right]; ring|]. unfold prodZ in *. cbn [app fold_right]. rewrite IH. ring. Qed.
Lemma prodZ_rev : forall l, prodZ (rev l) = prodZ l.
Proof. induction l as [|x l IH]; [reflexivity|]. cbn [rev]. rewrite prodZ_app, IH. unfold prodZ. cbn [fold_right]. ring. Qed.
Lemma row_major_app : forall a b i j, List.length a = List.length i -> row_major (a ++ b) (i ++ j) = row_major a i * prodZ b + row_major b j.
Proof.
  induction a as [|x a IH]; intros b i j H; destruct i as [|y i]; try discriminate; [cbn [app row_major]; lia|]. cbn [app row_major]. injection H as H. rewrite IH by exact H. rewrite prodZ_app. ring.
Qed.
Lemma row_major_rev : forall dims pos, List.length dims = List.length pos -> row_major (rev dims) (rev pos) = first_fastest dims pos.
Proof.
  induction dims as [|d dims IH]; intros pos H; destruct pos as [|p pos]; try discriminate; [reflexivity|]. injection H as H. cbn [rev first_fastest].
  rewrite row_major_app by (rewrite !rev_length; exact H). rewrite IH by exact H. unfold prodZ. cbn [row_major fold_right]. unfold prodZ. cbn [fold_right]. ring.
Qed.
Lemma fromfile_ok : forall file off elems sz, 0 < sz -> Forall (fun e => zlen e = sz) elems -> bytes_at file off (List.concat elems) ->
  fromfile (skipz off file) sz (zlen elems) = elems.
Proof.
  intros file off elems sz Hs Hf [H0 Hb]. unfold fromfile.
  assert (Hf' : Forall (fun e => List.length e = Z.to_nat sz) elems) by (eapply Forall_impl; [|exact Hf]; intros e He; unfold zlen in He; cbn in He; lia).
  pose proof (concat_length_const _ (Z.to_nat sz) elems Hf') as L.
  unfold slice in Hb. rewrite <- (firstn_skipn (List.length (List.concat elems)) (skipn (Z.to_nat off) file)) in Hb at 1. rewrite skipz_skipn.
  rewrite <- (firstn_skipn (List.length (List.concat elems)) (skipn (Z.to_nat off) file)).
  assert (E : firstn (List.length (List.concat elems)) (skipn (Z.to_nat off) file) = List.concat elems) by (rewrite firstn_skipn in Hb; exact Hb).
  rewrite E. set (rest := skipn _ _). replace (Z.min _ _) with (zlen elems).
  - unfold zlen. rewrite Nat2Z.id. apply records_concat. exact Hf'.
  - symmetry. apply Z.min_l. unfold zlen. rewrite app_length, L. apply Z.div_le_lower_bound; nia.
Qed.

(** * The data of an image *)
Theorem C55_data : forall v4 big file g t im dims code d elems sz,
  reads big file g false t im -> tree_ok v4 g false t -> image_tree dims code d t ->
  In (code, sz) element_types -> count d = Some (zlen elems) -> body big d = List.concat elems -> Forall (fun e => zlen e = sz) elems ->
  prodZ dims = zlen elems ->
  exists l, get_data file im = Ok (Plain (rev dims) l) /\
    forall pos, in_shape dims pos -> exists e e', nth_error l (Z.to_nat (row_major (rev dims) (rev pos))) = Some e' /\
      nth_error elems (Z.to_nat (first_fastest dims pos)) = Some e /\ colours code e e'.
Proof.
  intros v4 big file g t im dims code d elems sz R O IT Hc Hd Hb Hf Hp. destruct IT as [a b j kids n1 a1 b1 j1 kids1 nd jd nt tt ns as_ bs js kids2 C1 C2 C3 C4 C5 C6].
  destruct (child_field _ _ _ _ _ _ _ _ _ _ _ _ _ R O C1) as [x1 [F1 [R1 [sk1 [O1 S1]]]]].
  assert (S1f : is_image g n1 = false).
  { unfold is_image. destruct (eqb_str g (str "ImageData")); [|reflexivity]. cbn [andb]. destruct C1 as [n [Hn Hk]]. destruct (key_of kids 0 0 n n1 _ _ ltac:(lia) ltac:(lia) Hn Hk) as [u [w0 [_ [_ E]]]].
    unfold key in E. unfold unnamed in E. destruct (clean n1) eqn:Ec; [reflexivity|]. rewrite <- E. reflexivity. }
  rewrite S1f in *. subst sk1.
  destruct (child_field _ _ _ _ _ _ _ _ _ _ _ _ _ R1 O1 C2) as [x2 [F2 [R2 _]]]. rewrite (data_key _ _ _ _ C2) in R2.
  destruct (child_field _ _ _ _ _ _ _ _ _ _ _ _ _ R1 O1 C3) as [x3 [F3 [R3 _]]]. pose proof (number_reads _ _ _ _ _ _ _ C4 R3) as ->.
  destruct (child_field _ _ _ _ _ _ _ _ _ _ _ _ _ R1 O1 C5) as [x4 [F4 [R4 _]]]. apply reads_node in R4. destruct R4 as [e4 [-> R4]]. pose proof (numbers_read _ _ _ _ _ _ _ _ R4 C6) as Hdim.
  assert (Hsh : shape im = Ok (rev dims)).
  { unfold shape, dimensions. rewrite F1. cbn [bind]. rewrite F4. cbn [bind values]. rewrite Hdim. reflexivity. }
  assert (HD : exists nb off, x2 = DSkip (zlen elems) nb off /\ bytes_at file off (List.concat elems)).
  { cbn [reads] in R2. destruct d; cbn [leaf_reads count] in *; try discriminate; injection Hd as Hd; destruct R2 as [off [-> At]]; rewrite <- Hd; rewrite <- Hb; exists (zlen (body big (TArray t xs))) || eexists; exists off; split; try reflexivity; exact At. }
  destruct HD as [nb [off [-> At]]].
  assert (Hszp : 0 < sz). { unfold element_types in Hc. repeat (destruct Hc as [Hc|Hc]; [injection Hc as <- <-; lia|]). destruct Hc. }
  unfold get_data. rewrite F1. cbn [bind]. rewrite F2. cbn [bind]. rewrite F3. cbn [bind as_int].
  assert (Hcode : (code =? 27) || (code =? 28) = false /\ (code =? 5) = false /\ dtype_size code = Ok sz).
  { unfold element_types in Hc. repeat (destruct Hc as [Hc|Hc]; [injection Hc as <- <-; repeat split|]). destruct Hc. }
  destruct Hcode as [K1 [K2 K3]]. rewrite K1, K2, K3. cbn [bind]. rewrite (fromfile_ok file off elems sz Hszp Hf At). rewrite Hsh. cbn [bind]. rewrite prodZ_rev, Hp.
  assert (Lm : zlen (if (code =? 8) || (code =? 23) then map reorder elems else elems) = zlen elems) by (destruct ((code =? 8) || (code =? 23)); [unfold zlen; rewrite map_length; reflexivity|reflexivity]).
  rewrite Lm, Z.eqb_refl. eexists. split; [reflexivity|]. intros pos Hpos. pose proof (in_shape_length _ _ Hpos) as Hl. rewrite row_major_rev by exact Hl.
  assert (Hr : 0 <= first_fastest dims pos < zlen elems).
  { rewrite <- row_major_rev by exact Hl. rewrite <- Hp, <- prodZ_rev. apply row_major_range. unfold in_shape in *. clear - Hpos.
    induction Hpos as [|x y l l' H F IH]; [constructor|]. cbn [rev]. apply Forall2_app; [exact IH|]. constructor; [exact H|constructor]. }
  destruct (nth_error elems (Z.to_nat (first_fastest dims pos))) as [e|] eqn:E; [|apply nth_error_None in E; unfold zlen in Hr; lia].
  exists e. unfold colours. destruct ((code =? 8) || (code =? 23)) eqn:Ecol.
  - exists (reorder e). rewrite nth_error_map, E. split; [reflexivity|]. split; [reflexivity|].
    assert (zlen e = 4). { rewrite Forall_forall in Hf. rewrite (Hf e (nth_error_In _ _ E)). assert (code = 8 \/ code = 23) as [-> | ->] by lia; unfold element_types in Hc; repeat (destruct Hc as [Hc|Hc]; [try discriminate; injection Hc as <-; reflexivity|]); destruct Hc. }
    destruct e as [|p0 [|p1 [|p2 [|p3 [|]]]]]; unfold zlen in H; cbn in H; try lia. exists p2, p1, p0, p3. split; reflexivity.
  - exists e. split; [exact E|]. split; reflexivity.
Qed.
Print Assumptions C55_data.

(** * Which images are returned *)
(** Thumbnails: groups that name an image by its number. *)
Definition thumbnail (t : ttree) (x : Z) : Prop := exists a b j kids name t', t = Node a b j kids /\ child kids (str "ImageIndex") name t' /\ number t' x.
Definition unnamed_group (p : pystr * ttree) : Prop := clean (fst p) = [] /\ is_leaf (snd p) = false.
Fixpoint not_listed (n : Z) (thumbs : list Z) (l : list ttree) : list ttree :=
  match l with
  | [] => []
  | t :: l' => if existsb (Z.eqb n) thumbs then not_listed (n + 1) thumbs l' else t :: not_listed (n + 1) thumbs l'
  end.

Lemma replace_digits : forall fuel s, Forall (fun c => is_digit c = true) s -> replace_sub fuel (str "TagGroup") [] s = s.
Proof.
  induction fuel as [|k IH]; intros s H; [reflexivity|]. cbn [replace_sub]. destruct s as [|c s]; [reflexivity|]. inversion H as [|? ? Hc Hs]; subst.
  assert (E : startswith (str "TagGroup") (c :: s) = false). { change (str "TagGroup") with (84 :: str "agGroup"). cbn [startswith]. replace (84 =? c) with false by (unfold is_digit in Hc; lia). reflexivity. }
  rewrite E, IH by exact Hs. reflexivity.
Qed.
Lemma startswith_app : forall p s, startswith p (p ++ s) = true.
Proof. induction p as [|c p IH]; intro s; [reflexivity|]. cbn [app startswith]. rewrite IH, Z.eqb_refl. reflexivity. Qed.
Lemma number_of_group : forall n, 0 <= n -> image_number (str "TagGroup" ++ str_int n) = Ok n.
Proof.
  intros n H. unfold image_number. rewrite app_length. change (List.length (str "TagGroup")) with 8%nat. change (8 + List.length (str_int n))%nat with (S (7 + List.length (str_int n))). cbn [replace_sub].
  rewrite startswith_app. rewrite (skipn_app_exact _ (str "TagGroup")) by reflexivity. cbn [app].
  assert (E : str_int n = dec n) by (unfold str_int; replace (n <? 0) with false by lia; reflexivity).
  rewrite replace_digits by (rewrite E; apply dec_digits; exact H). apply parse_int_str_int.
Qed.
Lemma is_number_thumbs : forall n thumbs, existsb (is_number n) (map DInt thumbs) = existsb (Z.eqb n) thumbs.
Proof. induction thumbs as [|x l IH]; [reflexivity|]. cbn [map existsb is_number]. rewrite IH, (Z.eqb_sym x n). reflexivity. Qed.

Lemma keep_ok : forall v4 big file thumbs kids nd ng e, 0 <= ng -> Forall unnamed_group kids -> reads_kids big file (str "ImageList") nd ng kids e -> kids_ok v4 (str "ImageList") nd ng kids ->
  exists ims, keep (map DInt thumbs) e = Ok ims /\
    Forall2 (fun t im => exists g, reads big file g false t im /\ tree_ok v4 g false t) (not_listed ng thumbs (map snd kids)) ims.
Proof.
  intros v4 big file thumbs kids. induction kids as [|[name t] kids IH]; intros nd ng e Hg U R KO; destruct e as [|[k v] e]; try contradiction.
  - exists []. split; [reflexivity|constructor].
  - inversion U as [|? ? [U1 U2] U']; subst. cbn [fst snd] in U1, U2. cbn [reads_kids kids_ok] in R, KO. destruct R as [-> [Rv R]]. destruct KO as [_ [T KO]].
    assert (Ek : key nd ng name t = str "TagGroup" ++ str_int ng) by (unfold key, unnamed; rewrite U1, U2; reflexivity).
    assert (Ed : next_d nd name t = nd) by (unfold next_d; rewrite U2, andb_false_r; reflexivity).
    assert (Eg : next_g ng name t = ng + 1) by (unfold next_g, unnamed; rewrite U1, U2; reflexivity).
    rewrite Ed, Eg in *. destruct (IH nd (ng + 1) e ltac:(lia) U' R KO) as [ims [E1 E2]]. cbn [keep map snd not_listed]. rewrite Ek, number_of_group by exact Hg. cbn [bind].
    rewrite E1. cbn [bind]. rewrite is_number_thumbs. destruct (existsb (Z.eqb ng) thumbs); [exists ims; split; [reflexivity|exact E2]|].
    exists (v :: ims). split; [reflexivity|]. constructor; [|exact E2]. exists (key nd ng name t).
    unfold is_image in Rv, T. cbn [andb] in Rv, T. split; assumption.
Qed.
Lemma lookup_none : forall A k (e : list (pystr * A)), ~ In k (map fst e) -> lookup k e = None.
Proof.
  induction e as [|[k' v] e IH]; intro H; [reflexivity|]. cbn [lookup]. destruct (eqb_str k k') eqn:E; [apply eqb_str_spec in E; subst; exfalso; apply H; left; reflexivity|].
  apply IH. intro K. apply H. right. exact K.
Qed.
Lemma reads_keys : forall big file g kids nd ng e, reads_kids big file g nd ng kids e -> map fst e = keys nd ng kids.
Proof.
  intros big file g kids. induction kids as [|[n t] kids IH]; intros nd ng e R; destruct e as [|[k v] e]; try contradiction; [reflexivity|].
  cbn [reads_kids keys map fst] in *. destruct R as [-> [_ R]]. rewrite (IH _ _ _ R). reflexivity.
Qed.
Lemma thumbs_ok : forall v4 big file g kids nd ng e thumbs, reads_kids big file g nd ng kids e -> kids_ok v4 g nd ng kids -> Forall2 thumbnail (map snd kids) thumbs ->
  mapM (field (str "ImageIndex")) (map snd e) = Ok (map DInt thumbs).
Proof.
  intros v4 big file g kids. induction kids as [|[n t] kids IH]; intros nd ng e thumbs R KO F; destruct e as [|[k v] e]; try contradiction; inversion F as [|? x ? xs Hx F']; subst; [reflexivity|].
  cbn [reads_kids kids_ok] in *. destruct R as [-> [Rv R]]. destruct KO as [_ [T KO]]. cbn [map snd mapM].
  destruct Hx as [a [b [j [kids' [name [t' [-> [C N]]]]]]]]. destruct (child_field _ _ _ _ _ _ _ _ _ _ _ _ _ Rv T C) as [x' [F1 [R1 _]]].
  rewrite F1. cbn [bind]. rewrite (number_reads _ _ _ _ _ _ _ N R1). rewrite (IH _ _ e xs R KO F'). reflexivity.
Qed.

(** Reading a file: the images of the list that are not thumbnails, in their order. *)
Theorem C55_file : forall v4 big size flag1 flag2 kids tail name a b j imgs thumbs,
  small v4 (zlen kids) -> NoDup (str "root" :: keys 0 0 kids) -> kids_ok v4 (str "root") 0 0 kids ->
  child kids (str "ImageList") name (Node a b j imgs) -> Forall unnamed_group imgs ->
  (~ In (str "Thumbnails") (keys 0 0 kids) /\ thumbs = [] \/
   exists name' a' b' j' tkids, child kids (str "Thumbnails") name' (Node a' b' j' tkids) /\ Forall2 thumbnail (map snd tkids) thumbs) ->
  let file := enc_file v4 big size flag1 flag2 kids tail in
  exists tags ims, parse_file file = Ok tags /\ images tags = Ok ims /\
    Forall2 (fun t im => exists g, reads big file g false t im /\ tree_ok v4 g false t) (not_listed 0 thumbs (map snd imgs)) ims.
Proof.
  intros v4 big size flag1 flag2 kids tail name a b j imgs thumbs Hs Hd Hk C U TH file.
  destruct (C35_tags v4 big size flag1 flag2 kids tail Hs Hd Hk) as [e [Ep R]]. fold file in Ep, R.
  exists ((str "root", DDict []) :: e). inversion Hd as [|? ? Hroot ND]; subst.
  assert (RN : reads big file (str "root") false (Node 0 0 0 kids) (DDict e)) by (apply reads_node; exists e; split; [reflexivity|exact R]).
  assert (ON : tree_ok v4 (str "root") false (Node 0 0 0 kids)) by (apply tree_kids_ok; auto).
  assert (Himg : forall nm, is_image (str "root") nm = false) by reflexivity.
  destruct (child_field _ _ _ _ _ _ _ _ _ _ _ _ _ RN ON C) as [x [F1 [R1 [sk [O1 S1]]]]]. rewrite Himg in *. subst sk.
  apply reads_node in R1. destruct R1 as [il [-> R1]]. apply tree_kids_ok in O1. destruct O1 as [_ [_ KI]].
  destruct (keep_ok v4 big file thumbs imgs 0 0 il ltac:(lia) U R1 KI) as [ims [E1 E2]]. exists ims. split; [exact Ep|]. split; [|exact E2].
  assert (L1 : lookup (str "ImageList") ((str "root", DDict []) :: e) = Some (DDict il)).
  { cbn [field] in F1. destruct (lookup (str "ImageList") e) eqn:E; [|discriminate]. injection F1 as ->. cbn [lookup]. replace (eqb_str (str "ImageList") (str "root")) with false by reflexivity. exact E. }
  unfold images, has. rewrite L1. cbn [negb]. cbn [field]. rewrite L1.
  destruct TH as [[Hno ->]|[name' [a' [b' [j' [tkids [CT FT]]]]]]].
  - rewrite lookup_none. 2:{ cbn [map fst]. rewrite (reads_keys _ _ _ _ _ _ _ R). intros [K|K]; [discriminate K|contradiction]. }
    cbn [bind]. exact E1.
  - destruct (child_field _ _ _ _ _ _ _ _ _ _ _ _ _ RN ON CT) as [x [F2 [R2 [sk [O2 S2]]]]]. apply reads_node in R2. destruct R2 as [te [-> R2]]. apply tree_kids_ok in O2. destruct O2 as [_ [_ KT]].
    assert (L2 : lookup (str "Thumbnails") ((str "root", DDict []) :: e) = Some (DDict te)).
    { cbn [field] in F2. destruct (lookup (str "Thumbnails") e) eqn:E; [|discriminate]. injection F2 as ->. cbn [lookup]. replace (eqb_str (str "Thumbnails") (str "root")) with false by reflexivity. exact E. }
    rewrite L2. cbn [bind values]. rewrite (thumbs_ok _ _ _ _ _ _ _ _ _ R2 KT FT). cbn [bind]. exact E1.
Qed.
Print Assumptions C55_file.

(** A file with a thumbnail (image 0) and an image of 3 columns and 2 rows. *)
Definition picture (dims : list Z) (code ty : Z) (xs : list Z) : ttree :=
  Node 0 0 0 [(str "ImageData", Node 0 0 0
    [(str "Data", Leaf 0 (TArray ty xs)); (str "DataType", Leaf 0 (TSimple 5 code));
     (str "Dimensions", Node 0 0 0 (map (fun d => ([], Leaf 0 (TSimple 5 d))) dims))])].
Definition two_images : list (pystr * ttree) :=
  [(str "ImageList", Node 0 0 0 [([], picture [2; 1] 23 5 [67305985; 134678021]); ([], picture [3; 2] 1 2 [1; 2; 3; -4; 5; 6])]);
   (str "Thumbnails", Node 0 0 0 [([], Node 0 0 0 [(str "ImageIndex", Leaf 0 (TSimple 5 0))])])].
Example C55_example : bind (parse_file (enc_file true false 0 0 0 two_images [])) (fun tags => bind (images tags) (fun ims =>
    mapM (get_data (enc_file true false 0 0 0 two_images [])) ims)) =
  Ok [Plain [2; 3] [[1; 0]; [2; 0]; [3; 0]; [252; 255]; [5; 0]; [6; 0]]].
Proof. vm_compute. reflexivity. Qed.
Example C55_colours : bind (parse_file (enc_file true false 0 0 0 (firstn 1 two_images) [])) (fun tags => bind (images tags) (fun ims =>
    mapM (get_data (enc_file true false 0 0 0 (firstn 1 two_images) [])) (firstn 1 ims))) =
  Ok [Plain [1; 2] [[3; 2; 1; 4]; [7; 6; 5; 8]]].
Proof. vm_compute. reflexivity. Qed.
Example C55_hypotheses : Forall unnamed_group [([], picture [2; 1] 23 5 [67305985; 134678021]); ([], picture [3; 2] 1 2 [1; 2; 3; -4; 5; 6])] /\
  image_tree [3; 2] 1 (TArray 2 [1; 2; 3; -4; 5; 6]) (picture [3; 2] 1 2 [1; 2; 3; -4; 5; 6]) /\
  Forall2 thumbnail [Node 0 0 0 [(str "ImageIndex", Leaf 0 (TSimple 5 0))]] [0].
Proof.
  split; [repeat constructor|]. split.
  - eapply image_tree_intro; [exists 0%nat; split; reflexivity|exists 0%nat; split; reflexivity|exists 1%nat; split; reflexivity|exists 0, 5; split; reflexivity|exists 2%nat; split; reflexivity|].
    repeat constructor; (eexists; exists 5; split; reflexivity).
  - constructor; [|constructor]. do 3 eexists. eexists. eexists. eexists. split; [reflexivity|]. split; [exists 0%nat; split; reflexivity|exists 0, 5; split; reflexivity].
Qed.

(** The numbers of an image are taken as little-endian, whatever the byte order of the file:
    the pixels of a big-endian file are byte-swapped. *)
Theorem C55_big_endian_refuted : exists im,
  let file := enc_file false true 0 0 0 [(str "ImageList", Node 0 0 0 [([], picture [2] 1 2 [1; 2])])] [] in
  bind (parse_file file) images = Ok [im] /\
  exists l, get_data file im = Ok (Plain [2] l) /\ map le_val l = [256; 512] /\ map be_val l = [1; 2].
Proof. eexists. cbv zeta. split; [vm_compute; reflexivity|]. eexists. split; [vm_compute; reflexivity|]. split; reflexivity. Qed.
Print Assumptions C55_big_endian_refuted.
(** An image that is listed under a name, not a number, stops the reader.
    The list of thumbnails may be missing. *)
Theorem C55_named_refuted : bind (parse_file (enc_file false false 0 0 0 [(str "ImageList", Node 0 0 0 [(str "A", picture [2] 1 2 [1; 2])])] [])) images = Err ValueError.
Proof. vm_compute. reflexivity. Qed.
Print Assumptions C55_named_refuted.

(** * Axes (C56) *)
Theorem C56_axes : forall im dims cals, dimensions im = Ok dims -> calibrations im = Ok cals -> (List.length cals <= List.length dims)%nat ->
  exists ax, axes im = Ok ax /\ List.length ax = List.length dims /\
    forall i, (i < List.length dims)%nat ->
      exists d, nth_error dims (List.length dims - 1 - i) = Some d /\ nth_error ax i = Some (d, nth_error cals (List.length dims - 1 - i)).
Proof.
  intros im dims cals Hd Hc Hl. unfold axes, shape. rewrite Hd. cbn [bind]. rewrite Hc. cbn [bind]. rewrite rev_length.
  set (p := map Some cals ++ repeat None (List.length dims - List.length cals)).
  assert (Lp : List.length p = List.length dims) by (unfold p; rewrite app_length, map_length, repeat_length; lia).
  eexists. split; [reflexivity|]. split; [rewrite combine_length, !rev_length; lia|]. intros i Hi.
  assert (R : forall A (l : list A) k, (k < List.length l)%nat -> nth_error (rev l) k = nth_error l (List.length l - 1 - k)).
  { intros A l k Hk. destruct (nth_error l (List.length l - 1 - k)) as [x|] eqn:E; [|apply nth_error_None in E; lia].
    apply nth_error_nth with (d := x) in E as E2. rewrite <- E2. rewrite (nth_error_nth' (rev l) x) by (rewrite rev_length; exact Hk). f_equal. rewrite rev_nth by exact Hk. f_equal. lia. }
  destruct (nth_error dims (List.length dims - 1 - i)) as [d|] eqn:Ed; [|apply nth_error_None in Ed; lia].
  exists d. split; [reflexivity|].
  assert (Np : nth_error p (List.length dims - 1 - i) = Some (nth_error cals (List.length dims - 1 - i))).
  { unfold p. destruct (Nat.lt_ge_cases (List.length dims - 1 - i) (List.length cals)) as [Hlt|Hge].
    - rewrite nth_error_app1 by (rewrite map_length; exact Hlt). rewrite nth_error_map. destruct (nth_error cals _) eqn:E; [reflexivity|apply nth_error_None in E; lia].
    - rewrite nth_error_app2 by (rewrite map_length; exact Hge). rewrite map_length. replace (nth_error cals _) with (@None dval) by (symmetry; apply nth_error_None; exact Hge).
      apply nth_error_repeat. lia. }
  assert (CB : forall A B (l : list A) (m : list B) k x y, nth_error l k = Some x -> nth_error m k = Some y -> nth_error (combine l m) k = Some (x, y)).
  { intros A B l. induction l as [|a l IH]; intros m k x y H1 H2; [destruct k; discriminate|]. destruct m as [|b m]; [destruct k; discriminate|].
    destruct k as [|k]; cbn [nth_error combine] in *; [congruence|]. apply IH; assumption. }
  apply CB; [rewrite R by exact Hi; exact Ed|]. rewrite R by lia. rewrite Lp. exact Np.
Qed.
Print Assumptions C56_axes.
Definition calibrated (dims cals : list Z) : dval :=
  DDict [(str "ImageData", DDict [(str "Dimensions", DDict (map (fun d => (str_int d, DInt d)) dims));
    (str "Calibrations", DDict [(str "Dimension", DDict (map (fun c => (str_int c, DInt c)) cals))])])].
Example C56_example : dimensions (calibrated [5; 6; 7] [50; 60]) = Ok [5; 6; 7] /\ calibrations (calibrated [5; 6; 7] [50; 60]) = Ok [DInt 50; DInt 60] /\
  axes (calibrated [5; 6; 7] [50; 60]) = Ok [(7, None); (6, Some (DInt 60)); (5, Some (DInt 50))].
Proof. repeat split. Qed.
(** With more calibrations than dimensions the axes get those of other dimensions. *)
Theorem C56_extra_refuted : axes (calibrated [5; 6] [50; 60; 70]) = Ok [(6, Some (DInt 70)); (5, Some (DInt 60))].
Proof. reflexivity. Qed.
Print Assumptions C56_extra_refuted.
(** Signal axes: the last one for single lines and spectra, the last two otherwise. *)
Theorem C56_navigate : forall spectrum sh scales n, List.length sh = S n -> (List.length scales <= S n)%nat ->
  navigate spectrum sh scales =
  if (n =? 0)%nat || (spectrum && (n =? 1)%nat) then repeat true n ++ [false] else repeat true (n - 1) ++ [false; false].
Proof.
  intros spectrum sh scales n H1 H2. unfold navigate. rewrite H1. replace (Nat.max (S n) (List.length scales)) with (S n) by lia.
  assert (FR : forall m, (m <= S n)%nat -> firstn m (repeat true (S n)) = repeat true m).
  { clear. intros m. generalize (S n). induction m as [|m IH]; intros k H; [reflexivity|]. destruct k; [lia|]. cbn [repeat firstn]. rewrite IH by lia. reflexivity. }
  cbn [Nat.eqb]. destruct ((n =? 0)%nat || (spectrum && (n =? 1)%nat)); rewrite FR by lia; f_equal; f_equal; lia.
Qed.
Print Assumptions C56_navigate.
Example C56_navigate_example : navigate true [4; 5] [DInt 0] = [true; false] /\ navigate false [4; 5; 6] [] = [true; false; false] /\ navigate false [4] [] = [false].
Proof. repeat split. Qed.
