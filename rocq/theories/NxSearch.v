(** Metadata of Nexus files selected by words. *)
From Coq Require Import QArith.
From Verif Require Import Base Text HierModel DistModel RplModel SfsModel HierProps HierProof Dict LogText NxModel NxMeta.
Local Open Scope Z_scope.

Lemma meta_deep : forall P : meta -> Prop, (forall m, ~ is_dict m -> P m) -> (forall d, (forall k v, In (k, v) d -> P v) -> P (MDict d)) -> forall m, P m.
Proof.
  intros P HL HD. fix IH 1. intros [|s|l|q|sh l|l|d]; try (apply HL; intros [e K]; discriminate). apply HD. induction d as [|[k v] d IHd]; intros k' v' H; [destruct H|].
  destruct H as [H|H]; [|exact (IHd _ _ H)]. assert (E : v = v') by congruence. rewrite <- E. apply IH.
Qed.
(** what is at a path in nested dictionaries *)
Fixpoint getp (p : list pystr) (m : meta) : option meta :=
  match p with
  | [] => Some m
  | k :: p => match m with MDict d => match lookup k d with Some v => getp p v | None => None end | _ => None end
  end.
(** keys which can be on a path: not empty, without dots and slashes, different ones *)
Inductive clear : meta -> Prop :=
| clear_leaf : forall m, ~ is_dict m -> clear m
| clear_dict : forall d, NoDup (map fst d) -> (forall k v, In (k, v) d -> k <> [] /\ ~ In 46 k /\ ~ In 47 k) -> (forall k v, In (k, v) d -> clear v) -> clear (MDict d).
Definition matches (keys : list pystr) (p : list pystr) : Prop := exists s, In s keys /\ occurs s (join_char 47 p).

Lemma getp_app : forall p q m, getp (p ++ q) m = match getp p m with Some x => getp q x | None => None end.
Proof.
  induction p as [|k p IH]; intros q m; [reflexivity|]. cbn [app getp]. destruct m; try reflexivity. destruct (lookup k d); [apply IH|reflexivity].
Qed.
Lemma getp_leaf : forall p m w, ~ is_dict m -> getp p m = Some w -> p = [] /\ w = m.
Proof. intros [|k p] m w H E; [injection E as <-; auto|]. cbn [getp] in E. destruct m; try discriminate. destruct H. eexists. reflexivity. Qed.
Lemma getp_nil : forall p m, p <> [] -> getp p (MDict []) = Some m -> False.
Proof. intros [|k p] m H E; [congruence|discriminate]. Qed.

(** * Setting a path *)
Lemma set_cons : forall k k' p v d, set_path (k :: k' :: p) v d =
  match lookup k d with
  | None => let! e := set_path (k' :: p) v [] in Ok (put k (MDict e) d)
  | Some (MDict e) => let! e := set_path (k' :: p) v e in Ok (put k (MDict e) d)
  | Some _ => Err AttributeError
  end.
Proof. reflexivity. Qed.
Lemma set_ok : forall p v d, p <> [] ->
  (forall p1 p2 w, p = p1 ++ p2 -> p1 <> [] -> p2 <> [] -> getp p1 (MDict d) = Some w -> is_dict w) -> exists d', set_path p v d = Ok d'.
Proof.
  induction p as [|k p IH]; intros v d Hp H; [congruence|]. destruct p as [|k' p]; [eexists; reflexivity|].
  rewrite set_cons. destruct (lookup k d) as [x|] eqn:E.
  - destruct (H [k] (k' :: p) x eq_refl) as [e ->]; [discriminate|discriminate|cbn [getp]; rewrite E; reflexivity|].
    destruct (IH v e) as [e' E']; [discriminate| |].
    + intros p1 p2 w Ep N1 N2 G. apply (H (k :: p1) p2 w); [rewrite Ep; reflexivity|discriminate|exact N2|]. cbn [getp]. rewrite E. exact G.
    + rewrite E'. eexists. reflexivity.
  - destruct (IH v []) as [e' E']; [discriminate| |].
    + intros p1 p2 w _ N1 _ G. destruct (getp_nil _ _ N1 G).
    + rewrite E'. eexists. reflexivity.
Qed.
Lemma set_inv : forall k k' p v d d', set_path (k :: k' :: p) v d = Ok d' ->
  exists e e', (lookup k d = None /\ e = [] \/ lookup k d = Some (MDict e)) /\ set_path (k' :: p) v e = Ok e' /\ d' = put k (MDict e') d.
Proof.
  intros k k' p v d d' H. rewrite set_cons in H. destruct (lookup k d) as [[| | | | | |e]|]; try discriminate; apply bind_ok in H; destruct H as (e' & E & H); injection H as <-; eauto 7.
Qed.
(** a leaf after setting a path *)
Lemma set_leaf : forall p v d d', set_path p v d = Ok d' -> forall q w, ~ is_dict w ->
  (getp q (MDict d') = Some w <-> (exists q', q = p ++ q' /\ getp q' v = Some w) \/ ((forall q', q <> p ++ q') /\ getp q (MDict d) = Some w)).
Proof.
  induction p as [|k p IH]; intros v d d' H q w Hw; [discriminate|]. destruct q as [|kq q].
  { cbn [getp]. split; [intros E; injection E as <-; destruct Hw; eexists; reflexivity|]. intros [(q' & K & _)|(_ & E)]; [discriminate|]. injection E as <-. destruct Hw. eexists. reflexivity. }
  destruct p as [|k' p].
  - injection H as <-. cbn [getp]. rewrite lookup_put. destruct (eqb_str kq k) eqn:E.
    + apply eqb_str_spec in E. subst kq. split.
      * intros G. left. exists q. split; [reflexivity|exact G].
      * intros [(q' & K & G)|(N & _)]; [injection K as <-; exact G|]. destruct (N q). reflexivity.
    + apply eqb_str_neq in E. split.
      * intros G. right. split; [|exact G]. intros q' K. injection K as K _. congruence.
      * intros [(q' & K & _)|(_ & G)]; [injection K as K _; congruence|exact G].
  - apply set_inv in H. destruct H as (e & e' & L & S & ->). cbn [getp]. rewrite lookup_put. destruct (eqb_str kq k) eqn:E.
    + apply eqb_str_spec in E. subst kq. rewrite (IH _ _ _ S q w Hw). split.
      * intros [(q' & -> & G)|(N & G)]; [left; exists q'; split; [reflexivity|exact G]|]. right. split; [intros q' K; injection K as K; exact (N _ K)|].
        destruct L as [[L ->]|L]; rewrite L; [|exact G]. destruct q as [|? ?]; cbn [getp lookup] in G; [injection G as <-; destruct Hw; eexists; reflexivity|discriminate].
      * intros [(q' & K & G)|(N & G)]; [injection K as ->; left; exists q'; auto|]. right. split; [intros q' ->; apply (N q'); reflexivity|].
        destruct L as [[L ->]|L]; rewrite L in G; [discriminate|exact G].
    + apply eqb_str_neq in E. split.
      * intros G. right. split; [|exact G]. intros q' K. injection K as K _. congruence.
      * intros [(q' & K & _)|(_ & G)]; [injection K as K _; congruence|exact G].
Qed.
(** anything after setting a path *)
Lemma set_any : forall p v d d', set_path p v d = Ok d' -> forall q w, getp q (MDict d') = Some w ->
  (exists q', q = p ++ q' /\ getp q' v = Some w) \/ (is_dict w /\ exists q', q' <> [] /\ p = q ++ q') \/ getp q (MDict d) = Some w.
Proof.
  induction p as [|k p IH]; intros v d d' H q w G; [discriminate|]. destruct q as [|kq q].
  { right. left. injection G as <-. split; [eexists; reflexivity|]. exists (k :: p). split; [discriminate|reflexivity]. }
  destruct p as [|k' p].
  - injection H as <-. cbn [getp] in G. rewrite lookup_put in G. destruct (eqb_str kq k) eqn:E; [|right; right; exact G].
    apply eqb_str_spec in E. subst kq. left. exists q. auto.
  - apply set_inv in H. destruct H as (e & e' & L & S & ->). cbn [getp] in G. rewrite lookup_put in G. destruct (eqb_str kq k) eqn:E; [|right; right; exact G].
    apply eqb_str_spec in E. subst kq. destruct (IH _ _ _ S q w G) as [(q' & -> & K)|[(D & q' & N & K)|K]].
    + left. exists q'. auto.
    + right. left. split; [exact D|]. exists q'. split; [exact N|]. rewrite K. reflexivity.
    + destruct L as [[L ->]|L].
      * destruct q as [|? ?]; [|discriminate]. right. left. cbn [getp] in K. injection K as <-. split; [eexists; reflexivity|]. exists (k' :: p). split; [discriminate|reflexivity].
      * right. right. cbn [getp]. rewrite L. exact K.
Qed.

(** * Paths as texts *)
Lemma join_snoc : forall p k, p <> [] -> join_char 47 (p ++ [k]) = join_char 47 p ++ slash ++ k.
Proof.
  induction p as [|x p IH]; intros k H; [congruence|]. destruct p as [|y p]; [reflexivity|]. cbn [app]. change (join_char 47 (x :: y :: p ++ [k])) with (x ++ 47 :: join_char 47 ((y :: p) ++ [k])).
  rewrite IH by discriminate. change (join_char 47 (x :: y :: p)) with (x ++ 47 :: join_char 47 (y :: p)). rewrite <- !app_assoc. reflexivity.
Qed.
Lemma join_prefix : forall p q, p <> [] -> exists r, join_char 47 (p ++ q) = join_char 47 p ++ r.
Proof.
  induction p as [|x p IH]; intros q H; [congruence|]. destruct p as [|y p].
  - destruct q as [|k q]; [exists []; cbn [app]; rewrite app_nil_r; reflexivity|]. exists (47 :: join_char 47 (k :: q)). reflexivity.
  - destruct (IH q) as [r E]; [discriminate|]. exists r. change ((x :: y :: p) ++ q) with (x :: ((y :: p) ++ q)).
    change (join_char 47 (x :: (y :: p) ++ q)) with (x ++ 47 :: join_char 47 ((y :: p) ++ q)). rewrite E. change (join_char 47 (x :: y :: p)) with (x ++ 47 :: join_char 47 (y :: p)).
    rewrite <- !app_assoc. reflexivity.
Qed.
Lemma join_in : forall c p, c <> 47 -> In c (join_char 47 p) -> exists k, In k p /\ In c k.
Proof.
  intros c. induction p as [|x p IH]; intros N H; [destruct H|]. destruct p as [|y p]; [exists x; split; [left; reflexivity|exact H]|].
  change (join_char 47 (x :: y :: p)) with (x ++ 47 :: join_char 47 (y :: p)) in H. apply in_app_iff in H. destruct H as [H|[H|H]]; [exists x; split; [left; reflexivity|exact H]|congruence|].
  destruct (IH N H) as (k & I & K). exists k. split; [right; exact I|exact K].
Qed.
Definition word_ok (k : pystr) : Prop := k <> [] /\ ~ In 46 k /\ ~ In 47 k.
Lemma remove_first_none : forall l, (forall k, In k l -> k <> []) -> remove_first l = l.
Proof.
  induction l as [|k l IH]; intros H; [reflexivity|]. cbn [remove_first]. rewrite (proj2 (eqb_str_neq k [])) by (apply H; left; reflexivity). rewrite IH; [reflexivity|]. intros x Hx. apply H. right. exact Hx.
Qed.
Lemma split_words : forall p, p <> [] -> (forall k, In k p -> word_ok k) -> text_split (join_char 47 p) [46; 47] = p.
Proof.
  intros p N H. unfold text_split. cbn [fold_left map List.concat]. rewrite app_nil_r. rewrite (split_char_nosep 46).
  - cbn [map List.concat]. rewrite app_nil_r, split_join; [|exact N|apply Forall_forall; intros k Hk; apply (H k Hk)]. apply remove_first_none. intros k Hk. apply (H k Hk).
  - intros I. destruct (join_in 46 p ltac:(lia) I) as (k & Ik & Kk). destruct (H k Ik) as (_ & X & _). exact (X Kk).
Qed.
Definition root_key (root k : pystr) : pystr := match root with [] => k | _ => root ++ slash ++ k end.
Lemma root_name : forall rp k, (forall x, In x rp -> word_ok x) -> root_key (join_char 47 rp) k = join_char 47 (rp ++ [k]).
Proof.
  unfold root_key.
  intros rp k H. destruct rp as [|x rp]; [reflexivity|]. rewrite join_snoc by discriminate. destruct (join_char 47 (x :: rp)) as [|c r] eqn:E; [|reflexivity].
  exfalso. destruct (H x (or_introl eq_refl)) as (N & _). destruct rp as [|y rp]; [cbn in E; congruence|].
  change (join_char 47 (x :: y :: rp)) with (x ++ 47 :: join_char 47 (y :: rp)) in E. destruct x; discriminate.
Qed.
Lemma matches_spec : forall keys p, existsb (fun s => contains s (join_char 47 p)) keys = true <-> matches keys p.
Proof.
  intros keys p. rewrite existsb_exists. unfold matches. split; intros (s & I & K); exists s; (split; [exact I|]); apply contains_spec; exact K.
Qed.
Lemma matches_more : forall keys p q, p <> [] -> matches keys p -> matches keys (p ++ q).
Proof.
  intros keys p q N (s & I & a & b & E). exists s. split; [exact I|]. destruct (join_prefix p q N) as [r R]. exists a, (b ++ r). rewrite R, E, <- !app_assoc. reflexivity.
Qed.

(** * The walk *)
Section Walk.
  Variable keys : list pystr.
  Variable tree : meta.
  (** what is collected is in the tree, with the same leaves *)
  Definition sound (acc : dict) : Prop :=
    forall q w, getp q (MDict acc) = Some w -> exists w', getp q tree = Some w' /\ (is_dict w <-> is_dict w') /\ (~ is_dict w -> w = w').
  Lemma sound_set : forall p v acc acc', sound acc -> is_dict tree -> p <> [] -> getp p tree = Some v -> set_path p v acc = Ok acc' -> sound acc'.
  Proof.
    intros p v acc acc' S T N G H q w Gq. destruct (set_any _ _ _ _ H q w Gq) as [(q' & -> & K)|[(D & q' & Nq & ->)|K]].
    - exists w. rewrite getp_app, G. split; [exact K|]. split; [reflexivity|auto].
    - rewrite getp_app in G. destruct (getp q tree) as [x|]; [|discriminate]. exists x. split; [reflexivity|]. split; [|contradiction].
      split; [|auto]. intros _. destruct q' as [|k q']; [congruence|]. cbn [getp] in G. destruct x; try discriminate. eexists. reflexivity.
    - exact (S q w K).
  Qed.
  Lemma sound_ok : forall p v acc, sound acc -> p <> [] -> getp p tree = Some v -> exists acc', set_path p v acc = Ok acc'.
  Proof.
    intros p v acc S N G. apply set_ok; [exact N|]. intros p1 p2 w -> N1 N2 K. destruct (S _ _ K) as (w' & Gw & D & _). apply D.
    rewrite getp_app, Gw in G. destruct p2 as [|k p2]; [congruence|]. cbn [getp] in G. destruct w'; try discriminate. eexists. reflexivity.
  Qed.
  Lemma search_cons : forall root k v d acc, search_tree keys root (MDict ((k, v) :: d)) acc =
    (let rootkey := root_key root k in
     let! acc := if existsb (fun s => contains s rootkey) keys then set_path (text_split rootkey [46; 47]) v acc else Ok acc in
     let! acc := search_tree keys rootkey v acc in
     search_tree keys root (MDict d) acc).
  Proof. reflexivity. Qed.
  Lemma search_spec : is_dict tree -> forall m, clear m -> forall rp acc, (forall x, In x rp -> word_ok x) -> getp rp tree = Some m -> sound acc ->
    exists acc', search_tree keys (join_char 47 rp) m acc = Ok acc' /\ sound acc' /\
      forall q w, ~ is_dict w -> (getp q (MDict acc') = Some w <-> getp q (MDict acc) = Some w \/
                                 (is_dict m /\ exists q', q' <> [] /\ q = rp ++ q' /\ getp q' m = Some w /\ matches keys q)).
  Proof.
    intros T. induction m as [m L|d IH] using meta_deep; intros C rp acc R G S.
    - exists acc. split; [destruct m; try reflexivity; destruct L; eexists; reflexivity|]. split; [exact S|]. intros q w Hw. intuition.
    - inversion C as [m' L|d' ND K Cv]; subst; [destruct L; eexists; reflexivity|].
      assert (Sub : exists done, d = done ++ d) by (exists []; reflexivity). revert Sub acc S. generalize d at 2 3 4 5. intros sub.
      induction sub as [|[k v] sub IHs]; intros [done E] acc S.
      + exists acc. split; [reflexivity|]. split; [exact S|]. intros q w Hw. split; [auto|]. intros [X|(_ & q' & N & _ & X & _)]; [exact X|]. destruct (getp_nil _ _ N X).
      + assert (I : In (k, v) d) by (rewrite E; apply in_app_iff; right; left; reflexivity).
        assert (Lk : lookup k d = Some v) by (apply lookup_in; assumption).
        assert (R' : forall x, In x (rp ++ [k]) -> word_ok x) by (intros x Hx; apply in_app_iff in Hx; destruct Hx as [Hx|[<-|[]]]; [exact (R x Hx)|exact (K _ _ I)]).
        assert (G' : getp (rp ++ [k]) tree = Some v) by (rewrite getp_app, G; cbn [getp]; rewrite Lk; reflexivity).
        assert (N' : rp ++ [k] <> []) by (destruct rp; discriminate).
        assert (NDs : lookup k sub = None).
        { apply lookup_notin. intros X. rewrite E, map_app in ND. cbn [map fst] in ND. apply NoDup_remove_2 in ND. apply ND. apply in_app_iff. right. exact X. }
        assert (First : exists acc1, (if existsb (fun s => contains s (join_char 47 (rp ++ [k]))) keys then set_path (text_split (join_char 47 (rp ++ [k])) [46; 47]) v acc else Ok acc) = Ok acc1 /\ sound acc1 /\
                 forall q w, ~ is_dict w -> (getp q (MDict acc1) = Some w <-> getp q (MDict acc) = Some w \/ (matches keys (rp ++ [k]) /\ exists q', q = (rp ++ [k]) ++ q' /\ getp q' v = Some w))).
        { destruct (existsb (fun s => contains s (join_char 47 (rp ++ [k]))) keys) eqn:M.
          - apply matches_spec in M. rewrite split_words by assumption. destruct (sound_ok _ _ _ S N' G') as [acc1 A]. exists acc1. split; [exact A|]. split; [exact (sound_set _ _ _ _ S T N' G' A)|].
            intros q w Hw. rewrite (set_leaf _ _ _ _ A q w Hw). split.
            + intros [(q' & -> & X)|(_ & X)]; [right; split; [exact M|exists q'; auto]|left; exact X].
            + intros [X|(_ & q' & -> & X)]; [|left; exists q'; auto].
              destruct (S q w X) as (w' & Gw & _ & Ew). specialize (Ew Hw). subst w'.
              destruct (in_dec (list_eq_dec (list_eq_dec Z.eq_dec)) (rp ++ [k]) [firstn (List.length (rp ++ [k])) q]) as [[Y|[]]|Y].
              * left. exists (skipn (List.length (rp ++ [k])) q). assert (Q : q = (rp ++ [k]) ++ skipn (List.length (rp ++ [k])) q) by (rewrite <- Y at 1; rewrite firstn_skipn; reflexivity).
                split; [exact Q|]. rewrite Q, getp_app, G' in Gw. exact Gw.
              * right. split; [|exact X]. intros q' ->. apply Y. left. rewrite firstn_app, Nat.sub_diag, firstn_all. cbn [firstn]. apply app_nil_r.
          - exists acc. split; [reflexivity|]. split; [exact S|]. intros q w Hw. split; [auto|]. intros [X|(X & _)]; [exact X|]. apply matches_spec in X. congruence. }
        destruct First as (acc1 & A1 & S1 & Q1).
        destruct (IH k v I (Cv _ _ I) (rp ++ [k]) acc1 R' G' S1) as (acc2 & A2 & S2 & Q2).
        assert (E' : exists done, d = done ++ sub) by (exists (done ++ [(k, v)]); rewrite <- app_assoc; exact E).
        destruct (IHs E' acc2 S2) as (acc3 & A3 & S3 & Q3).
        exists acc3. split; [|split; [exact S3|]].
        * rewrite search_cons, (root_name rp k R). cbv zeta. rewrite A1. cbn [bind]. rewrite A2. cbn [bind]. exact A3.
        * intros q w Hw. rewrite (Q3 q w Hw), (Q2 q w Hw), (Q1 q w Hw). split.
          -- intros [[[X|(M & q' & -> & X)]|(D & q' & N & -> & X & M)]|(D & q' & N & -> & X & M)].
             ++ left. exact X.
             ++ right. split; [eexists; reflexivity|]. exists (k :: q'). split; [discriminate|]. rewrite <- app_assoc. split; [reflexivity|]. split; [cbn [getp lookup]; rewrite eqb_str_refl; exact X|].
                change ([k] ++ q') with (k :: q'). replace (rp ++ k :: q') with ((rp ++ [k]) ++ q') by (rewrite <- app_assoc; reflexivity). apply matches_more; assumption.
             ++ right. split; [eexists; reflexivity|]. exists (k :: q'). split; [discriminate|]. rewrite <- app_assoc in M |- *. split; [reflexivity|]. split; [cbn [getp lookup]; rewrite eqb_str_refl; exact X|exact M].
             ++ right. split; [eexists; reflexivity|]. exists q'. split; [exact N|]. split; [reflexivity|]. split; [|exact M]. destruct q' as [|kq q']; [congruence|]. cbn [getp lookup] in X |- *.
                destruct (eqb_str kq k) eqn:F; [|exact X]. apply eqb_str_spec in F. subst kq. rewrite NDs in X. discriminate.
          -- intros [X|(_ & q' & N & -> & X & M)]; [left; left; left; exact X|]. destruct q' as [|kq q']; [congruence|]. cbn [getp lookup] in X. destruct (eqb_str kq k) eqn:F.
             ++ apply eqb_str_spec in F. subst kq. left. replace (rp ++ k :: q') with ((rp ++ [k]) ++ q') in M |- * by (rewrite <- app_assoc; reflexivity).
                destruct q' as [|k2 q'].
                ** rewrite app_nil_r in M |- *. left. right. split; [exact M|]. exists []. rewrite app_nil_r. auto.
                ** right. split; [cbn [getp] in X; destruct v; try discriminate; eexists; reflexivity|]. exists (k2 :: q'). repeat split; try assumption; discriminate.
             ++ right. split; [eexists; reflexivity|]. exists (kq :: q'). repeat split; try assumption; discriminate.
  Qed.
End Walk.
(** The values given back are those with one of the words in their path. *)
Theorem C120_search : forall keys d, clear (MDict d) -> exists r, search_dict (Some keys) d = Ok r /\
  forall p v, ~ is_dict v -> (getp p (MDict r) = Some v <-> getp p (MDict d) = Some v /\ matches keys p).
Proof.
  intros keys d C. destruct (search_spec keys (MDict d) (ex_intro _ d eq_refl) (MDict d) C [] []) as (r & E & _ & Q).
  - intros x [].
  - reflexivity.
  - intros q w H. destruct q as [|k q]; [|discriminate]. injection H as <-. exists (MDict d). split; [reflexivity|]. split; [split; intros _; eexists; reflexivity|]. intros N. destruct N. eexists. reflexivity.
  - exists r. split; [exact E|]. intros p v Hv. rewrite (Q p v Hv). split.
    + intros [H|(_ & q & _ & -> & H & M)]; [|auto]. destruct p as [|k p]; [|discriminate]. injection H as <-. destruct Hv. eexists. reflexivity.
    + intros [H M]. right. split; [eexists; reflexivity|]. exists p. repeat split; try assumption. intros ->. injection H as <-. apply Hv. eexists. reflexivity.
Qed.
Theorem C120_no_words : forall d, search_dict None d = Ok d.
Proof. reflexivity. Qed.
Print Assumptions C120_search.
Print Assumptions C120_no_words.
