(** Claim C52: the directory tree of an SFS container. *)
From Verif Require Import Base Text Bytes Utf8 HierModel HierProps SfsModel SfsProps.

(** * Specification *)

(** The path of entry [i]: the names from the top directory down to it. *)
Inductive path_of (its : list item) : nat -> list pystr -> Prop :=
| po_top : forall i it, nth_error its i = Some it -> i_parent it = -1 -> path_of its i [i_name it]
| po_sub : forall i it j p, nth_error its i = Some it -> i_parent it = Z.of_nat j -> path_of its j p ->
    path_of its i (p ++ [i_name it]).

(** Every entry lies at the top or in a directory listed before it. *)
Definition dirs_first (its : list item) : Prop := forall i it, nth_error its i = Some it ->
  i_parent it = -1 \/ exists j jt, i_parent it = Z.of_nat j /\ (j < i)%nat /\ nth_error its j = Some jt /\ i_dir jt = true.
(** Entries of one directory have different names. *)
Definition siblings_differ (its : list item) : Prop := forall i j it jt, nth_error its i = Some it -> nth_error its j = Some jt ->
  i_parent it = i_parent jt -> i_name it = i_name jt -> i = j.

(** What is found: [Some (Some i)] entry [i], [Some None] a directory. *)
Definition kind (r : res vnode) : option (option nat) :=
  match r with Ok (VFile i) => Some (Some i) | Ok (VDir _) => Some None | Err _ => None end.
Definition kind_of (i : nat) (it : item) : option (option nat) := if i_dir it then Some None else Some (Some i).

(** * The loop over the parents *)
Inductive parents (its : list item) : nat -> list Z -> Prop :=
| pa_top : forall i it, nth_error its i = Some it -> i_parent it = -1 -> parents its i [-1]
| pa_sub : forall i it j l, nth_error its i = Some it -> i_parent it = Z.of_nat j -> parents its j l ->
    parents its i (Z.of_nat j :: l).

Lemma parents_last : forall its i l, parents its i l -> l <> [] /\ last l (-1) = -1.
Proof.
  induction 1 as [i it|i it j l H1 H2 H3 [IH1 IH2]]; [split; [discriminate|reflexivity]|].
  split; [discriminate|]. destruct l; [contradiction|]. exact IH2.
Qed.

Lemma set_nth_length : forall A n (x : A) l, (n < List.length l)%nat -> List.length (set_nth n x l) = List.length l.
Proof. intros. unfold set_nth. rewrite app_length, firstn_length. cbn [List.length]. rewrite skipn_length. lia. Qed.
Lemma set_nth_same : forall A n (x : A) l, (n < List.length l)%nat -> nth_error (set_nth n x l) n = Some x.
Proof.
  intros. unfold set_nth. rewrite nth_error_app2; rewrite firstn_length; [|lia].
  replace (n - Nat.min n (List.length l))%nat with 0%nat by lia. reflexivity.
Qed.
Lemma set_nth_other : forall A n m (x : A) l, (n < List.length l)%nat -> m <> n -> nth_error (set_nth n x l) m = nth_error l m.
Proof.
  intros A n m x l H Hm. unfold set_nth. rewrite <- (firstn_skipn n l) at 3.
  destruct (Nat.lt_ge_cases m n) as [L|L].
  - rewrite !nth_error_app1 by (rewrite firstn_length; lia). reflexivity.
  - rewrite !nth_error_app2 by (rewrite firstn_length; lia). rewrite firstn_length.
    replace (m - Nat.min n (List.length l))%nat with (S (m - n - 1)) by lia. cbn [nth_error].
    change (S n) with (1 + n)%nat. replace (1 + n)%nat with (n + 1)%nat by lia. rewrite <- skipn_skipn.
    destruct (skipn n l) as [|y k] eqn:E.
    { assert (List.length (skipn n l) = 0%nat) by (rewrite E; reflexivity). rewrite skipn_length in H0. lia. }
    cbn [skipn]. reflexivity.
Qed.

Section Loop.
Variable (its : list item).
Hypothesis (Hd : dirs_first its).

Definition half (k : nat) (ps : list (list Z)) : Prop :=
  List.length ps = List.length its /\
  forall i l, nth_error ps i = Some l ->
    if (i <? k)%nat then parents its i l else exists it, nth_error its i = Some it /\ l = [i_parent it].

Lemma half_step : forall k ps, (k < List.length its)%nat -> half k ps -> exists ps', extend_step ps k = Ok ps' /\ half (S k) ps'.
Proof.
  intros k ps Hk [L H]. unfold extend_step.
  destruct (nth_error ps k) as [l|] eqn:E; [|apply nth_error_None in E; lia].
  rewrite (nth_error_nth ps k [] E). pose proof (H _ _ E) as Hl. replace (k <? k)%nat with false in Hl by lia.
  destruct Hl as [it [Hit ->]]. cbn [last]. destruct (i_parent it =? -1) eqn:Ep.
  - exists ps. split; [reflexivity|]. split; [exact L|]. intros i l Hi. pose proof (H _ _ Hi) as G.
    destruct (i <? S k)%nat eqn:Ei.
    + destruct (i <? k)%nat eqn:Ek; [exact G|]. assert (i = k) by lia. subst i. rewrite E in Hi. injection Hi as <-.
      replace (i_parent it) with (-1) by lia. eapply pa_top; [exact Hit|lia].
    + replace (i <? k)%nat with false in G by lia. exact G.
  - destruct (Hd _ _ Hit) as [D|[j [jt [D1 [D2 [D3 D4]]]]]]; [lia|]. rewrite D1.
    destruct (nth_error ps j) as [q|] eqn:Eq; [|apply nth_error_None in Eq; lia].
    unfold py_get. replace (Z.of_nat j <? 0) with false by lia. cbv iota. replace (Z.of_nat j <? 0) with false by lia.
    rewrite Nat2Z.id, Eq. cbn [bind]. eexists. split; [reflexivity|].
    assert (Hkl : (k < List.length ps)%nat) by lia.
    split; [rewrite set_nth_length; assumption|]. intros i l Hi. destruct (Nat.eq_dec i k) as [->|N].
    + rewrite set_nth_same in Hi by exact Hkl. injection Hi as <-. replace (k <? S k)%nat with true by lia.
      cbn [app]. eapply pa_sub; [exact Hit|exact D1|]. pose proof (H _ _ Eq) as G. replace (j <? k)%nat with true in G by lia. exact G.
    + rewrite set_nth_other in Hi by assumption. pose proof (H _ _ Hi) as G.
      replace (i <? S k)%nat with (i <? k)%nat by lia. exact G.
Qed.

Lemma half_pass : forall n k ps, (k + n = List.length its)%nat -> half k ps ->
  exists ps', extend_pass (seq k n) ps = Ok ps' /\ half (List.length its) ps'.
Proof.
  induction n as [|n IH]; intros k ps Hk H.
  - exists ps. split; [reflexivity|]. replace (List.length its) with k by lia. exact H.
  - destruct (half_step k ps) as [ps1 [E1 H1]]; [lia|exact H|]. cbn [seq extend_pass]. rewrite E1. cbn [bind].
    apply IH; [lia|exact H1].
Qed.

Lemma extend_ok : forall fuel, exists ps, extend_all (S fuel) (map (fun it => [i_parent it]) its) = Ok ps /\
  List.length ps = List.length its /\ forall i l, nth_error ps i = Some l -> parents its i l.
Proof.
  intro fuel. set (p0 := map (fun it => [i_parent it]) its).
  assert (H0 : half 0 p0).
  { split; [apply map_length|]. intros i l Hi. cbn [Nat.ltb Nat.leb]. unfold p0 in Hi. rewrite nth_error_map in Hi.
    destruct (nth_error its i) as [it|]; [|discriminate]. injection Hi as <-. exists it. split; reflexivity. }
  cbn [extend_all]. destruct (forallb (fun g => last g (-1) =? -1) p0) eqn:Ef.
  - exists p0. split; [reflexivity|]. split; [apply map_length|]. intros i l Hi. pose proof (proj2 H0 _ _ Hi) as G. cbn [Nat.ltb Nat.leb] in G.
    destruct G as [it [Hit ->]]. rewrite forallb_forall in Ef. apply nth_error_In in Hi. apply Ef in Hi. cbn [last] in Hi.
    replace (i_parent it) with (-1) by lia. eapply pa_top; [exact Hit|lia].
  - destruct (half_pass (List.length its) 0 p0) as [ps [E H]]; [lia|exact H0|].
    unfold p0 at 1. rewrite map_length. rewrite E. cbn [bind].
    assert (G : forall i l, nth_error ps i = Some l -> parents its i l).
    { intros i l Hi. pose proof (proj2 H _ _ Hi) as G. assert (i < List.length its)%nat.
      { rewrite <- (proj1 H). apply nth_error_Some. rewrite Hi. discriminate. }
      replace (i <? List.length its)%nat with true in G by lia. exact G. }
    exists ps. split; [|split; [exact (proj1 H)|exact G]].
    assert (F : forallb (fun g => last g (-1) =? -1) ps = true).
    { apply forallb_forall. intros l Hl. apply In_nth_error in Hl. destruct Hl as [i Hi]. apply G in Hi. apply parents_last in Hi. lia. }
    destruct fuel; cbn [extend_all]; rewrite F; reflexivity.
Qed.

(** The names of the parents, reversed: "root" and the path of the directory. *)
Lemma parents_named : forall i l, parents its i l -> exists pp, mapM (py_get (map i_name its ++ [root_name])) l = Ok pp /\
  exists it, nth_error its i = Some it /\
    ((i_parent it = -1 /\ rev pp = [root_name]) \/
     exists j p, i_parent it = Z.of_nat j /\ path_of its j p /\ rev pp = root_name :: p).
Proof.
  induction 1 as [i it H1 H2|i it j l H1 H2 H3 [pp [E [jt [Hj G]]]]].
  - exists [root_name]. split.
    + cbn [mapM]. assert (P : py_get (map i_name its ++ [root_name]) (-1) = Ok root_name).
      { unfold py_get, zlen. rewrite app_length, map_length. cbn [List.length]. replace (-1 <? 0) with true by lia. cbv iota.
        replace (-1 + Z.of_nat (List.length its + 1) <? 0) with false by lia.
        rewrite nth_error_app2; rewrite map_length; [|lia].
        replace (Z.to_nat (-1 + Z.of_nat (List.length its + 1)) - List.length its)%nat with 0%nat by lia. reflexivity. }
      rewrite P. reflexivity.
    + exists it. split; [exact H1|]. left. split; [exact H2|reflexivity].
  - exists (i_name jt :: pp). split.
    + cbn [mapM]. assert (P : py_get (map i_name its ++ [root_name]) (Z.of_nat j) = Ok (i_name jt)).
      { unfold py_get. replace (Z.of_nat j <? 0) with false by lia. cbv iota. replace (Z.of_nat j <? 0) with false by lia.
        rewrite Nat2Z.id. assert (j < List.length its)%nat by (apply nth_error_Some; rewrite Hj; discriminate).
        rewrite nth_error_app1 by (rewrite map_length; assumption). rewrite nth_error_map, Hj. reflexivity. }
      rewrite P. cbn [bind]. rewrite E. reflexivity.
    + exists it. split; [exact H1|]. right. cbn [rev]. destruct G as [[G1 G2]|[j' [p [G1 [G2 G3]]]]].
      * exists j, [i_name jt]. split; [exact H2|]. split; [apply po_top; assumption|]. rewrite G2. reflexivity.
      * exists j, (p ++ [i_name jt]). split; [exact H2|]. split; [eapply po_sub; eassumption|]. rewrite G3. reflexivity.
Qed.
End Loop.

(** * The dictionary *)
Lemma put_in_ok : forall path name v d e, get_path path (VDir d) = Ok (VDir e) ->
  exists d', put_in path name v d = Ok d' /\
    (forall r, get_path (path ++ name :: r) (VDir d') = get_path r v) /\
    forall q, (forall r, q <> path ++ name :: r) -> kind (get_path q (VDir d')) = kind (get_path q (VDir d)).
Proof.
  induction path as [|j path IH]; intros name v d e H.
  - exists (put name v d). split; [reflexivity|]. split.
    + intro r. cbn [app get_path]. rewrite lookup_put, eqb_str_refl. reflexivity.
    + intros [|x r] Hq; [reflexivity|]. cbn [get_path]. rewrite lookup_put. destruct (eqb_str x name) eqn:E; [|reflexivity].
      apply eqb_str_spec in E. subst x. exfalso. apply (Hq r). reflexivity.
  - cbn [get_path] in H. destruct (lookup j d) as [n|] eqn:El; [|discriminate].
    destruct n as [i|d1]; [destruct path; discriminate|].
    destruct (IH name v d1 e H) as [d' [E [G1 G2]]]. exists (put j (VDir d') d). split; [|split].
    + cbn [put_in]. rewrite El, E. reflexivity.
    + intro r. cbn [app get_path]. rewrite lookup_put, eqb_str_refl. apply G1.
    + intros [|x r] Hq; [reflexivity|]. cbn [get_path]. rewrite lookup_put. destruct (eqb_str x j) eqn:E1; [|reflexivity].
      apply eqb_str_spec in E1. subst x. rewrite El. apply G2. intros s Hs. apply (Hq s). cbn [app]. f_equal. exact Hs.
Qed.

Section Tree.
Variable (its : list item).
Hypothesis (Hd : dirs_first its).
Hypothesis (Hs : siblings_differ its).

Lemma path_nonempty : forall i p, path_of its i p -> p <> [].
Proof. induction 1; [discriminate|]. destruct p; discriminate. Qed.
Lemma path_fun : forall i p, path_of its i p -> forall q, path_of its i q -> p = q.
Proof.
  induction 1 as [i it H1 H2|i it j p H1 H2 H3 IH]; intros q Hq; inversion Hq as [? it' A B|? it' j' p' A B C]; subst;
    assert (it' = it) by congruence; subst it'.
  - reflexivity.
  - lia.
  - lia.
  - assert (j' = j) by lia. subst j'. rewrite (IH _ C). reflexivity.
Qed.
Lemma path_inj : forall i p, path_of its i p -> forall j, path_of its j p -> i = j.
Proof.
  induction 1 as [i it H1 H2|i it k p H1 H2 H3 IH]; intros j Hj.
  - inversion Hj as [? jt A B E1 E2|? jt j' p' A B C E1 E2]; subst.
    + apply (Hs i j it jt); [assumption|assumption|lia|congruence].
    + exfalso. apply path_nonempty in C. destruct p'; [contradiction|]. destruct p'; discriminate.
  - remember (p ++ [i_name it]) as q eqn:Eq. inversion Hj as [? jt A B E1 E2|? jt j' p' A B C E1 E2]; subst.
    + exfalso. apply path_nonempty in H3. destruct p as [|x p]; [contradiction|]. destruct p; discriminate.
    + apply app_inj_tail in E2. destruct E2 as [-> En]. apply IH in C. subst j'.
      apply (Hs i j it jt); [assumption|assumption|lia|congruence].
Qed.

(** After the first [k] entries. *)
Definition placed (k : nat) (d : list (pystr * vnode)) : Prop :=
  (exists e, get_path [root_name] (VDir d) = Ok (VDir e)) /\
  (forall i it p, (i < k)%nat -> nth_error its i = Some it -> path_of its i p ->
     kind (get_path (root_name :: p) (VDir d)) = kind_of i it) /\
  (forall p x, p <> [] -> kind (get_path (root_name :: p) (VDir d)) = Some x ->
     exists i it, (i < k)%nat /\ nth_error its i = Some it /\ path_of its i p /\ Some x = kind_of i it).

Definition named_parent (i : nat) (pp : list pystr) : Prop := exists it, nth_error its i = Some it /\
    ((i_parent it = -1 /\ pp = [root_name]) \/
     exists j p, i_parent it = Z.of_nat j /\ path_of its j p /\ pp = root_name :: p).

Lemma named_path : forall i it p, nth_error its i = Some it -> named_parent i (root_name :: p) ->
  path_of its i (p ++ [i_name it]) /\ ((p = [] /\ i_parent it = -1) \/ exists j, i_parent it = Z.of_nat j /\ path_of its j p).
Proof.
  intros i it p Hit [it' [Hit' H]]. assert (it' = it) by congruence. subst it'. destruct H as [[H1 H2]|[j [q [H1 [H2 H3]]]]].
  - injection H2 as ->. split; [apply po_top; assumption|]. left. split; [reflexivity|exact H1].
  - assert (q = p) by congruence. subst q. split; [eapply po_sub; eassumption|]. right. exists j. split; assumption.
Qed.

Lemma extends_path : forall r i p, path_of its i (p ++ r) -> r <> [] -> p <> [] ->
  exists j, path_of its j p /\ (exists jt, nth_error its j = Some jt /\ i_dir jt = true) /\ (j < i)%nat.
Proof.
  induction r as [|x r IH] using rev_ind; intros i p H Hr Hp; [contradiction|].
  rewrite app_assoc in H. remember ((p ++ r) ++ [x]) as q eqn:Eq. inversion H as [? it A B E1 E2|? it j q' A B C E1 E2]; subst.
  - exfalso. destruct p as [|y p]; [contradiction|]. destruct p as [|z p]; [|discriminate]. destruct r; discriminate.
  - apply app_inj_tail in E2. destruct E2 as [-> _].
    destruct (Hd _ _ A) as [D|[j' [jt [D1 [D2 [D3 D4]]]]]]; [lia|]. assert (j' = j) by lia. subst j'.
    destruct r as [|y r].
    + rewrite app_nil_r in C. exists j. split; [exact C|]. split; [exists jt; split; assumption|exact D2].
    + destruct (IH _ _ C ltac:(discriminate) Hp) as [j2 [J1 [J2 J3]]]. exists j2. split; [exact J1|]. split; [exact J2|lia].
Qed.

Lemma place_step : forall k it pp d, nth_error its k = Some it -> named_parent k pp -> placed k d ->
  exists d', put_in pp (i_name it) (if i_dir it then VDir [] else VFile k) d = Ok d' /\ placed (S k) d'.
Proof.
  intros k it pp d Hit Hpp [[e0 P0] [P1 P2]].
  assert (Epp : exists p, pp = root_name :: p).
  { destruct Hpp as [it' [_ [[_ ->]|[j [p [_ [_ ->]]]]]]]; eexists; reflexivity. }
  destruct Epp as [p ->]. destruct (named_path _ _ _ Hit Hpp) as [Hp Hpar].
  assert (Hdir : exists e, get_path (root_name :: p) (VDir d) = Ok (VDir e)).
  { destruct Hpar as [[-> _]|[j [J1 J2]]]; [exists e0; exact P0|].
    destruct (Hd _ _ Hit) as [D|[j' [jt [D1 [D2 [D3 D4]]]]]]; [lia|]. assert (j' = j) by lia. subst j'.
    pose proof (P1 _ _ _ D2 D3 J2) as G. unfold kind_of in G. rewrite D4 in G.
    destruct (get_path (root_name :: p) (VDir d)) as [[i|e]|]; try discriminate. exists e. reflexivity. }
  destruct Hdir as [e He]. set (v := if i_dir it then VDir [] else VFile k).
  destruct (put_in_ok _ (i_name it) v d e He) as [d' [E [G1 G2]]]. exists d'. split; [exact E|].
  assert (Own : kind (get_path (root_name :: p ++ [i_name it]) (VDir d')) = kind_of k it).
  { change (root_name :: p ++ [i_name it]) with ((root_name :: p) ++ i_name it :: []). rewrite G1. unfold v, kind_of. destruct (i_dir it); reflexivity. }
  assert (Below : forall x r, kind (get_path (root_name :: p ++ i_name it :: x :: r) (VDir d')) = None).
  { intros x r. change (root_name :: p ++ i_name it :: x :: r) with ((root_name :: p) ++ i_name it :: x :: r). rewrite G1.
    unfold v. destruct (i_dir it); reflexivity. }
  assert (Dec : forall q, (exists r, q = p ++ i_name it :: r) \/ (forall r, q <> p ++ i_name it :: r)).
  { clear. intro q. destruct (list_eq_dec (list_eq_dec Z.eq_dec) (firstn (S (List.length p)) q) (p ++ [i_name it])) as [E|N].
    - left. exists (skipn (S (List.length p)) q). rewrite <- (firstn_skipn (S (List.length p)) q) at 1. rewrite E, <- app_assoc. reflexivity.
    - right. intros r ->. apply N. replace (p ++ i_name it :: r) with ((p ++ [i_name it]) ++ r) by (rewrite <- app_assoc; reflexivity).
      apply firstn_app_exact. rewrite app_length. cbn. lia. }
  assert (Other : forall q, (forall r, q <> p ++ i_name it :: r) ->
    kind (get_path (root_name :: q) (VDir d')) = kind (get_path (root_name :: q) (VDir d))).
  { intros q Hq. apply G2. intros r Hr. apply (Hq r). injection Hr as Hr. exact Hr. }
  split; [|split].
  - pose proof (G2 [root_name]) as G. rewrite P0 in G.
    destruct (get_path [root_name] (VDir d')) as [[i|e']|]; [| |]; try (exists e'; reflexivity); exfalso;
      assert (K : forall r, [root_name] <> (root_name :: p) ++ i_name it :: r) by (intros r K; injection K as K; destruct p; discriminate);
      specialize (G K); discriminate.
  - intros i it' q Hi Hit' Hq. destruct (Nat.eq_dec i k) as [->|N].
    + assert (it' = it) by congruence. subst it'. rewrite (path_fun _ _ Hq _ Hp). exact Own.
    + destruct (Dec q) as [[r ->]|Hn].
      * exfalso. destruct r as [|x r].
        -- apply N. apply (path_inj _ _ Hq). exact Hp.
        -- replace (p ++ i_name it :: x :: r) with ((p ++ [i_name it]) ++ x :: r) in Hq by (rewrite <- app_assoc; reflexivity).
           destruct (extends_path _ _ _ Hq) as [j [J1 [_ J3]]]; [discriminate|destruct p; discriminate|].
           pose proof (path_inj _ _ J1 _ Hp). lia.
      * rewrite Other by exact Hn. apply P1; [lia|assumption|assumption].
  - intros q x Hne Hx. destruct (Dec q) as [[r ->]|Hn].
    + destruct r as [|y r].
      * rewrite Own in Hx. exists k, it. split; [lia|]. split; [exact Hit|]. split; [exact Hp|congruence].
      * rewrite Below in Hx. discriminate.
    + rewrite Other in Hx by exact Hn. destruct (P2 _ _ Hne Hx) as [i [it' [A [B [C D]]]]].
      exists i, it'. split; [lia|]. split; [exact B|]. split; assumption.
Qed.

Lemma place_ok : forall l k paths d, (forall i, nth_error its (k + i) = nth_error l i) -> List.length paths = List.length l ->
  (forall i pp, nth_error paths i = Some pp -> named_parent (k + i) pp) -> placed k d ->
  exists d', place k l paths d = Ok d' /\ placed (k + List.length l) d'.
Proof.
  induction l as [|it l IH]; intros k paths d Hl Hlen Hpp Hpl.
  - exists d. split; [destruct paths; reflexivity|]. rewrite Nat.add_0_r. exact Hpl.
  - destruct paths as [|pp paths]; [discriminate|]. cbn [place].
    assert (Hit : nth_error its k = Some it). { pose proof (Hl O) as H. rewrite Nat.add_0_r in H. exact H. }
    assert (Hpk : named_parent k pp). { pose proof (Hpp O pp eq_refl) as H. rewrite Nat.add_0_r in H. exact H. }
    destruct (place_step k it pp d Hit Hpk Hpl) as [d1 [E1 H1]]. rewrite E1. cbn [bind].
    destruct (IH (S k) paths d1) as [d' [E' H']].
    + intro i. pose proof (Hl (S i)) as H. cbn [nth_error] in H. rewrite <- H. f_equal. lia.
    + cbn in Hlen. lia.
    + intros i q Hq. replace (S k + i)%nat with (k + S i)%nat by lia. apply Hpp. exact Hq.
    + exact H1.
    + exists d'. split; [exact E'|]. cbn [List.length]. replace (k + S (List.length l))%nat with (S k + List.length l)%nat by lia. exact H'.
Qed.
End Tree.

Lemma mapM_ok : forall A B (P : nat -> B -> Prop) (g : A -> res B) l k, (forall i x, nth_error l i = Some x -> exists y, g x = Ok y /\ P (k + i)%nat y) ->
  exists r, mapM g l = Ok r /\ List.length r = List.length l /\ forall i y, nth_error r i = Some y -> P (k + i)%nat y.
Proof.
  induction l as [|x l IH]; intros k H.
  - exists []. repeat split. intros [|i] y; discriminate.
  - destruct (H O x eq_refl) as [y [E Py]]. destruct (IH (S k)) as [r [Er [Lr Pr]]].
    { intros i z Hz. destruct (H (S i) z Hz) as [w [Ew Pw]]. exists w. split; [exact Ew|]. replace (S k + i)%nat with (k + S i)%nat by lia. exact Pw. }
    exists (y :: r). split; [cbn [mapM]; rewrite E; cbn [bind]; rewrite Er; reflexivity|]. split; [cbn; f_equal; exact Lr|].
    intros [|i] z Hz; cbn in Hz.
    + injection Hz as <-. exact Py.
    + replace (k + S i)%nat with (S k + i)%nat by lia. apply Pr. exact Hz.
Qed.

(** The tree holds each entry at its path, and nothing else. *)
Theorem C52_tree : forall its fuel, its <> [] -> dirs_first its -> siblings_differ its ->
  exists t d, flat_items (S fuel) its = Ok t /\ lookup root_name t = Some (VDir d) /\
    (forall i it p, nth_error its i = Some it -> path_of its i p -> kind (get_path p (VDir d)) = kind_of i it) /\
    (forall p x, p <> [] -> kind (get_path p (VDir d)) = Some x ->
       exists i it, nth_error its i = Some it /\ path_of its i p /\ Some x = kind_of i it).
Proof.
  intros its fuel Hne Hd Hs. unfold flat_items.
  destruct (extend_ok its Hd fuel) as [ps [-> [Lps Hps]]]. cbn [bind].
  destruct (mapM_ok _ _ (fun i pp => named_parent its i (rev pp)) (mapM (py_get (map i_name its ++ [root_name]))) ps 0) as [named [-> [Ln Hn]]].
  { intros i l Hl. destruct (parents_named its i l (Hps _ _ Hl)) as [pp [E G]]. exists pp. split; [exact E|exact G]. }
  cbn [bind].
  assert (E0 : place 0 its (map (@rev pystr) named) [] = place 0 its (map (@rev pystr) named) [(root_name, VDir [])]).
  { destruct its as [|it its']; [contradiction|]. destruct named as [|pp named']; [rewrite Lps in Ln; discriminate|].
    cbn [map place]. destruct (Hn O pp eq_refl) as [it' [Hit' [[_ ->]|[j [p [Hj [Hp _]]]]]]].
    - reflexivity. - exfalso. injection Hit' as <-. destruct (Hd O it eq_refl) as [D|[j' [jt [D1 [D2 _]]]]]; lia. }
  cbn [Nat.add] in Hn. rewrite E0.
  destruct (place_ok its Hd Hs its 0 (map (@rev pystr) named) [(root_name, VDir [])]) as [t [Et [[e Re] [R1 R2]]]].
  - intro i. reflexivity.
  - rewrite map_length. lia.
  - intros i pp Hi. rewrite nth_error_map in Hi. destruct (nth_error named i) as [q|] eqn:Eq; [|discriminate]. injection Hi as <-. apply Hn. exact Eq.
  - split; [exists []; reflexivity|]. split; [intros; lia|]. intros [|x p] y Hp Hx; [contradiction|discriminate].
  - rewrite Et. exists t. cbn [get_path] in Re. destruct (lookup root_name t) as [n|] eqn:El; [|discriminate].
    injection Re as ->. exists e. split; [reflexivity|]. split; [reflexivity|]. cbn [Nat.add get_path] in R1, R2. rewrite El in R1, R2. split.
    + intros i it p Hit Hp. apply R1; [apply nth_error_Some; rewrite Hit; discriminate|assumption|assumption].
    + intros p x Hp Hx. destruct (R2 p x Hp Hx) as [i [it [A [B [C D]]]]]. exists i, it. split; [exact B|split; assumption].
Qed.
Print Assumptions C52_tree.

Definition demo_items : list item := [mkItem 0 (-1) true (str "EDSDatabase") []; mkItem 9 0 false (str "HeaderData") [];
  mkItem 9 0 false (str "SpectrumData0") []; mkItem 0 0 true (str "root") []; mkItem 9 3 false (str "HeaderData") []].
Example C52_example : dirs_first demo_items /\ siblings_differ demo_items /\
  (let! t := flat_items 3 demo_items in get_path [root_name; str "EDSDatabase"; str "root"; str "HeaderData"] (VDir t)) = Ok (VFile 4) /\
  (let! t := flat_items 3 demo_items in get_path [root_name; str "EDSDatabase"; str "HeaderData"] (VDir t)) = Ok (VFile 1).
Proof.
  split; [|split; [|split; reflexivity]].
  - intros i it H. destruct i as [|[|[|[|[|i]]]]]; cbn in H; try discriminate; try (injection H as <-); try (left; reflexivity); try (destruct i; discriminate); right.
    + exists 0%nat. eexists. repeat split. lia. + exists 0%nat. eexists. repeat split. lia. + exists 0%nat. eexists. repeat split. lia.
    + exists 3%nat. eexists. repeat split. lia.
  - intros i j it jt H1 H2 E1 E2.
    destruct i as [|[|[|[|[|i]]]]]; cbn in H1; try (destruct i; discriminate); injection H1 as <-;
    destruct j as [|[|[|[|[|j]]]]]; cbn in H2; try (destruct j; discriminate); injection H2 as <-; try reflexivity; try discriminate.
Qed.

(** A directory listed after its content replaces it with nothing. *)
Theorem C52_late_directory_refuted : exists its t d,
  its = [mkItem 9 1 false (str "HeaderData") []; mkItem 0 (-1) true (str "EDSDatabase") []] /\
  path_of its 0 [str "EDSDatabase"; str "HeaderData"] /\ siblings_differ its /\
  flat_items 3 its = Ok t /\ lookup root_name t = Some (VDir d) /\
  get_path [str "EDSDatabase"; str "HeaderData"] (VDir d) = Err KeyError.
Proof.
  do 3 eexists. split; [reflexivity|]. split.
  { apply (po_sub _ 0 (mkItem 9 1 false (str "HeaderData") []) 1 [str "EDSDatabase"]); [reflexivity|reflexivity|].
    apply (po_top _ 1 (mkItem 0 (-1) true (str "EDSDatabase") [])); reflexivity. }
  split.
  { intros i j it jt H1 H2 E1 E2.
    destruct i as [|[|i]]; cbn in H1; try (destruct i; discriminate); injection H1 as <-;
    destruct j as [|[|j]]; cbn in H2; try (destruct j; discriminate); injection H2 as <-; try reflexivity; try discriminate. }
  split; [reflexivity|]. split; reflexivity.
Qed.
Print Assumptions C52_late_directory_refuted.

(** * A whole container, opened and read *)
Definition demo_chunk (l : list Z) : list Z := le 4 0 ++ repeat 0 28 ++ l ++ repeat 0 (1056 - List.length l).
Definition demo_sfs : list Z := (* chunks of 1088 bytes: table, pointers, data, data *)
  str "AAMVHFSS" ++ repeat 0 272 ++
  le 4 0 ++ repeat 0 8 ++ le 4 0 ++ le 4 1088 ++ repeat 0 20 ++ le 4 1 ++ le 4 2 ++ le 4 4 ++ repeat 0 1036 ++
  demo_chunk (sfs_entry (-1) true 0 0 (str "EDSDatabase") ++ sfs_entry 0 false 1060 2 (str "HeaderData")) ++
  demo_chunk (le 4 4 ++ le 4 3) ++ demo_chunk [7; 8; 9; 10] ++ demo_chunk (repeat 5 1056).
Example sfs_example :
  (let! (cs, v) := sfs_open 5 demo_sfs in
   let! n := get_path (split_char 47 (str "EDSDatabase/HeaderData")) (VDir (v_root v)) in
   match n with
   | VFile i => let! it := py_get (v_items v) (Z.of_nat i) in file_chunks Ok demo_sfs cs (v_zlib v) it
   | VDir _ => Err TypeError
   end) = Ok ([repeat 5 1056; [7; 8; 9; 10]], 1056).
Proof. vm_compute. reflexivity. Qed.
