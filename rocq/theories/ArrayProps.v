(** Properties C11, C12, C13: RGB arrays, ragged arrays, automatic chunks. *)
From Verif Require Import Base ArrayModel.

(** * C11 *)
(** A well-formed array has as many elements as its shape says. *)
Definition wf_regular (a : regular) : Prop :=
  Forall (Z.le 0) (r_shape a) /\ Z.of_nat (List.length (r_flat a)) = prodZ (r_shape a).
Definition wf_rgbx (x : rgbx) : Prop :=
  Forall (Z.le 0) (x_shape x) /\ Z.of_nat (List.length (x_flat x)) = prodZ (x_shape x) /\
  (x_fields x = 3 \/ x_fields x = 4)%nat /\ Forall (fun p => List.length p = x_fields x) (x_flat x).

Lemma prodZ_app : forall a b, prodZ (a ++ b) = prodZ a * prodZ b.
Proof.
  unfold prodZ. induction a as [|x a IH]; intros b; cbn [app fold_right]; [lia|rewrite IH; ring].
Qed.

Lemma prodZ_nonneg : forall l, Forall (Z.le 0) l -> 0 <= prodZ l.
Proof.
  unfold prodZ. induction l as [|x l IH]; intros H; cbn [fold_right]; [lia|].
  inversion H; subst. specialize (IH H3). nia.
Qed.

Lemma groups_concat : forall c n l, List.length l = (c * n)%nat -> List.concat (groups c n l) = l.
Proof.
  induction n as [|n IH]; intros l H; cbn [groups List.concat].
  - destruct l; [reflexivity|]. cbn in H. lia.
  - rewrite IH; [apply firstn_skipn|]. rewrite skipn_length. lia.
Qed.

Lemma concat_groups : forall c ps, Forall (fun p => List.length p = c) ps ->
  groups c (List.length ps) (List.concat ps) = ps.
Proof.
  induction ps as [|p ps IH]; intros H; [reflexivity|].
  inversion H as [|? ? Hp Hps]; subst. cbn [List.length List.concat groups].
  rewrite firstn_app, firstn_all, Nat.sub_diag, skipn_app, skipn_all, Nat.sub_diag.
  cbn [firstn skipn app]. rewrite app_nil_r. f_equal. apply IH. assumption.
Qed.

(** Converting to RGB(A) and back gives the same array... *)
Theorem C11_regular_round_trip : forall dt nav c flat,
  (c = 3 \/ c = 4) -> dt <> Other -> wf_regular (Regular dt (nav ++ [c]) flat) ->
  exists x, regular_array2rgbx (Regular dt (nav ++ [c]) flat) = Ok x /\
    x_shape x = nav /\ wf_rgbx x /\ rgbx2regular_array x = Regular dt (nav ++ [c]) flat.
Proof.
  intros dt nav c flat Hc Hdt [Hs Hl]. cbn [r_shape r_flat] in *.
  unfold regular_array2rgbx. cbn [r_shape r_dtype r_flat].
  rewrite rev_app_distr. cbn [rev app].
  destruct ((c =? 3) || (c =? 4)) eqn:E; [|lia]. rewrite rev_involutive.
  rewrite prodZ_app in Hl. apply Forall_app in Hs. destruct Hs as [Hs _].
  pose proof (prodZ_nonneg _ Hs) as P.
  assert (L : List.length flat = (Z.to_nat c * Z.to_nat (prodZ nav))%nat).
  { unfold prodZ in Hl at 2. cbn [fold_right] in Hl. nia. }
  set (x := Rgbx dt (Z.to_nat c) nav (groups (Z.to_nat c) (Z.to_nat (prodZ nav)) flat)).
  exists x. split; [destruct dt; [reflexivity|reflexivity|congruence]|].
  split; [reflexivity|]. split.
  - repeat split; cbn [x x_shape x_flat x_fields]; [exact Hs| |lia|].
    + assert (G : forall n l, List.length (groups (Z.to_nat c) n l) = n)
        by (induction n as [|n IH]; intros; cbn [groups List.length]; [reflexivity|rewrite IH; reflexivity]).
      rewrite G. lia.
    + clear Hl P x. revert flat L. induction (Z.to_nat (prodZ nav)) as [|n IH]; intros flat L; cbn [groups]; constructor.
      * rewrite firstn_length. lia.
      * apply IH. rewrite skipn_length. lia.
  - unfold rgbx2regular_array, x. cbn [x_dtype x_shape x_fields x_flat].
    rewrite groups_concat by exact L. rewrite Z2Nat.id by lia. reflexivity.
Qed.
Print Assumptions C11_regular_round_trip.

(** ... and the other way round. *)
Theorem C11_rgb_round_trip : forall x, wf_rgbx x -> x_dtype x <> Other ->
  regular_array2rgbx (rgbx2regular_array x) = Ok x.
Proof.
  intros [dt c sh ps] [Hs [Hl [Hc Hp]]] Hdt. cbn [x_dtype x_fields x_shape x_flat] in *.
  unfold regular_array2rgbx, rgbx2regular_array. cbn [r_shape r_dtype r_flat x_dtype x_fields x_shape x_flat].
  rewrite rev_app_distr. cbn [rev app].
  destruct ((Z.of_nat c =? 3) || (Z.of_nat c =? 4)) eqn:E; [|lia].
  rewrite rev_involutive, Nat2Z.id, <- Hl, Nat2Z.id, concat_groups by exact Hp.
  destruct dt; [reflexivity|reflexivity|congruence].
Qed.
Print Assumptions C11_rgb_round_trip.

(** Nothing else is accepted: only unsigned 8 and 16 bit arrays whose last axis has length
    three or four are converted. *)
Theorem C11_accepted : forall a x, regular_array2rgbx a = Ok x ->
  exists nav c, r_shape a = nav ++ [c] /\ (c = 3 \/ c = 4) /\ (r_dtype a = U1 \/ r_dtype a = U2).
Proof.
  intros [dt sh flat] x H. unfold regular_array2rgbx in H. cbn [r_shape r_dtype r_flat] in *.
  destruct (rev sh) as [|c nav] eqn:E; [discriminate|]. destruct ((c =? 3) || (c =? 4)) eqn:Ec; [|discriminate].
  exists (rev nav), c. split; [rewrite <- (rev_involutive sh), E; reflexivity|]. split; [lia|].
  destruct dt; auto; discriminate.
Qed.
Print Assumptions C11_accepted.

Example C11_example :
  wf_regular (Regular U2 [2; 3] [1; 2; 3; 65535; 0; 7]) /\
  regular_array2rgbx (Regular U2 [2; 3] [1; 2; 3; 65535; 0; 7])
  = Ok (Rgbx U2 3 [2] [[1; 2; 3]; [65535; 0; 7]]).
Proof. split; [split; [repeat constructor; lia|reflexivity]|reflexivity]. Qed.

(** * C12 *)
Definition wf_cell (c : cell) : Prop := prodZ (c_shape c) = Z.of_nat (List.length (c_flat c)).

(** Ragged arrays whose cells all have the same element type survive storage. *)
Theorem C12_ragged_round_trip : forall x b,
  Forall wf_cell x -> Forall (fun c => c_int c = b) x -> ragged_round_trip x = Ok x.
Proof.
  intros x b Hw Hb. unfold ragged_round_trip, flatten_data.
  set (fl := map (fun c => Cell (c_int c) [Z.of_nat (List.length (c_flat c))] (c_flat c)) x).
  assert (S : store_ragged fl = fl).
  { unfold store_ragged. destruct fl as [|c0 fl'] eqn:E; [reflexivity|].
    assert (B : Forall (fun c => c_int c = b) (c0 :: fl')).
    { rewrite <- E. unfold fl. apply Forall_map. exact Hb. }
    assert (B0 : c_int c0 = b) by (inversion B; assumption).
    rewrite B0. clear E B0. induction B as [|c l Hc _ IH]; [reflexivity|].
    cbn [map]. rewrite IH. f_equal. destruct c as [ci sh f]. cbn [c_int c_shape c_flat] in *. subst ci.
    destruct b; reflexivity. }
  rewrite S. clear S. unfold fl. clear fl Hb.
  induction Hw as [|c x Hc _ IH]; [reflexivity|].
  cbn [map unflatten_data]. unfold reshape at 1. cbn [c_flat c_int].
  unfold wf_cell in Hc. rewrite Hc, Z.eqb_refl. cbn [bind]. rewrite IH. cbn [bind].
  destruct c; reflexivity.
Qed.
Print Assumptions C12_ragged_round_trip.

Example C12_example :
  Forall wf_cell [Cell true [2; 2] [1024; 2048; 0; 0]; Cell true [0] []; Cell true [] [5120]] /\
  ragged_round_trip [Cell true [2; 2] [1024; 2048; 0; 0]; Cell true [0] []; Cell true [] [5120]]
  = Ok [Cell true [2; 2] [1024; 2048; 0; 0]; Cell true [0] []; Cell true [] [5120]].
Proof. split; [repeat constructor|reflexivity]. Qed.

(** With an integer cell first, the float cells are truncated: here 1.5 becomes 1. *)
Theorem C12_mixed_types_refuted : exists x, Forall wf_cell x /\ ragged_round_trip x <> Ok x.
Proof.
  exists [Cell true [1] [1024]; Cell false [1] [1536]]. split; [repeat constructor|].
  vm_compute. discriminate.
Qed.
Print Assumptions C12_mixed_types_refuted.

(** * C13 *)
Section ChunkProofs.
Variable root : Z -> Z -> Z -> Z.
(** The floating point root does not exceed the true root of n/d and is at least one for
    n >= d. *)
Hypothesis root_le : forall n d k, 0 < n -> 0 < d -> 0 < k -> 0 <= root n d k -> root n d k ^ k * d <= n.
Hypothesis root_ge1 : forall n d k, 0 < d -> d <= n -> 0 < k -> 1 <= root n d k.

(** Pairs of axis index and size. *)
Fixpoint indexed (i : Z) (shape : list Z) : list (Z * Z) :=
  match shape with [] => [] | s :: sh => (i, s) :: indexed (i + 1) sh end.

Lemma select_indexed : forall f shape i,
  select f i shape = map snd (filter (fun p => f (fst p)) (indexed i shape)).
Proof.
  induction shape as [|s shape IH]; intros i; [reflexivity|].
  cbn [select indexed filter fst]. rewrite IH. destruct (f i); reflexivity.
Qed.

Lemma indexed_ge : forall shape i p, In p (indexed i shape) -> i <= fst p.
Proof.
  induction shape as [|s shape IH]; intros i p H; [contradiction|].
  destruct H as [<-|H]; cbn [fst]; [lia|]. specialize (IH _ _ H). lia.
Qed.

Lemma indexed_NoDup : forall shape i, NoDup (map fst (indexed i shape)).
Proof.
  induction shape as [|s shape IH]; intros i; cbn [indexed map]; constructor.
  - intro K. apply in_map_iff in K. destruct K as [p [E H]]. apply indexed_ge in H. cbn [fst] in E. lia.
  - apply IH.
Qed.

Lemma indexed_snd : forall shape i, map snd (indexed i shape) = shape.
Proof. induction shape as [|s shape IH]; intros i; cbn [indexed map snd]; [reflexivity|rewrite IH; reflexivity]. Qed.

Lemma memb_app : forall i a b, memb i (a ++ b) = memb i a || memb i b.
Proof. intros. unfold memb. apply existsb_app. Qed.

Lemma memb_In : forall i l, memb i l = true <-> In i l.
Proof.
  intros i l. unfold memb. rewrite existsb_exists. split.
  - intros [x [H E]]. apply Z.eqb_eq in E. subst. exact H.
  - intro H. exists i. split; [exact H|apply Z.eqb_refl].
Qed.

Section Loop.
Variable is_sig : Z -> bool.
Definition remp (idx : list Z) (p : Z * Z) : bool := negb (is_sig (fst p) || memb (fst p) idx).
Definition smallp (nac : Z) (idx : list Z) (p : Z * Z) : bool := remp idx p && (snd p <? nac).

Lemma add_small_spec : forall nac shape i idx0 idx sizes it,
  (forall j, i <= j -> memb j idx = memb j idx0) ->
  let l := filter (smallp nac idx0) (indexed i shape) in
  add_small nac is_sig i shape idx sizes it
  = (idx ++ map fst l, sizes ++ map snd l, it || match l with [] => false | _ => true end).
Proof.
  intros nac. induction shape as [|s shape IH]; intros i idx0 idx sizes it H; cbn [indexed filter add_small].
  - cbn [map]. rewrite !app_nil_r, orb_false_r. reflexivity.
  - assert (Es : smallp nac idx0 (i, s) = negb (is_sig i || memb i idx0) && (s <? nac)) by reflexivity.
    rewrite Es, (H i) by lia. clear Es.
    destruct (negb (is_sig i || memb i idx0) && (s <? nac)) eqn:E.
    + rewrite (IH (i + 1) idx0).
      * cbn [map fst snd]. rewrite <- !app_assoc. cbn [app orb]. destruct it; reflexivity.
      * intros j Hj. rewrite memb_app, (H j) by lia. unfold memb at 2. cbn [existsb].
        destruct (j =? i) eqn:K; [lia|]. destruct (memb j idx0); reflexivity.
    + apply IH. intros j Hj. apply H. lia.
Qed.

Lemma remp_after : forall nac idx pairs p, NoDup (map fst pairs) -> In p pairs ->
  remp (idx ++ map fst (filter (smallp nac idx) pairs)) p = remp idx p && negb (snd p <? nac).
Proof.
  intros nac idx pairs p Hnd Hp. unfold remp at 1. rewrite memb_app.
  assert (M : memb (fst p) (map fst (filter (smallp nac idx) pairs)) = smallp nac idx p).
  { destruct (smallp nac idx p) eqn:E.
    - apply memb_In. apply in_map. apply filter_In. split; assumption.
    - destruct (memb (fst p) _) eqn:K; [|reflexivity]. exfalso.
      apply memb_In in K. apply in_map_iff in K. destruct K as [q [Eq Hq]].
      apply filter_In in Hq. destruct Hq as [Hq Sq].
      assert (q = p); [|congruence].
      clear - Hnd Hp Hq Eq. induction pairs as [|r pairs IH]; [contradiction|].
      cbn [map] in Hnd. inversion Hnd; subst.
      destruct Hp as [<-|Hp], Hq as [<-|Hq]; auto.
      + exfalso. apply H1. rewrite <- Eq. apply in_map. exact Hq.
      + exfalso. apply H1. rewrite Eq. apply in_map. exact Hp. }
  rewrite M. unfold smallp, remp.
  destruct (is_sig (fst p)), (memb (fst p) idx), (snd p <? nac); reflexivity.
Qed.

Lemma prodZ_filter_split : forall (f g : Z * Z -> bool) pairs,
  prodZ (map snd (filter f pairs)) =
  prodZ (map snd (filter (fun p => f p && g p) pairs)) * prodZ (map snd (filter (fun p => f p && negb (g p)) pairs)).
Proof.
  induction pairs as [|p pairs IH]; [reflexivity|].
  cbn [filter]. destruct (f p), (g p); cbn [andb negb map]; cbn [prodZ fold_right] in *; unfold prodZ in *; cbn [fold_right]; rewrite IH; ring.
Qed.

Lemma length_filter_split : forall (f g : Z * Z -> bool) pairs,
  List.length (filter f pairs) =
  (List.length (filter (fun p => f p && g p) pairs) + List.length (filter (fun p => f p && negb (g p)) pairs))%nat.
Proof.
  induction pairs as [|p pairs IH]; [reflexivity|].
  cbn [filter]. destruct (f p), (g p); cbn [andb negb List.length]; lia.
Qed.

Lemma prodZ_pow_bound : forall l b, Forall (fun x => 1 <= x < b) l ->
  1 <= prodZ l <= b ^ Z.of_nat (List.length l) /\ (l <> [] -> prodZ l < b ^ Z.of_nat (List.length l)).
Proof.
  induction l as [|x l IH]; intros b H.
  - cbn. split; [lia|congruence].
  - inversion H as [|? ? Hx Hl]; subst. destruct (IH b Hl) as [[A B] _].
    unfold prodZ in *. cbn [fold_right List.length]. rewrite Nat2Z.inj_succ, Z.pow_succ_r by lia.
    split; [nia|]. intros _. nia.
Qed.

Lemma pos_factors : forall l, Forall (Z.le 0) l -> 0 < prodZ l -> Forall (fun x => 1 <= x) l.
Proof.
  induction l as [|x l IH]; intros H P; constructor; inversion H as [|? ? Hx Hl]; subst;
    unfold prodZ in P; cbn [fold_right] in P; fold (prodZ l) in P; pose proof (prodZ_nonneg l Hl); [nia|].
  apply IH; [assumption|nia].
Qed.

Variable shape : list Z.
Variable spc : Z.
Hypothesis Hspc : 2 <= spc.
Hypothesis Hsz : Forall (Z.le 0) shape.
Let pairs := indexed 0 shape.
Let nav := map snd (filter (fun p => negb (is_sig (fst p))) pairs).
Hypothesis Hfit : spc <= prodZ nav.

Lemma pair_size : forall p, In p pairs -> 0 <= snd p.
Proof.
  intros p H. assert (K : In (snd p) (map snd pairs)) by (apply in_map; exact H).
  unfold pairs in K. rewrite indexed_snd in K. rewrite Forall_forall in Hsz. apply Hsz. exact K.
Qed.

Lemma nav_size : forall p, In p pairs -> is_sig (fst p) = false -> 1 <= snd p.
Proof.
  intros p H Hs.
  assert (F : Forall (fun x => 1 <= x) nav).
  { apply pos_factors; [|lia]. apply Forall_forall. intros x Hx. apply in_map_iff in Hx.
    destruct Hx as [q [<- Hq]]. apply filter_In in Hq. apply pair_size. apply Hq. }
  rewrite Forall_forall in F. apply F. apply in_map. apply filter_In. split; [exact H|]. rewrite Hs. reflexivity.
Qed.

Lemma chunk_loop_spec : forall fuel idx sizes,
  let rem := filter (remp idx) pairs in
  (List.length rem < fuel)%nat -> (0 < List.length rem)%nat ->
  Z.of_nat (List.length nav) - Z.of_nat (List.length sizes) = Z.of_nat (List.length rem) ->
  1 <= prodZ sizes <= spc -> prodZ nav = prodZ sizes * prodZ (map snd rem) ->
  (forall j, In j idx -> is_sig j = false) ->
  exists nac small, chunk_loop root fuel spc (Z.of_nat (List.length nav)) is_sig shape idx sizes = Ok (nac, small) /\
    1 <= nac /\ (forall j, In j small -> is_sig j = false) /\
    Forall (fun p => nac <= snd p) (filter (remp small) pairs) /\
    exists sizes', prodZ nav = prodZ sizes' * prodZ (map snd (filter (remp small) pairs)) /\
      1 <= prodZ sizes' /\
      nac ^ Z.of_nat (List.length (filter (remp small) pairs)) * prodZ sizes' <= spc.
Proof.
  induction fuel as [|fuel IH]; intros idx sizes rem Hfuel Hne Hk Hp Hprod Hidx; [lia|].
  cbn [chunk_loop]. rewrite Hk. destruct (Z.of_nat (List.length rem) =? 0) eqn:E0; [lia|]. clear E0.
  set (k := Z.of_nat (List.length rem)) in *.
  assert (N1 : 1 <= root spc (prodZ sizes) k) by (apply root_ge1; lia).
  assert (NP : root spc (prodZ sizes) k ^ k * prodZ sizes <= spc) by (apply root_le; lia).
  set (nac := root spc (prodZ sizes) k) in *. clearbody nac.
  rewrite (add_small_spec nac shape 0 idx) by auto. fold pairs.
  set (l := filter (smallp nac idx) pairs).
  set (idx' := idx ++ map fst l).
  assert (R' : filter (remp idx') pairs = filter (fun p => remp idx p && negb (snd p <? nac)) pairs).
  { apply filter_ext_in. intros p Hpp. unfold idx', l. apply remp_after; [apply indexed_NoDup|exact Hpp]. }
  assert (Sp : prodZ (map snd rem) = prodZ (map snd l) * prodZ (map snd (filter (remp idx') pairs))).
  { rewrite R'. unfold rem, l, smallp. apply prodZ_filter_split. }
  assert (Sl : List.length rem = (List.length l + List.length (filter (remp idx') pairs))%nat).
  { rewrite R'. unfold rem, l, smallp. apply length_filter_split. }
  assert (Lb : Forall (fun x => 1 <= x < nac) (map snd l)).
  { apply Forall_forall. intros x Hx. apply in_map_iff in Hx. destruct Hx as [p [<- Hpp]].
    apply filter_In in Hpp. destruct Hpp as [Hin Hs]. unfold smallp, remp in Hs.
    split; [|lia]. apply nav_size; [exact Hin|]. destruct (is_sig (fst p)); [discriminate Hs|reflexivity]. }
  destruct (prodZ_pow_bound _ _ Lb) as [[PL1 PL2] PL3]. rewrite map_length in PL2, PL3.
  destruct l as [|p0 l'] eqn:El.
  - (* finished *)
    cbn [orb].
    assert (I : idx' = idx) by (unfold idx'; cbn [map]; apply app_nil_r).
    rewrite I in *.
    exists nac, idx. split; [reflexivity|]. split; [exact N1|]. split; [exact Hidx|]. split.
    + rewrite R'. apply Forall_forall. intros p Hpp. apply filter_In in Hpp. lia.
    + exists sizes. split; [exact Hprod|]. split; [lia|]. exact NP.
  - cbn [orb]. rewrite <- El in *.
    assert (Lne : (0 < List.length l)%nat) by (rewrite El; cbn; lia).
    assert (PLs : prodZ (map snd l) < nac ^ Z.of_nat (List.length l)) by (apply PL3; rewrite El; discriminate).
    fold idx'.
    assert (Mono : nac ^ Z.of_nat (List.length l) <= nac ^ k) by (apply Z.pow_le_mono_r; lia).
    assert (PS : prodZ (sizes ++ map snd l) = prodZ sizes * prodZ (map snd l)) by apply prodZ_app.
    assert (Left : (0 < List.length (filter (remp idx') pairs))%nat).
    { destruct (filter (remp idx') pairs) as [|q r] eqn:Er; [exfalso|cbn; lia].
      change (prodZ (map snd [])) with 1 in Sp. nia. }
    destruct (IH idx' (sizes ++ map snd l)) as [nac' [small [A [B [C [D F]]]]]].
    + lia.
    + exact Left.
    + rewrite app_length, map_length. lia.
    + rewrite PS. nia.
    + rewrite PS, Hprod, Sp. ring.
    + intros j Hj. unfold idx' in Hj. apply in_app_or in Hj. destruct Hj as [Hj|Hj]; [apply Hidx; exact Hj|].
      apply in_map_iff in Hj. destruct Hj as [p [<- Hpp]].
      assert (Hpp' : In p (filter (smallp nac idx) pairs)) by (fold l; try rewrite El; exact Hpp).
      apply filter_In in Hpp'. destruct Hpp' as [_ Hs].
      unfold smallp, remp in Hs. destruct (is_sig (fst p)); [discriminate Hs|reflexivity].
    + exists nac', small. split; [exact A|]. auto.
Qed.
End Loop.

Definition fits (shape chunks : list Z) : Prop := Forall2 (fun s c => c <= s /\ (1 <= s -> 1 <= c)) shape chunks.

Lemma mapi_indexed : forall A (f : Z -> Z -> A) shape i, mapi f i shape = map (fun p => f (fst p) (snd p)) (indexed i shape).
Proof. induction shape as [|s shape IH]; intros i; cbn [mapi indexed map fst snd]; [reflexivity|rewrite IH; reflexivity]. Qed.

Lemma Forall2_mapi : forall (P : Z -> Z -> Prop) f shape i,
  (forall p, In p (indexed i shape) -> P (snd p) (f (fst p) (snd p))) -> Forall2 P shape (mapi f i shape).
Proof.
  induction shape as [|s shape IH]; intros i H; cbn [mapi]; constructor.
  - apply (H (i, s)). left. reflexivity.
  - apply IH. intros p Hp. apply H. right. exact Hp.
Qed.

Lemma memb_neg : forall small j, (forall i, In i small -> False) -> memb j small = false.
Proof.
  intros small j H. destruct (memb j small) eqn:E; [|reflexivity]. apply memb_In in E. destruct (H j E).
Qed.

Lemma prod_mapi : forall (sig small : Z -> bool) nac pairs,
  (forall p, In p pairs -> small (fst p) = true -> sig (fst p) = false) ->
  prodZ (map (fun p => if sig (fst p) || small (fst p) then snd p else nac) pairs)
  = prodZ (map snd (filter (fun p => sig (fst p)) pairs))
    * prodZ (map snd (filter (fun p => negb (sig (fst p)) && small (fst p)) pairs))
    * nac ^ Z.of_nat (List.length (filter (fun p => negb (sig (fst p) || small (fst p))) pairs)).
Proof.
  induction pairs as [|p pairs IH]; intros H; [reflexivity|].
  assert (H' : forall q, In q pairs -> small (fst q) = true -> sig (fst q) = false) by (intros; apply H; [right|]; assumption).
  specialize (IH H'). cbn [map filter].
  destruct (sig (fst p)) eqn:E1, (small (fst p)) eqn:E2; cbn [orb andb negb map List.length];
    unfold prodZ in *; cbn [fold_right]; rewrite IH; try ring.
  rewrite Nat2Z.inj_succ, Z.pow_succ_r by lia. ring.
Qed.

Theorem chunks_spec : forall shape typesize signal_axes target,
  Forall (Z.le 0) shape -> 0 < typesize -> 0 <= target ->
  0 < prodZ (select (fun i => memb i signal_axes) 0 shape) ->
  (shape = [0] /\ get_signal_chunks root shape typesize signal_axes target = Ok None) \/
  exists chunks, get_signal_chunks root shape typesize signal_axes target = Ok (Some chunks) /\
    Forall2 (fun s c => c <= s \/ (s = 0 /\ c = 1)) shape chunks /\
    Forall2 (fun s c => 1 <= s -> 1 <= c) shape chunks /\
    (forall i, memb i signal_axes = true -> forall s, nth_error shape (Z.to_nat i) = Some s -> 0 <= i ->
       nth_error chunks (Z.to_nat i) = Some s) /\
    (2 <= target / (prodZ (select (fun i => memb i signal_axes) 0 shape) * typesize) ->
       (exists i, 0 <= i < Z.of_nat (List.length shape) /\ memb i signal_axes = false) ->
       prodZ chunks * typesize <= target).
Proof.
  intros shape typesize signal_axes target Hsz Hts Htg Hsig.
  set (is_sig := fun i => memb i signal_axes) in *.
  set (pairs := indexed 0 shape).
  assert (NS : forall f : Z -> Z -> Z, (forall i s, is_sig i = true -> f i s = s) ->
     forall i, memb i signal_axes = true -> forall s, nth_error shape (Z.to_nat i) = Some s -> 0 <= i ->
       nth_error (mapi f 0 shape) (Z.to_nat i) = Some s).
  { intros f Hf. assert (G : forall sh i0 i, is_sig i = true -> i0 <= i -> forall s,
        nth_error sh (Z.to_nat (i - i0)) = Some s -> nth_error (mapi f i0 sh) (Z.to_nat (i - i0)) = Some s).
    { induction sh as [|s0 sh IH]; intros i0 i Hi Hle s Hn; [destruct (Z.to_nat (i - i0)); discriminate|].
      destruct (Z.eq_dec i i0) as [->|K].
      - rewrite Z.sub_diag in *. cbn [Z.to_nat nth_error mapi] in *. rewrite Hf by exact Hi. exact Hn.
      - replace (Z.to_nat (i - i0)) with (S (Z.to_nat (i - (i0 + 1)))) in * by lia.
        cbn [mapi nth_error] in *. apply IH; [exact Hi|lia|exact Hn]. }
    intros i Hi s Hn H0. specialize (G shape 0 i Hi H0 s). rewrite Z.sub_0_r in G. apply G. exact Hn. }
  assert (D : shape = [0] \/ shape <> [0]).
  { destruct (list_eq_dec Z.eq_dec shape [0]); auto. }
  destruct D as [->|Hn0]; [left; split; reflexivity|]. right.
  assert (U : get_signal_chunks root shape typesize signal_axes target =
    let bytes_per_signal := prodZ (select is_sig 0 shape) * typesize in
    if bytes_per_signal =? 0 then Err OverflowError
    else
      let spc := target / bytes_per_signal in
      let nav := select (fun i => negb (is_sig i)) 0 shape in
      let nnav := Z.of_nat (List.length nav) in
      if (spc <? 2) || (nnav =? 0) then
        Ok (Some (mapi (fun i s => if is_sig i then s else 1) 0 shape))
      else if prodZ nav <? spc then Ok (Some shape)
      else
        let! (nac, small) := chunk_loop root (S (List.length shape)) spc nnav is_sig shape [] [] in
        Ok (Some (mapi (fun i s => if is_sig i || memb i small then s else nac) 0 shape))).
  { unfold get_signal_chunks. destruct shape as [|z [|z' sh]]; [reflexivity| |destruct z; reflexivity].
    destruct z; [congruence|reflexivity|reflexivity]. }
  rewrite U. clear U. cbv zeta.
  set (sigp := prodZ (select is_sig 0 shape)) in *.
  assert (Bpos : 0 < sigp * typesize) by nia.
  destruct (sigp * typesize =? 0) eqn:EB; [lia|]. clear EB.
  set (spc := target / (sigp * typesize)).
  assert (SpcT : spc * (sigp * typesize) <= target) by (unfold spc; nia).
  clearbody spc.
  rewrite (select_indexed (fun i => negb (is_sig i)) shape 0). fold pairs.
  set (nav := map snd (filter (fun p => negb (is_sig (fst p))) pairs)).
  destruct ((spc <? 2) || (Z.of_nat (List.length nav) =? 0)) eqn:E1.
  - exists (mapi (fun i s => if is_sig i then s else 1) 0 shape). split; [reflexivity|]. split; [|split; [|split]].
    + apply Forall2_mapi. intros p Hp. assert (0 <= snd p).
      { assert (In (snd p) shape) by (rewrite <- (indexed_snd shape 0); apply in_map; exact Hp).
        rewrite Forall_forall in Hsz. apply Hsz. assumption. }
      destruct (is_sig (fst p)); lia.
    + apply Forall2_mapi. intros p Hp. destruct (is_sig (fst p)); lia.
    + apply NS. intros i s Hi. rewrite Hi. reflexivity.
    + intros H2 [i [Hi Hns]]. exfalso.
      assert (In (nth (Z.to_nat i) (map snd pairs) 0) nav); [|destruct nav; [contradiction|cbn in E1; lia]].
      unfold nav. apply in_map_iff.
      assert (G : forall sh i0 k, (k < List.length sh)%nat -> In (i0 + Z.of_nat k, nth k sh 0) (indexed i0 sh)).
      { induction sh as [|s sh IH]; intros i0 k Hk; [cbn in Hk; lia|].
        destruct k as [|k]; cbn [indexed nth]; [left; f_equal; lia|]. right.
        replace (i0 + Z.of_nat (S k)) with (i0 + 1 + Z.of_nat k) by lia. apply IH. cbn in Hk. lia. }
      specialize (G shape 0 (Z.to_nat i) ltac:(lia)). exists (0 + Z.of_nat (Z.to_nat i), nth (Z.to_nat i) shape 0).
      split; [cbn [snd]; unfold pairs; rewrite indexed_snd; reflexivity|].
      apply filter_In. split; [exact G|]. cbn [fst]. replace (0 + Z.of_nat (Z.to_nat i)) with i by lia.
      unfold is_sig. rewrite Hns. reflexivity.
  - destruct (prodZ nav <? spc) eqn:E2.
    + exists shape. split; [reflexivity|]. split; [|split; [|split]].
      * clear. induction shape as [|s sh IH]; constructor; [lia|exact IH].
      * clear. induction shape as [|s sh IH]; constructor; [lia|exact IH].
      * auto.
      * intros _ _.
        assert (P : prodZ shape = sigp * prodZ nav).
        { unfold sigp, nav. rewrite select_indexed. fold pairs.
          rewrite <- (indexed_snd shape 0) at 1. fold pairs. clear.
          induction pairs as [|p ps IH]; [reflexivity|].
          cbn [filter map]. destruct (is_sig (fst p)); cbn [negb map]; unfold prodZ in *; cbn [fold_right]; rewrite IH; ring. }
        rewrite P. nia.
    + assert (Hspc : 2 <= spc) by lia. assert (Hfit : spc <= prodZ nav) by lia.
      assert (R0 : filter (remp is_sig []) pairs = filter (fun p => negb (is_sig (fst p))) pairs).
      { apply filter_ext. intros p. unfold remp. cbn [memb existsb]. rewrite orb_false_r. reflexivity. }
      destruct (chunk_loop_spec is_sig shape spc Hspc Hsz Hfit (S (List.length shape)) [] [])
        as [nac [small [A [B [C [Dn [sizes' [F1 [F2 F3]]]]]]]]].
      * fold pairs. rewrite R0.
        assert (List.length (filter (fun p => negb (is_sig (fst p))) pairs) <= List.length pairs)%nat.
        { clear. induction pairs as [|p ps IH]; [cbn; lia|]. cbn [filter]. destruct (negb _); cbn [List.length]; lia. }
        assert (List.length pairs = List.length shape).
        { unfold pairs. rewrite <- (indexed_snd shape 0) at 2. rewrite map_length. reflexivity. }
        lia.
      * fold pairs. rewrite R0. unfold nav in E1. rewrite map_length in E1. lia.
      * fold pairs. rewrite R0. fold nav. cbn [List.length]. unfold nav. rewrite map_length. lia.
      * cbn. lia.
      * fold pairs. rewrite R0. fold nav. change (prodZ []) with 1. lia.
      * contradiction.
      * fold pairs in A, Dn, F1, F3. fold nav in A, F1. rewrite A. cbn [bind].
        exists (mapi (fun i s => if is_sig i || memb i small then s else nac) 0 shape).
        split; [reflexivity|]. split; [|split; [|split]].
        -- apply Forall2_mapi. intros p Hp. destruct (is_sig (fst p) || memb (fst p) small) eqn:E; [lia|]. left.
           rewrite Forall_forall in Dn. apply (Dn p). apply filter_In. split; [exact Hp|]. unfold remp. rewrite E. reflexivity.
        -- apply Forall2_mapi. intros p Hp. destruct (is_sig (fst p) || memb (fst p) small); lia.
        -- apply NS. intros i s Hi. rewrite Hi. reflexivity.
        -- intros _ _. rewrite mapi_indexed. fold pairs.
           rewrite (prod_mapi is_sig (fun i => memb i small) nac pairs).
           2:{ intros p _ Hm. apply C. apply memb_In. exact Hm. }
           assert (Q1 : prodZ (map snd (filter (fun p => is_sig (fst p)) pairs)) = sigp).
           { unfold sigp. rewrite select_indexed. reflexivity. }
           rewrite Q1.
           change (fun p : Z * Z => negb (is_sig (fst p) || memb (fst p) small)) with (remp is_sig small).
           set (rem := filter (remp is_sig small) pairs) in *.
           assert (Q2 : prodZ nav = prodZ (map snd (filter (fun p => negb (is_sig (fst p)) && memb (fst p) small) pairs)) * prodZ (map snd rem)).
           { unfold nav. rewrite (prodZ_filter_split (fun p => negb (is_sig (fst p))) (fun p => memb (fst p) small)).
             f_equal. f_equal. f_equal. unfold rem. apply filter_ext. intros p. unfold remp.
             destruct (is_sig (fst p)), (memb (fst p) small); reflexivity. }
           assert (RP : 0 < prodZ (map snd rem)).
           { assert (K : Forall (fun x => 1 <= x) (map snd rem)).
             { apply Forall_forall. intros x Hx. apply in_map_iff in Hx. destruct Hx as [p [<- Hp]].
               rewrite Forall_forall in Dn. specialize (Dn p Hp). lia. }
             clear - K. induction K as [|x l Hx _ IH]; [reflexivity|]. unfold prodZ in *. cbn [fold_right]. nia. }
           assert (Q3 : prodZ (map snd (filter (fun p => negb (is_sig (fst p)) && memb (fst p) small) pairs)) = prodZ sizes') by nia.
           rewrite Q3. nia.
Qed.
End ChunkProofs.

(** Automatic chunking succeeds for every shape with non-empty signal axes, every set of
    signal axes and every target, with chunks between one and the axis length, whole
    signal axes and, if at least two signals fit the target size and there is a
    navigation axis, chunks of at most the target size.  (An axis of length zero may get
    the chunk length one.) *)
Theorem C13_signal_chunks : forall root,
  (forall n d k, 0 < n -> 0 < d -> 0 < k -> 0 <= root n d k -> root n d k ^ k * d <= n) ->
  (forall n d k, 0 < d -> d <= n -> 0 < k -> 1 <= root n d k) ->
  forall shape typesize signal_axes target,
  Forall (Z.le 0) shape -> 0 < typesize -> 0 <= target ->
  0 < prodZ (select (fun i => memb i signal_axes) 0 shape) ->
  (shape = [0] /\ get_signal_chunks root shape typesize signal_axes target = Ok None) \/
  exists chunks, get_signal_chunks root shape typesize signal_axes target = Ok (Some chunks) /\
    Forall2 (fun s c => c <= s \/ (s = 0 /\ c = 1)) shape chunks /\
    Forall2 (fun s c => 1 <= s -> 1 <= c) shape chunks /\
    (forall i, memb i signal_axes = true -> forall s, nth_error shape (Z.to_nat i) = Some s -> 0 <= i ->
       nth_error chunks (Z.to_nat i) = Some s) /\
    (2 <= target / (prodZ (select (fun i => memb i signal_axes) 0 shape) * typesize) ->
       (exists i, 0 <= i < Z.of_nat (List.length shape) /\ memb i signal_axes = false) ->
       prodZ chunks * typesize <= target).
Proof. exact chunks_spec. Qed.
Print Assumptions C13_signal_chunks.

(** An exact integer root exists, so the assumptions on [root] can be met. *)
Fixpoint root_search (fuel : nat) (n d k r : Z) : Z :=
  match fuel with
  | O => r
  | S f => if (r + 1) ^ k * d <=? n then root_search f n d k (r + 1) else r
  end.
Definition exact_root (n d k : Z) : Z := root_search (Z.to_nat n) n d k 0.

Lemma root_search_le : forall f n d k r, 0 < k -> 0 <= r -> r ^ k * d <= n -> root_search f n d k r ^ k * d <= n.
Proof.
  induction f as [|f IH]; intros n d k r Hk Hr H; cbn [root_search]; [exact H|].
  destruct ((r + 1) ^ k * d <=? n) eqn:E; [apply IH; lia|exact H].
Qed.
Lemma root_search_ge : forall f n d k r, r <= root_search f n d k r.
Proof.
  induction f as [|f IH]; intros; cbn [root_search]; [lia|].
  destruct (_ <=? _); [specialize (IH n d k (r + 1)); lia|lia].
Qed.
Lemma exact_root_ok :
  (forall n d k, 0 < n -> 0 < d -> 0 < k -> 0 <= exact_root n d k -> exact_root n d k ^ k * d <= n) /\
  (forall n d k, 0 < d -> d <= n -> 0 < k -> 1 <= exact_root n d k).
Proof.
  split; intros; unfold exact_root.
  - apply root_search_le; [lia|lia|]. rewrite Z.pow_0_l by lia. lia.
  - destruct (Z.to_nat n) as [|f] eqn:E; [lia|]. cbn [root_search].
    rewrite Z.add_0_l, Z.pow_1_l by lia. destruct (1 * d <=? n) eqn:K; [|lia].
    apply root_search_ge.
Qed.

Example C13_example :
  get_signal_chunks exact_root [100; 2; 50; 10] 1 [3] 1000 = Ok (Some [7; 2; 7; 10]).
Proof. vm_compute. reflexivity. Qed.

(** A signal axis of length zero is not handled. *)
Theorem C13_empty_signal_refuted : forall root, exists shape typesize signal_axes target,
  Forall (Z.le 0) shape /\ 0 < typesize /\
  get_signal_chunks root shape typesize signal_axes target = Err OverflowError.
Proof. intros root. exists [5; 0], 1, [1], 1000. split; [repeat constructor; lia|]. split; [lia|reflexivity]. Qed.
Print Assumptions C13_empty_signal_refuted.
