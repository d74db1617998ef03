(** Property C68: a JEOL pts stream read lazily. *)
From Coq Require Import Sorted.
From Verif Require Import Base Bytes SfsModel SfsProps BcfUnpack JeolModel JeolProps JeolCube.

(** * Specification *)
(** A stream as the devices write it: a frame starts with the marker of line 0, X-rays and
    brightnesses come after a column, markers are within the map, and every frame has an
    X-ray in a channel *)
Record regular (g : geom) (f : list Z) : Prop := {
  r_head : exists t, f = 36864 :: t;
  r_marked : forall a w b, f = a ++ w :: b -> is 10 w = true \/ is 11 w = true -> last_val 8 a <> None;
  r_columns : Forall (fun v => v <= 4096 - wnorm g) (vals 8 f);
  r_lines : Forall (fun v => v <= 4096 - hnorm g) (vals 9 f);
  r_event : exists a w b, f = a ++ w :: b /\ is 11 w = true /\ val w / rebin g < channels g
}.
Definition no_shift : shift := {| dx := 0; dy := 0; dz := 0 |}.

(** A map that is not taller than wide, with norms that cover it *)
Definition proper (g : geom) : Prop :=
  0 < width g /\ 0 < height g /\ 0 < wnorm g /\ 0 < hnorm g /\ 0 < rebin g /\ height g <= width g /\ 4096 < hnorm g * (height g + 1).

(** * One frame *)
Definition some_event (g : geom) (a : list Z) : Prop := exists b w c, a = b ++ w :: c /\ is 11 w = true /\ val w / rebin g < channels g.
Record linv (g : geom) (ux : Z) (n0 : Z) (a : list Z) (s : lstate) : Prop := {
  j_x : lx s = match last_val 8 a with None => ux | Some v => clip (width g) (v / wnorm g) end;
  j_y : ly s = match last_val 9 a with None => 0 | Some v => clip (width g) (v / hnorm g) end;
  j_px : match last_val 8 a with None => True | Some v => lpx s = v end;
  j_py : lpy s = match last_val 9 a with None => 0 | Some v => v end;
  j_em : lhas s = true <-> has_image g no_shift a;
  j_n : lcount s = n0 + zlen a;
  j_events : forall k, inside g k -> listed k (events s) = xrays g no_shift k a;
  j_some : some_event g a -> events s <> []
}.
Lemma some_event_snoc : forall g a w, some_event g (a ++ [w]) -> some_event g a \/ (is 11 w = true /\ val w / rebin g < channels g).
Proof.
  intros g a w [b [v [c [E [H1 H2]]]]]. destruct c as [|x c] using rev_ind.
  - apply app_inj_tail in E. destruct E as [-> ->]. right. split; assumption.
  - replace (b ++ v :: c ++ [x]) with ((b ++ v :: c) ++ [x]) in E by (rewrite <- app_assoc; reflexivity). apply app_inj_tail in E. destruct E as [-> ->]. left. exists b, v, c. repeat split; assumption.
Qed.
Lemma listed_snoc : forall k l c, listed k (l ++ [c]) = listed k l + if eqb_cell k c then 1 else 0.
Proof. intros. unfold listed, zlen. rewrite filter_app, app_length. cbn [filter]. destruct (eqb_cell k c); cbn [List.length]; lia. Qed.
Lemma lstep : forall g ux n0 a s w, proper g -> word w -> (is 10 w = true \/ is 11 w = true -> last_val 8 a <> None) ->
  Forall (fun v => v <= 4096 - hnorm g) (vals 9 (a ++ [w])) -> (is 9 w = true -> match last_val 9 a with None => 0 | Some v => v end <= val w) -> linv g ux n0 a s ->
  exists s', lazy_step g no_shift s w = Ok (false, s') /\ linv g ux n0 (a ++ [w]) s'.
Proof.
  intros g ux n0 a s w [Gw [Gh [G1 [G2 [G3 [Hw Hh]]]]]] W M L F [Jx Jy Jpx Jpy Jem Jn Je Js].
  pose proof (kind_is w 8 W) as K8. pose proof (kind_is w 9 W) as K9. pose proof (kind_is w 10 W) as K10. pose proof (kind_is w 11 W) as K11. cbn [Z.mul Pos.mul Pos.add] in K8, K9, K10, K11.
  unfold lazy_step. rewrite K8, K9, K10, K11, payload_val. unfold fdiv. replace (wnorm g =? 0) with false by lia. replace (hnorm g =? 0) with false by lia. replace (rebin g =? 0) with false by lia. cbn [bind no_shift dx dy dz].
  rewrite !Z.add_0_r.
  assert (Lc : zlen (a ++ [w]) = zlen a + 1) by (unfold zlen; rewrite app_length; cbn [List.length]; lia).
  assert (Ly : forall v, last_val 9 a = Some v -> 0 <= v / hnorm g < height g).
  { intros v Hv. rewrite vals_app in L. apply Forall_app in L. destruct L as [L _]. rewrite Forall_forall in L. pose proof (L v (last_val_in _ _ _ Hv)).
    assert (0 <= v). { apply last_val_in in Hv. unfold vals in Hv. apply in_map_iff in Hv. destruct Hv as [u [<- _]]. apply val_range. } split; [apply Z.div_pos; lia|apply Z.div_lt_upper_bound; lia]. }
  assert (Cy : ly s = line g no_shift a /\ 0 <= ly s < height g).
  { rewrite Jy. unfold line, place. cbn [no_shift dy]. destruct (last_val 9 a) as [v|] eqn:E9; [|lia]. pose proof (Ly v eq_refl). unfold clip. replace (width g <=? v / hnorm g) with false by lia. lia. }
  assert (Cx : last_val 8 a <> None -> lx s = if width g <=? column g no_shift a then -1 else column g no_shift a).
  { rewrite Jx. unfold column, place. cbn [no_shift dx]. destruct (last_val 8 a) as [v|]; [|congruence]. intros _. rewrite Z.add_0_r. reflexivity. }
  assert (Px : last_val 8 a <> None -> 0 <= column g no_shift a).
  { unfold column, place. destruct (last_val 8 a) as [v|] eqn:E8; [|congruence]. intros _. apply last_val_in in E8. unfold vals in E8. apply in_map_iff in E8. destruct E8 as [u [<- _]]. pose proof (val_range u). cbn [no_shift dx]. pose proof (Z.div_pos (val u) (wnorm g) ltac:(lia) ltac:(lia)). lia. }
  destruct (is 8 w) eqn:E8.
  { assert (is 9 w = false /\ is 10 w = false /\ is 11 w = false) as [E9 [E10 E11]] by (clear - E8; unfold is in *; lia).
    eexists. split; [reflexivity|]. split; cbn [lx ly lpx lpy lhas lcount events lem]; rewrite ?last_val_snoc, ?E8, ?E9; try assumption; try reflexivity.
    - rewrite has_image_snoc, E10, Jem. split; [left; assumption|intros [K|[K _]]; [exact K|congruence]].
    - lia.
    - intros k Hk. rewrite (Je k Hk). symmetry. apply xrays_other. exact E11.
    - intro K. apply some_event_snoc in K. destruct K as [K|[K _]]; [apply Js, K|congruence]. }
  destruct (is 9 w) eqn:E9.
  { assert (is 10 w = false /\ is 11 w = false) as [E10 E11] by (clear - E9; unfold is in *; lia). specialize (F eq_refl). rewrite <- Jpy in F. replace (val w <? lpy s) with false by lia.
    eexists. split; [reflexivity|]. split; cbn [lx ly lpx lpy lhas lcount events lem]; rewrite ?last_val_snoc, ?E8, ?E9; try assumption; try reflexivity.
    - rewrite has_image_snoc, E10, Jem. split; [left; assumption|intros [K|[K _]]; [exact K|congruence]].
    - lia.
    - intros k Hk. rewrite (Je k Hk). symmetry. apply xrays_other. exact E11.
    - intro K. apply some_event_snoc in K. destruct K as [K|[K _]]; [apply Js, K|congruence]. }
  destruct (is 10 w) eqn:E10.
  { assert (E11 : is 11 w = false) by (clear - E10; unfold is in *; lia). specialize (M (or_introl eq_refl)). specialize (Cx M). specialize (Px M). rewrite E11. cbn [andb].
    destruct ((0 <=? lx s) && (0 <=? ly s)) eqn:Q; eexists; (split; [reflexivity|]); split; cbn [lx ly lpx lpy lhas lcount events lem]; rewrite ?last_val_snoc, ?E8, ?E9; try assumption; try reflexivity; try lia.
    - rewrite has_image_snoc. split; [|reflexivity]. intros _. right. split; [exact E10|]. unfold pixel. cbn [fst snd]. destruct (width g <=? column g no_shift a) eqn:Q2; lia.
    - intros k Hk. rewrite (Je k Hk). symmetry. apply xrays_other. exact E11.
    - intro K. apply some_event_snoc in K. destruct K as [K|[K _]]; [apply Js, K|congruence].
    - rewrite has_image_snoc, Jem. split; [left; assumption|intros [K|[_ K]]; [exact K|]]. unfold pixel in K. cbn [fst snd] in K. exfalso. destruct (width g <=? column g no_shift a) eqn:Q2; lia.
    - intros k Hk. rewrite (Je k Hk). symmetry. apply xrays_other. exact E11.
    - intro K. apply some_event_snoc in K. destruct K as [K|[K _]]; [apply Js, K|congruence]. }
  cbn [andb]. destruct (is 11 w) eqn:E11.
  { specialize (M (or_intror eq_refl)). specialize (Cx M). specialize (Px M). pose proof (val_range w) as Vr. assert (0 <= val w / rebin g) by (apply Z.div_pos; lia).
    eexists. split; [reflexivity|]. split; cbn [lx ly lpx lpy lhas lcount events lem]; rewrite ?last_val_snoc, ?E8, ?E9; try assumption; try reflexivity; try lia.
    - rewrite has_image_snoc, E10, Jem. split; [left; assumption|intros [K|[K _]]; [exact K|congruence]].
    - intros [[y x] z] Hk. unfold xrays. rewrite total_snoc. fold (xrays g no_shift (y, x, z) a). rewrite <- (Je _ Hk). unfold xray. rewrite E11. cbn [andb no_shift dz]. rewrite Z.add_0_r. destruct Hk as [H1 [H2 H3]].
      destruct ((0 <=? val w / rebin g) && (val w / rebin g <? channels g)) eqn:Q.
      + rewrite listed_snoc. f_equal. destruct Cy as [Cy Cy2]. unfold eqb_cell. rewrite Cx. rewrite <- Cy. destruct (width g <=? column g no_shift a) eqn:Q2;
        destruct ((ly s =? y) && (column g no_shift a =? x) && (val w / rebin g =? z)) eqn:Q3; try (replace ((y =? ly s) && (x =? column g no_shift a) && (z =? val w / rebin g)) with true by lia); try lia;
        match goal with |- (if ?b then _ else _) = _ => replace b with false by lia; reflexivity end.
      + match goal with |- _ = _ + (if ?b then _ else _) => replace b with false by lia end. lia.
    - intro K. apply some_event_snoc in K. destruct ((0 <=? val w / rebin g) && (val w / rebin g <? channels g)) eqn:Q; [intro N; destruct (events s); discriminate|]. destruct K as [K|[_ K]]; [apply Js, K|lia]. }
  eexists. split; [reflexivity|]. split; cbn [lx ly lpx lpy lhas lcount events lem]; rewrite ?last_val_snoc, ?E8, ?E9; try assumption; try reflexivity; try lia.
  - rewrite has_image_snoc, E10, Jem. split; [left; assumption|intros [K|[K _]]; [exact K|congruence]].
  - intros k Hk. rewrite (Je k Hk). symmetry. apply xrays_other. exact E11.
  - intro K. apply some_event_snoc in K. destruct K as [K|[K _]]; [apply Js, K|congruence].
Qed.
Definition next (rest : list Z) : Z := match rest with [] => 0 | _ => 1 end.
Lemma lrun : forall g ux n0 ws a s rest, proper g -> Forall word ws -> Forall word rest -> (forall b w c, a ++ ws = b ++ w :: c -> is 10 w = true \/ is 11 w = true -> last_val 8 b <> None) ->
  Forall (fun v => v <= 4096 - hnorm g) (vals 9 (a ++ ws)) -> one_frame (a ++ ws) -> ends (a ++ ws) rest -> linv g ux n0 a s ->
  exists s', lazy_run g no_shift s (ws ++ rest) = Ok s' /\ linv g ux (n0 + next rest) (a ++ ws) s'.
Proof.
  intros g ux n0 ws. induction ws as [|w ws IH]; intros a s rest P Hw Hr M L F E I.
  - rewrite app_nil_r in *. cbn [app]. destruct E as [->|[w [r [v [-> [E9 [Lv V]]]]]]]; [exists s; split; [reflexivity|cbn [next]; rewrite Z.add_0_r; exact I]|].
    inversion Hr as [|? ? W Hr']; subst. destruct I as [Jx Jy Jpx Jpy Jem Jn Je Js]. cbn [lazy_run next]. unfold lazy_step.
    pose proof (kind_is w 8 W) as K8. pose proof (kind_is w 9 W) as K9. cbn [Z.mul Pos.mul Pos.add] in K8, K9. rewrite K8, K9, E9, payload_val. assert (E8 : is 8 w = false) by (clear - E9; unfold is in *; lia). rewrite E8.
    rewrite Lv in Jpy. replace (val w <? lpy s) with true by lia. cbn [bind]. eexists. split; [reflexivity|]. split; cbn [lx ly lpx lpy lhas lcount events lem]; try assumption; try (rewrite Lv; assumption). lia.
  - inversion Hw as [|? ? W Hw']; subst. cbn [app lazy_run].
    assert (Ea : a ++ w :: ws = (a ++ [w]) ++ ws) by (rewrite <- app_assoc; reflexivity).
    destruct (lstep g ux n0 a s w P W) as [s1 [S1 I1]]; [| | |exact I|].
    + apply (M a w ws eq_refl).
    + rewrite Ea, vals_app in L. apply Forall_app in L. apply L.
    + intro E9. destruct (last_val 9 a) as [v|] eqn:Lv; [|apply val_range]. unfold one_frame in F. rewrite Ea, vals_app in F. apply sorted_app_l in F. rewrite vals_app in F.
      replace (vals 9 [w]) with [val w] in F by (unfold vals; cbn [filter]; rewrite E9; reflexivity). apply (sorted_snoc _ _ v F (last_val_in _ _ _ Lv)).
    + rewrite S1. cbn [bind]. rewrite Ea in *. apply IH; assumption.
Qed.
Lemma linv_start : forall g ux e, linv g ux 0 [] {| lx := ux; ly := 0; lpx := 0; lpy := 0; lhas := false; lcount := 0; events := []; lem := e |}.
Proof.
  intros. constructor; cbn [lx ly lpx lpy lhas lcount events lem]; try reflexivity; try exact Logic.I.
  - split; [discriminate|]. intros [a [w [b [E _]]]]. destruct a; discriminate.
  - intros [b [w [c [E _]]]]. destruct b; discriminate.
Qed.
Lemma linv_marker : forall g ux e, proper g -> linv g ux (-1) [36864] {| lx := ux; ly := 0; lpx := 0; lpy := 0; lhas := false; lcount := 0; events := []; lem := e |}.
Proof.
  intros g ux e [Gw [Gh [G1 [G2 [G3 _]]]]]. constructor; cbn [lx ly lpx lpy lhas lcount events lem]; try reflexivity; try exact Logic.I.
  - change (last_val 9 [36864]) with (Some 0). cbv iota beta. rewrite Z.div_0_l by lia. unfold clip. replace (width g <=? 0) with false by lia. reflexivity.
  - split; [discriminate|]. intros [a [w [b [E [H _]]]]]. destruct a as [|x [|]]; [|discriminate|discriminate]. injection E as <- <-. discriminate.
  - intros k Hk. change [36864] with ([] ++ [36864]). rewrite xrays_other by reflexivity. unfold xrays. rewrite total_nil. reflexivity.
  - intros [b [w [c [E [H _]]]]]. destruct b as [|x [|]]; [|discriminate|discriminate]. injection E as <- <-. discriminate.
Qed.
Lemma lframe : forall g ux e f rest b, proper g -> regular g f -> last_val 8 f <> None -> Forall word (f ++ rest) -> one_frame f -> ends f rest -> (b <= 1)%nat ->
  exists ev has v e', readframe_lazy ux 0 g no_shift e (skipn b f ++ rest) = Ok (zlen f - Z.of_nat b + next rest, ev, has, v, e') /\ ev <> [] /\
    (v = true <-> complete g no_shift f) /\ forall k, inside g k -> listed k ev = xrays g no_shift k f.
Proof.
  intros g ux e f rest b P [[t Ht] Rm Rc Rl Re] C W F E Hb. apply Forall_app in W. destruct W as [W1 W2].
  assert (R : exists s, lazy_run g no_shift {| lx := ux; ly := 0; lpx := 0; lpy := 0; lhas := false; lcount := 0; events := []; lem := e |} (skipn b f ++ rest) = Ok s /\ linv g ux (- Z.of_nat b + next rest) f s).
  { destruct b as [|[|b]]; [| |lia].
    - cbn [skipn]. destruct (lrun g ux 0 f [] _ rest P W1 W2 Rm Rl F E (linv_start g ux e)) as [s [S I]]. exists s. split; [exact S|]. exact I.
    - rewrite Ht in *. cbn [skipn]. inversion W1 as [|? ? _ W1']; subst. destruct (lrun g ux (-1) t [36864] _ rest P W1' W2 Rm Rl F E (linv_marker g ux e P)) as [s [S I]]. exists s. split; [exact S|exact I]. }
  destruct R as [s [S [Jx Jy Jpx Jpy Jem Jn Je Js]]]. unfold readframe_lazy. rewrite S. cbn [bind]. eexists _, _, _, _. split; [replace (lcount s) with (zlen f - Z.of_nat b + next rest) by lia; reflexivity|].
  split; [apply Js, Re|]. split; [|exact Je]. unfold complete. apply flags; [| |exact Jem].
  - rewrite Jpy, Ht. unfold last_val. destruct (rev (vals 9 (36864 :: t))) as [|v r] eqn:Er.
    + apply (f_equal (@List.length Z)) in Er. rewrite rev_length in Er. discriminate.
    + assert (Lv : last_val 9 f = Some v) by (rewrite Ht; unfold last_val; rewrite Er; reflexivity). apply last_val_in in Lv. rewrite Forall_forall in Rl. pose proof (Rl v Lv). split; [intro K; exists v; split; [reflexivity|lia]|intros [u [K1 K2]]; injection K1 as <-; lia].
  - left. destruct (last_val 8 f) as [v|] eqn:Lv; [|congruence]. pose proof (last_val_in _ _ _ Lv) as Hin. rewrite Forall_forall in Rc. pose proof (Rc v Hin). rewrite Jpx. split; [intro K; exists v; split; [reflexivity|lia]|intros [u [K1 K2]]; injection K1 as <-; lia].
Qed.
(** * All frames *)
Lemma known_at : forall fsi i p, nth_error fsi i = Some p -> 0 <= p -> known fsi i = Ok (i, p).
Proof. intros fsi i p H Hp. destruct i; cbn [known]; unfold start_of; rewrite H; cbn [bind]; [reflexivity|]. replace (p <? 0) with false by lia. reflexivity. Qed.
Lemma find_at : forall raw fsi i p, nth_error fsi i = Some p -> 0 <= p -> find_frame raw fsi i = Ok (fsi, p).
Proof. intros raw fsi i p H Hp. unfold find_frame. rewrite (known_at fsi i p H Hp). cbn [bind]. rewrite Nat.sub_diag. reflexivity. Qed.
(** Where the lazy reader starts frame i: after its marker, but for the first *)
Definition behind (fs : list (list Z)) (i : nat) : nat := if (Nat.eqb i 0 || Nat.leb (List.length fs) i)%bool then 0 else 1.
Lemma behind_le : forall fs i, (behind fs i <= 1)%nat.
Proof. intros. unfold behind. destruct (_ || _)%bool; lia. Qed.
Lemma behind_next : forall raw fs i, frames_of raw fs -> (i < List.length fs)%nat -> next (List.concat (skipn (S i) fs)) = Z.of_nat (behind fs (S i)).
Proof.
  intros raw fs i F H. unfold behind. cbn [Nat.eqb orb]. destruct (Nat.leb (List.length fs) (S i)) eqn:E.
  - apply Nat.leb_le in E. rewrite skipn_all2 by lia. reflexivity.
  - apply Nat.leb_gt in E. rewrite (frame_at fs (S i) E). destruct (frame_props raw fs (S i) F E) as [P0 _]. cbn [List.concat]. destruct (frame fs (S i)); [congruence|reflexivity].
Qed.
Theorem C68_events : forall o g raw fs n i c, proper g -> frames_of raw fs -> Forall (regular g) fs -> unset_y o = 0 ->
  nth_error (starts c) i = Some (start fs i + Z.of_nat (behind fs i)) -> (i <= List.length fs)%nat -> (i + n <= List.length (starts c))%nat -> target c + (if sum_frames o then 1 else Z.of_nat n) <= n_frames o ->
  exists c' r ls, lazy_loop o g (fun _ => no_shift) raw (seq i n) c = Ok c' /\ used (usable o g (fun _ => no_shift) fs) (seq i n) r /\ lists c' = lists c ++ ls /\
    Forall2 (fun j ev => ev <> [] /\ forall k, inside g k -> listed k ev = xrays g no_shift k (frame fs j)) r ls.
Proof.
  intros o g raw fs n. induction n as [|n IH]; intros i c P F Rg Uy Hst Hi Hlen Ht.
  - exists c, [], []. cbn [seq lazy_loop]. split; [reflexivity|]. split; [constructor|]. split; [rewrite app_nil_r; reflexivity|constructor].
  - cbn [seq lazy_loop]. assert (Sp : 0 <= start fs i) by (unfold start, zlen; lia). rewrite (find_at raw (starts c) i _ Hst) by lia. cbn [bind].
    replace (n_frames o <=? target c) with false by (destruct (sum_frames o); lia). rewrite Uy.
    destruct (stream_at raw fs i F) as [E1 [E2 [E3 [E4 [E5 E6]]]]].
    assert (Sk : skipz (start fs i + Z.of_nat (behind fs i)) raw = skipn (behind fs i) (skipz (start fs i) raw)).
    { rewrite !skipz_skipn. rewrite Z2Nat.inj_add by lia. rewrite Nat2Z.id, <- skipn_skipn. reflexivity. }
    destruct (Nat.lt_ge_cases i (List.length fs)) as [Hex|Hex].
    + assert (Rf : regular g (frame fs i)) by (rewrite Forall_forall in Rg; apply Rg; unfold frame; apply nth_In; exact Hex).
      assert (Sb : skipn (behind fs i) (skipz (start fs i) raw) = skipn (behind fs i) (frame fs i) ++ List.concat (skipn (S i) fs)).
      { rewrite E1, skipn_app. destruct (r_head g _ Rf) as [t Et]. rewrite Et. unfold behind. destruct (Nat.eqb i 0 || Nat.leb (List.length fs) i)%bool; reflexivity. }
      destruct (lframe g (unset_x o) (ems c (target c)) (frame fs i) (List.concat (skipn (S i) fs)) (behind fs i) P Rf (E6 Hex) E2 E3 E4) as [ev [has [v [e' [L1 [L2 [L3 L4]]]]]]].
      { apply behind_le. }
      rewrite Sk, Sb, L1. cbn [bind].
      assert (Pos : zlen (frame fs i) - Z.of_nat (behind fs i) + next (List.concat (skipn (S i) fs)) =? 0 = false).
      { destruct (r_event g _ Rf) as [a [w [b [Ef [Ew _]]]]]. destruct (r_head g _ Rf) as [t Et]. assert (2 <= zlen (frame fs i)).
        { destruct a as [|x a]; [cbn [app] in Ef; rewrite Et in Ef; injection Ef as <- _; discriminate|]. rewrite Ef. unfold zlen. cbn [app List.length]. rewrite app_length. cbn [List.length]. lia. }
        unfold behind, next. destruct (_ || _)%bool, (List.concat (skipn (S i) fs)); lia. }
      rewrite Pos. destruct (v || negb (only_valid o)) eqn:V.
      * assert (U : usable o g (fun _ => no_shift) fs i).
        { split; [exact Hex|]. destruct v; [right; apply L3; reflexivity|]. left. destruct (only_valid o); [discriminate|reflexivity]. }
        set (c1 := {| maps := maps c; ems := set_at (ems c) (target c) e'; lists := lists c ++ [ev]; target := target c + (if sum_frames o then 0 else 1); frame_num := Z.of_nat i + 1; any_em := any_em c || has;
          starts := if Z.of_nat i + 1 <? zlen (starts c) then set_start (starts c) (Z.to_nat (Z.of_nat i + 1)) (start fs i + Z.of_nat (behind fs i) + (zlen (frame fs i) - Z.of_nat (behind fs i) + next (List.concat (skipn (S i) fs)))) else starts c; valid := Some v |}).
        destruct n as [|n].
        { exists c1, [i], [ev]. cbn [seq lazy_loop]. split; [reflexivity|]. split; [apply used_yes; [exact U|constructor]|]. split; [reflexivity|]. constructor; [split; assumption|constructor]. }
        destruct (IH (S i) c1 P F Rg Uy) as [c' [r [ls [R1 [R2 [R3 R4]]]]]].
        -- unfold c1. cbn [starts]. unfold zlen at 1. replace (Z.of_nat i + 1 <? Z.of_nat (List.length (starts c))) with true by lia. replace (Z.to_nat (Z.of_nat i + 1)) with (S i) by lia. rewrite set_start_nth by lia. rewrite Nat.eqb_refl.
           f_equal. rewrite (start_S raw fs i F), <- (behind_next raw fs i F Hex). lia.
        -- lia.
        -- unfold c1. cbn [starts]. destruct (_ <? _); [rewrite set_start_length|]; lia.
        -- unfold c1. cbn [target]. destruct (sum_frames o); lia.
        -- exists c', (i :: r), (ev :: ls). split; [exact R1|]. split; [apply used_yes; assumption|]. split; [rewrite R3; unfold c1; cbn [lists]; rewrite <- app_assoc; reflexivity|]. constructor; [split; assumption|exact R4].
      * assert (U : ~ usable o g (fun _ => no_shift) fs i).
        { intros [_ K]. destruct v; [discriminate|]. destruct (only_valid o); [|discriminate]. destruct K as [K|K]; [discriminate|]. apply L3 in K. discriminate. }
        destruct (sum_frames o).
        -- destruct (lframe g (unset_x o) e' (frame fs i) (List.concat (skipn (S i) fs)) (behind fs i) P Rf (E6 Hex) E2 E3 E4) as [ev2 [has2 [v2 [e2 [M1 _]]]]].
           { apply behind_le. }
           rewrite M1. cbn [bind]. eexists _, [], []. split; [reflexivity|]. cbn [lists]. split; [apply used_no; exact U|]. split; [rewrite app_nil_r; reflexivity|constructor].
        -- cbn [bind]. eexists _, [], []. split; [reflexivity|]. cbn [lists]. split; [apply used_no; exact U|]. split; [rewrite app_nil_r; reflexivity|constructor].
    + assert (Z0 : frame fs i = []) by (unfold frame; apply nth_overflow; exact Hex). rewrite Z0, !skipn_all2 in E1 by lia. cbn [app List.concat] in E1.
      rewrite Sk, E1. rewrite skipn_nil. unfold readframe_lazy. cbn [lazy_run bind lcount]. cbn [Z.eqb]. eexists _, [], []. split; [reflexivity|]. cbn [lists]. split; [apply used_no; intros [K _]; lia|]. split; [rewrite app_nil_r; reflexivity|constructor].
Qed.
(** * The cube *)
Lemma lazy_loop_ext : forall o g sh sh' raw l c, (forall i, sh i = sh' i) -> lazy_loop o g sh raw l c = lazy_loop o g sh' raw l c.
Proof.
  intros o g sh sh' raw l c H. revert c. induction l as [|i l IH]; intro c; [reflexivity|]. cbn [lazy_loop]. rewrite <- (H i).
  destruct (find_frame raw (starts c) i) as [[fsi p]|]; [|reflexivity]. cbn [bind]. destruct (n_frames o <=? target c); [reflexivity|].
  destruct (readframe_lazy _ _ _ _ _ _) as [[[[[n ev] em'] v] e]|]; [|reflexivity]. cbn [bind]. destruct (n =? 0); [reflexivity|]. destruct (v || negb (only_valid o)); [|reflexivity]. apply IH.
Qed.
Lemma used_det : forall P Q l a b, (forall i, P i <-> Q i) -> used P l a -> used Q l b -> a = b.
Proof.
  intros P Q l a b E A. revert b. induction A as [|i l a Hi A IH|i l Hi]; intros b B; inversion B as [|j m c Hj B'|j m Hj]; subst; try reflexivity.
  - f_equal. apply IH, B'.
  - exfalso. apply Hj, E, Hi.
  - exfalso. apply Hi, E, Hj.
Qed.
Lemma maxl_zero : forall l, Forall (eq 0) l -> maxl l = 0 /\ minl l = 0.
Proof.
  intros [|a l] H; [split; reflexivity|]. assert (Ne : a :: l <> []) by discriminate. destruct (maxl_spec _ Ne) as [A _]. destruct (minl_spec _ Ne) as [B _].
  rewrite Forall_forall in H. split; symmetry; apply H; assumption.
Qed.
Lemma listed_app : forall k a b, listed k (a ++ b) = listed k a + listed k b.
Proof. intros. unfold listed, zlen. rewrite filter_app, app_length. lia. Qed.
Lemma complete_ext : forall g d d' f, d = d' -> (complete g d f <-> complete g d' f).
Proof. intros g d d' f ->. reflexivity. Qed.
Theorem C68_lazy : forall o w h ch wn hn rb sweep shifts raw fs n m rd,
  let g := {| width := w; height := h; channels := ch; wnorm := wn; hnorm := hn; rebin := rb; stride := h |} in
  proper g -> hn <= 4096 -> frames_of raw fs -> Forall (regular g) fs -> (forall i, shift_at shifts i = no_shift) -> unset_y o = 0 ->
  (n <= S m)%nat -> (if sum_frames o then 1 else Z.of_nat n) <= n_frames o ->
  readcube false o w h ch wn hn rb sweep shifts (0 :: repeat (-1) m) (seq 0 n) raw = Ok rd ->
  (0 < n)%nat -> usable o g (fun _ => no_shift) fs 0 ->
  exists rl, readcube true o w h ch wn hn rb sweep shifts (0 :: repeat (-1) m) (seq 0 n) raw = Ok rl /\
    r_frames rl = r_frames rd /\ r_height rl = r_height rd /\ r_width rl = r_width rd /\ r_channels rl = r_channels rd /\
    forall f k, inside g k -> 0 <= f < r_frames rd -> r_data rl f k = r_data rd f k mod 65536.
Proof.
  intros o w h ch wn hn rb sweep shifts raw fs n m rd g P Hn F Rg Z0 Uy Hnm Hnf D Hpos U0.
  assert (G : good g) by (destruct P as [A [B [C [D' [E _]]]]]; repeat split; lia).
  destruct (readcube_geom _ _ _ _ _ _ _ _ _ _ _ _ _ _ D) as [O [Ch [W Hh]]].
  assert (Zx : maxl (map (fun i => dx (shift_at shifts i)) (seq 0 n)) = 0 /\ minl (map (fun i => dx (shift_at shifts i)) (seq 0 n)) = 0).
  { apply maxl_zero, Forall_forall. intros a Ha. apply in_map_iff in Ha. destruct Ha as [i [<- _]]. rewrite Z0. reflexivity. }
  assert (Zy : maxl (map (fun i => dy (shift_at shifts i)) (seq 0 n)) = 0 /\ minl (map (fun i => dy (shift_at shifts i)) (seq 0 n)) = 0).
  { apply maxl_zero, Forall_forall. intros a Ha. apply in_map_iff in Ha. destruct Ha as [i [<- _]]. rewrite Z0. reflexivity. }
  destruct Zx as [Zx1 Zx2]. destruct Zy as [Zy1 Zy2]. rewrite Zx1, Zy1 in O. rewrite Zx1, Zx2 in W. rewrite Zy1, Zy2 in Hh.
  assert (Eg : geom_of rd wn hn rb h = g) by (unfold geom_of, g; rewrite W, Hh, Ch; f_equal; lia).
  assert (Es : forall i, shift_in rd shifts i = no_shift) by (intro i; unfold shift_in; rewrite Z0, O; reflexivity).
  assert (R0 : right fs (0 :: repeat (-1) m)).
  { split; [reflexivity|]. intros [|k] p Hp; [right; injection Hp as <-; reflexivity|]. cbn [nth_error] in Hp. apply nth_error_In, repeat_spec in Hp. left. lia. }
  assert (Fl : Forall (fun i => (i < List.length (0%Z :: repeat (-1)%Z m))%nat) (seq 0 n)).
  { apply Forall_forall. intros i Hi. apply in_seq in Hi. cbn [List.length]. rewrite repeat_length. lia. }
  pose proof (C67_cube o w h ch wn hn rb sweep shifts (0 :: repeat (-1) m) (seq 0 n) raw fs rd) as CC. rewrite Eg in CC. specialize (CC G Hn F R0 Fl D). cbv zeta in CC.
  destruct CC as [u [V1 [_ [V3 [V4 _]]]]].
  destruct (C68_events o g raw fs n 0 (empty_cube (0 :: repeat (-1) m)) P F Rg Uy) as [c' [r [ls [L1 [L2 [L3 L4]]]]]].
  { reflexivity. } { lia. } { cbn [empty_cube starts List.length]. rewrite repeat_length. lia. } { cbn [empty_cube target]. lia. }
  cbn [empty_cube lists app] in L3.
  assert (Eu : u = r). { apply (used_det (usable o g (shift_in rd shifts) fs) (usable o g (fun _ => no_shift) fs) (seq 0 n)); [|exact V1|exact L2]. intro i. unfold usable. rewrite Es. reflexivity. }
  assert (Ne : lists c' <> []).
  { rewrite L3. destruct n as [|n]; [lia|]. cbn [seq] in L2. inversion L2 as [|i l r' _ L2'|i l K]; subst; [|contradiction]. inversion L4; subst. discriminate. }
  assert (Al : existsb (fun l : list cell => match l with [] => true | _ => false end) (lists c') = false).
  { rewrite L3. clear - L4. induction L4 as [|i ev r' ls' [H _] L4 IH]; [reflexivity|]. cbn [existsb]. rewrite IH. destruct ev; [congruence|reflexivity]. }
  assert (El : readcube true o w h ch wn hn rb sweep shifts (0 :: repeat (-1) m) (seq 0 n) raw = Ok {| r_frames := if sum_frames o then 1 else zlen (lists c'); r_height := h; r_width := w; r_channels := ch;
      r_data := fun f k => if sum_frames o then listed k (List.concat (lists c')) mod 65536 else listed k (nth (Z.to_nat f) (lists c') []) mod 65536;
      r_em := fun f y x => ems c' f (y * h + x); r_has_em := any_em c'; r_sweep := sweep; r_starts := starts c'; r_valid := valid c'; r_origin := (0, 0) |}).
  { unfold readcube. unfold readcube in D. destruct (existsb (fun i => Nat.leb (List.length shifts) i) (seq 0 n)); [discriminate|]. clear D.
    assert (Nl : forall A (a b : A), match seq 0 n with [] => a | _ => b end = b) by (intros; destruct n; [lia|reflexivity]). rewrite Nl. cbv zeta.
    change (fun i => dx (nth i shifts {| dx := 0; dy := 0; dz := 0 |})) with (fun i => dx (shift_at shifts i)). change (fun i => dy (nth i shifts {| dx := 0; dy := 0; dz := 0 |})) with (fun i => dy (shift_at shifts i)).
    rewrite Zx1, Zx2, Zy1, Zy2. replace (w + (0 - 0)) with w by lia. replace (h + (0 - 0)) with h by lia. fold g.
    rewrite (lazy_loop_ext o g _ (fun _ => no_shift)).
    2: { intro i. pose proof (Z0 i) as Zi. unfold shift_at in Zi. rewrite Zi. reflexivity. }
    rewrite L1. cbn [bind]. rewrite Al. destruct (lists c') eqn:Q; [congruence|]. reflexivity. }
  eexists. split; [exact El|]. cbn [r_frames r_height r_width r_channels r_data].
  assert (Len : zlen (lists c') = zlen u) by (rewrite L3, Eu; unfold zlen; f_equal; clear - L4; induction L4; [reflexivity|cbn [List.length]; f_equal; assumption]).
  split; [rewrite V3, Len; reflexivity|]. split; [lia|]. split; [lia|]. split; [lia|].
  intros f k Hk Hf. destruct (V4 k Hk) as [V5 V6]. destruct (sum_frames o) eqn:S.
  - assert (f = 0) by lia. subst f. rewrite (V5 eq_refl). f_equal. rewrite L3, Eu. clear - L4 Es Hk. induction L4 as [|i ev r' ls' [_ H] L4 IH]; [reflexivity|].
    cbn [List.concat]. rewrite listed_app, IH, (H k Hk). unfold sum. cbn [map fold_right]. rewrite Es. reflexivity.
  - rewrite V3 in Hf. assert (Hi : exists i, nth_error u (Z.to_nat f) = Some i). { destruct (nth_error u (Z.to_nat f)) as [i|] eqn:E; [exists i; reflexivity|]. apply nth_error_None in E. unfold zlen in Hf. lia. }
    destruct Hi as [i Hi]. specialize (V6 eq_refl _ _ Hi). replace (Z.of_nat (Z.to_nat f)) with f in V6 by lia. rewrite V6, Es. f_equal. rewrite L3. rewrite Eu in Hi. clear - L4 Hi Hk. revert Hi. generalize (Z.to_nat f). induction L4 as [|j ev r' ls' [_ H] L4 IH]; intros [|q] Hq; try discriminate.
    + cbn [nth_error] in Hq. assert (j = i) by congruence. subst j. cbn [nth]. apply H, Hk.
    + cbn [nth_error] in Hq. cbn [nth]. apply IH, Hq.
Qed.
(** * Examples *)
Lemma app_two : forall A (x y : A) t a w b, x :: y :: t = a ++ w :: b -> (a = [] /\ w = x) \/ (a = [x] /\ w = y) \/ exists a', a = x :: y :: a'.
Proof.
  intros A x y t a w b E. destruct a as [|a0 [|a1 a]]; cbn [app] in E.
  - left. split; congruence.
  - right. left. split; congruence.
  - right. right. exists a. congruence.
Qed.
Lemma marked_two : forall t a w b, 36864 :: 32768 :: t = a ++ w :: b -> is 10 w = true \/ is 11 w = true -> last_val 8 a <> None.
Proof.
  intros t a w b E H. apply app_two in E. destruct E as [[_ ->]|[[_ ->]|[a' ->]]]; [destruct H; discriminate|destruct H; discriminate|].
  unfold last_val. replace (vals 8 (36864 :: 32768 :: a')) with (0 :: vals 8 a') by reflexivity. cbn [rev]. destruct (rev (vals 8 a')); discriminate.
Qed.
Lemma ex_regular : Forall (regular ex_geom) [ex_frame 4; ex_frame 5; ex_frame 4].
Proof.
  assert (P : forall z, z = 4 \/ z = 5 -> regular ex_geom (ex_frame z)).
  { intros z Hz. constructor.
    - eexists. reflexivity.
    - intros a w b. apply marked_two.
    - destruct Hz as [-> | ->]; vm_compute; repeat (constructor; [discriminate|]); constructor.
    - destruct Hz as [-> | ->]; vm_compute; repeat (constructor; [discriminate|]); constructor.
    - exists [36864; 32768], (45056 + z), (skipn 3 (ex_frame z)). destruct Hz as [-> | ->]; vm_compute; repeat split. }
  repeat (constructor; [apply P; auto|]). constructor.
Qed.
Example C68_example :
  proper ex_geom /\ Forall (regular ex_geom) (firstn 3 ex_fs) /\
  match readcube true (ex_o true true) 2 2 8 2048 2048 1 5 ex_shifts [0; -1; -1; -1; -1] (seq 0 4) ex_raw with
  | Ok r => r_frames r = 1 /\ r_data r 0 (0, 0, 4) = 4 /\ r_data r 0 (0, 0, 5) = 2 /\ r_data r 0 (0, 1, 5) = 2
  | Err _ => False
  end.
Proof.
  split; [vm_compute; repeat split; congruence|]. split; [exact ex_regular|]. vm_compute; repeat split.
Qed.
(** * Refuted *)
Definition data_of (r : res result) (f : Z) (k : cell) : option Z := match r with Ok v => Some (r_data v f k) | Err _ => None end.
(** A map that is taller than wide loses its lines from the width on *)
Theorem C68_tall_refuted : exists o ws k, let g := {| width := 1; height := 2; channels := 8; wnorm := 4096; hnorm := 2048; rebin := 1; stride := 2 |} in
  regular g ws /\ frames_of ws [ws] /\ complete g no_shift ws /\
  inside g k /\ data_of (readcube false o 1 2 8 4096 2048 1 5 ex_shifts [0; -1] [0%nat] ws) 0 k = Some 1 /\ data_of (readcube true o 1 2 8 4096 2048 1 5 ex_shifts [0; -1] [0%nat] ws) 0 k = Some 0.
Proof.
  exists (ex_o true true), [36864; 32768; 45057; 38912; 32768; 45057]. exists (1, 0, 1). cbv zeta. split; [|split; [|split; [|split; [vm_compute; repeat split; congruence|split; vm_compute; reflexivity]]]].
  - constructor.
    + eexists. reflexivity.
    + intros a w b. apply marked_two.
    + repeat (constructor; [vm_compute; discriminate|]). constructor.
    + repeat (constructor; [vm_compute; discriminate|]). constructor.
    + exists [36864; 32768], 45057, [38912; 32768; 45057]. vm_compute. repeat split.
  - constructor; [reflexivity| | | | |].
    + repeat (constructor; [unfold word; vm_compute; split; congruence|]). constructor.
    + repeat (constructor; [discriminate|]). constructor.
    + repeat (constructor; [unfold one_frame; vm_compute; repeat constructor; discriminate|]). constructor.
    + intros a f b E. destruct a as [|a0 [|a1 a]]; cbn [app] in E; try discriminate. injection E as <- <-. left. reflexivity.
    + repeat (constructor; [vm_compute; discriminate|]). constructor.
  - split; [exists 2048; vm_compute; split; [reflexivity|discriminate]|left; exists 0; vm_compute; split; [reflexivity|discriminate]].
Qed.
(** With downsampling no frame counts as complete, as the last column is not 4096 less the
    norm: nothing is loaded *)
Theorem C68_downsampling_refuted : exists o ws rd, downsampled 4 2 = Ok (2, 2048) /\ only_valid o = true /\
  readcube false o 2 2 8 2048 2048 1 5 ex_shifts [0; -1] [0%nat] ws = Ok rd /\ r_data rd 0 (1, 1, 5) = 1 /\ r_valid rd = Some true /\
  readcube true o 2 2 8 2048 2048 1 5 ex_shifts [0; -1] [0%nat] ws = Err TypeError.
Proof.
  exists (ex_o true true), [36864; 32768; 40961; 32768 + 1024; 32768 + 2048; 32768 + 3072; 36864 + 3072; 32768; 32768 + 3072; 45061]. eexists.
  split; [reflexivity|]. split; [reflexivity|]. split; [vm_compute; reflexivity|]. vm_compute. repeat split.
Qed.
(** A frame without X-rays cannot be read lazily *)
Theorem C68_no_event_refuted : exists o ws rd, readcube false o 2 2 8 2048 2048 1 5 ex_shifts [0; -1] [0%nat] ws = Ok rd /\ r_valid rd = Some true /\ readcube true o 2 2 8 2048 2048 1 5 ex_shifts [0; -1] [0%nat] ws = Err IndexError.
Proof. exists (ex_o true true), [36864; 32768; 40961; 38912; 34816]. eexists. split; [vm_compute; reflexivity|]. vm_compute. split; reflexivity. Qed.
(** Of a second frame that is shifted, the first line is not shifted: its marker was taken
    by the frame before *)
Theorem C68_shift_refuted : exists o shifts k, (forall i, dz (shift_at shifts i) = 0 /\ dx (shift_at shifts i) = 0) /\
  inside {| width := 2; height := 1; channels := 8; wnorm := 2048; hnorm := 2048; rebin := 1; stride := 2 |} k /\
  data_of (readcube false o 2 2 8 2048 2048 1 5 shifts [0; -1; -1; -1; -1] [0; 1]%nat ex_raw) 0 k = Some 0 /\ data_of (readcube true o 2 2 8 2048 2048 1 5 shifts [0; -1; -1; -1; -1] [0; 1]%nat ex_raw) 0 k = Some 2.
Proof.
  exists (ex_o true true), [{| dx := 0; dy := 0; dz := 0 |}; {| dx := 0; dy := -1; dz := 0 |}]. exists (0, 0, 5).
  split; [intros [|[|[|i]]]; vm_compute; split; reflexivity|]. split; [vm_compute; repeat split; congruence|]. vm_compute. split; reflexivity.
Qed.
Print Assumptions C68_events.
Print Assumptions C68_lazy.
Print Assumptions C68_tall_refuted.
Print Assumptions C68_downsampling_refuted.
Print Assumptions C68_no_event_refuted.
Print Assumptions C68_shift_refuted.
