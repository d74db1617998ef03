(** Property C66: one frame of a JEOL pts stream. *)
From Coq Require Import Sorted.
From Verif Require Import Base Bytes SfsModel BcfUnpack JeolModel.

(** * Specification *)
(** Words of two bytes: four bits of kind and twelve bits of value.  8: column, 9: line,
    10: brightness, 11: X-ray of an energy. *)
Definition word (w : Z) : Prop := 0 <= w < 65536.
Definition is (k w : Z) : bool := w / 4096 =? k.
Definition val (w : Z) : Z := w mod 4096.
(** The values of the words of a kind, and the last one *)
Definition vals (k : Z) (ws : list Z) : list Z := map val (filter (is k) ws).
Definition last_val (k : Z) (ws : list Z) : option Z := match rev (vals k ws) with v :: _ => Some v | [] => None end.
(** Column and line after some words *)
Definition place (norm shift : Z) (m : option Z) : Z := match m with None => 0 | Some v => v / norm + shift end.
Definition column (g : geom) (d : shift) (before : list Z) : Z := place (wnorm g) (dx d) (last_val 8 before).
Definition line (g : geom) (d : shift) (before : list Z) : Z := place (hnorm g) (dy d) (last_val 9 before).
(** Sum over the words of a frame of a number given by the words before and the word *)
Definition total (f : list Z -> Z -> Z) (ws : list Z) : Z := fold_right Z.add 0 (map (fun i => f (firstn i ws) (nth i ws 0)) (seq 0 (List.length ws))).
(** X-rays at a cell, and brightness at a pixel *)
Definition xray (g : geom) (d : shift) (c : cell) (before : list Z) (w : Z) : Z :=
  let '(y, x, z) := c in
  if is 11 w && (line g d before =? y) && (column g d before =? x) && (val w / rebin g + dz d =? z) then 1 else 0.
Definition xrays g d c ws : Z := total (xray g d c) ws.
Definition bright (g : geom) (d : shift) (p : Z * Z) (before : list Z) (w : Z) : Z :=
  if is 10 w && (line g d before =? fst p) && (column g d before =? snd p) then val w else 0.
Definition brightness g d p ws : Z := total (bright g d p) ws.
Definition inside (g : geom) (c : cell) : Prop := let '(y, x, z) := c in 0 <= y < height g /\ 0 <= x < width g /\ 0 <= z < channels g.
Definition pixel (g : geom) (p : Z * Z) : Prop := 0 <= fst p < height g /\ 0 <= snd p < width g.
(** There is a brightness inside the map *)
Definition has_image (g : geom) (d : shift) (ws : list Z) : Prop :=
  exists a w b, ws = a ++ w :: b /\ is 10 w = true /\ pixel g (line g d a, column g d a).
(** A frame: lines do not go back.  The next frame starts with an earlier line. *)
Definition one_frame (ws : list Z) : Prop := StronglySorted Z.le (vals 9 ws).
Definition ends (ws rest : list Z) : Prop :=
  rest = [] \/ exists w r v, rest = w :: r /\ is 9 w = true /\ last_val 9 ws = Some v /\ val w < v.
(** The last line and column are reached; columns matter only if there is an image *)
Definition complete (g : geom) (d : shift) (ws : list Z) : Prop :=
  (exists v, last_val 9 ws = Some v /\ 4096 - hnorm g <= v) /\
  ((exists v, last_val 8 ws = Some v /\ 4096 - wnorm g <= v) \/ ~ has_image g d ws).

(** * Words *)
Lemma kind_div : forall w, word w -> kind w = 4096 * (w / 4096).
Proof.
  intros w Hw. assert (E : forallb (fun w => kind w =? 4096 * (w / 4096)) (zseq 0 (Z.to_nat 65536)) = true) by (vm_compute; reflexivity).
  rewrite forallb_forall in E. specialize (E w). apply Z.eqb_eq, E. apply in_zseq. unfold word in Hw. lia.
Qed.
Lemma payload_val : forall w, payload w = val w.
Proof. intro w. unfold payload, val. change 4095 with (Z.ones 12). rewrite Z.land_ones by lia. reflexivity. Qed.
Lemma val_range : forall w, 0 <= val w < 4096.
Proof. intro w. unfold val. lia. Qed.
Lemma kind_is : forall w k, word w -> (kind w =? 4096 * k) = is k w.
Proof. intros w k Hw. rewrite kind_div by exact Hw. unfold is. lia. Qed.

(** * Lists of words *)
Lemma vals_app : forall k a b, vals k (a ++ b) = vals k a ++ vals k b.
Proof. intros. unfold vals. rewrite filter_app, map_app. reflexivity. Qed.
Lemma last_val_snoc : forall k a w, last_val k (a ++ [w]) = if is k w then Some (val w) else last_val k a.
Proof. intros k a w. unfold last_val. rewrite vals_app, rev_app_distr. unfold vals at 1. cbn [filter]. destruct (is k w); reflexivity. Qed.
Lemma total_snoc : forall f a w, total f (a ++ [w]) = total f a + f a w.
Proof.
  intros f a w. unfold total. rewrite app_length. cbn [List.length]. rewrite seq_app, map_app. cbn [Nat.add seq map].
  rewrite fold_right_app. cbn [fold_right]. rewrite firstn_app, firstn_all, Nat.sub_diag. cbn [firstn]. rewrite app_nil_r. rewrite app_nth2 by lia. rewrite Nat.sub_diag. cbn [nth].
  assert (E : map (fun i => f (firstn i (a ++ [w])) (nth i (a ++ [w]) 0)) (seq 0 (List.length a)) = map (fun i => f (firstn i a) (nth i a 0)) (seq 0 (List.length a))).
  { apply map_ext_in. intros i Hi. apply in_seq in Hi. rewrite firstn_app, app_nth1 by lia. replace (i - List.length a)%nat with O by lia. cbn [firstn]. rewrite app_nil_r. reflexivity. }
  rewrite E. generalize (map (fun i => f (firstn i a) (nth i a 0)) (seq 0 (List.length a))). intro l. induction l as [|x l IH]; cbn [fold_right]; lia.
Qed.
Lemma total_nil : forall f, total f [] = 0.
Proof. reflexivity. Qed.
Lemma total_nonneg : forall f ws, (forall a w, 0 <= f a w) -> 0 <= total f ws.
Proof. intros f ws Hf. induction ws as [|w ws IH] using rev_ind; [rewrite total_nil; lia|]. rewrite total_snoc. pose proof (Hf ws w). lia. Qed.
Lemma total_mono : forall f a b, (forall a w, 0 <= f a w) -> total f a <= total f (a ++ b).
Proof. intros f a b Hf. induction b as [|w b IH] using rev_ind; [rewrite app_nil_r; lia|]. rewrite app_assoc, total_snoc. pose proof (Hf (a ++ b) w). lia. Qed.
Lemma xray_nonneg : forall g d c a w, 0 <= xray g d c a w.
Proof. intros g d [[y x] z] a w. unfold xray. destruct (_ && _); lia. Qed.
Lemma sorted_app_l : forall a b : list Z, StronglySorted Z.le (a ++ b) -> StronglySorted Z.le a.
Proof. induction a as [|x a IH]; intros b H; [constructor|]. inversion H as [|? ? H1 H2]; subst. constructor; [eapply IH; exact H1|]. apply Forall_app in H2. apply H2. Qed.
Lemma sorted_snoc : forall (a : list Z) w v, StronglySorted Z.le (a ++ [w]) -> In v a -> v <= w.
Proof.
  induction a as [|x a IH]; intros w v H Hv; [destruct Hv|]. inversion H as [|? ? H1 H2]; subst. destruct Hv as [<-|Hv]; [|eapply IH; eassumption].
  rewrite Forall_forall in H2. apply H2. apply in_or_app. right. left. reflexivity.
Qed.
Lemma last_val_in : forall k a v, last_val k a = Some v -> In v (vals k a).
Proof. intros k a v H. unfold last_val in H. destruct (rev (vals k a)) as [|x l] eqn:E; [discriminate|]. injection H as <-. apply in_rev. rewrite E. left. reflexivity. Qed.

(** * The invariant of the loop *)
Definition clipped (size : Z) (norm shift : Z) (m : option Z) : Z := match m with None => 0 | Some v => clip size (v / norm + shift) end.
Definition insideb (g : geom) (c : cell) : bool := let '(y, x, z) := c in (0 <=? y) && (y <? height g) && ((0 <=? x) && (x <? width g)) && ((0 <=? z) && (z <? channels g)).
Lemma insideb_spec : forall g c, insideb g c = true <-> inside g c.
Proof. intros g [[y x] z]. unfold insideb, inside. lia. Qed.
Record inv (g : geom) (d : shift) (ux countup : Z) (h0 : cell -> Z) (e0 : Z -> Z) (a : list Z) (s : state) : Prop := {
  i_x : sx s = clipped (width g) (wnorm g) (dx d) (last_val 8 a);
  i_y : sy s = clipped (height g) (hnorm g) (dy d) (last_val 9 a);
  i_px : px s = match last_val 8 a with None => ux | Some v => v end;
  i_py : py s = match last_val 9 a with None => -1 | Some v => v end;
  i_em : has_em s = true <-> has_image g d a;
  i_n : count s = zlen a;
  i_h : forall c, hyper s c = h0 c + countup * (if insideb g c then xrays g d c a else 0);
  i_e : width g <= stride g -> forall p, pixel g p -> em s (fst p * stride g + snd p) = e0 (fst p * stride g + snd p) + countup * brightness g d p a
}.
Definition good (g : geom) : Prop := 0 < width g /\ 0 < height g /\ wnorm g <> 0 /\ hnorm g <> 0 /\ rebin g <> 0.
Lemma clip_place : forall size norm shift m, 0 < size -> clipped size norm shift m = if size <=? place norm shift m then -1 else place norm shift m.
Proof. intros size norm shift [v|] H; cbn [clipped place clip]; [reflexivity|]. destruct (size <=? 0) eqn:E; [lia|reflexivity]. Qed.
Lemma has_image_snoc : forall g d a w, has_image g d (a ++ [w]) <-> has_image g d a \/ (is 10 w = true /\ pixel g (line g d a, column g d a)).
Proof.
  intros g d a w. split.
  - intros [a' [w' [b [E [H1 H2]]]]]. destruct b as [|b0 b] using rev_ind.
    + apply app_inj_tail in E. destruct E as [-> ->]. right. split; assumption.
    + left. rewrite app_comm_cons, app_assoc in E. apply app_inj_tail in E. destruct E as [-> _]. exists a', w', b. split; [reflexivity|]. split; assumption.
  - intros [[a' [w' [b [-> [H1 H2]]]]]|[H1 H2]].
    + exists a', w', (b ++ [w]). rewrite <- app_assoc. split; [reflexivity|]. split; assumption.
    + exists a, w, []. split; [reflexivity|]. split; assumption.
Qed.
Lemma eqb_cell_spec : forall a b, eqb_cell a b = true <-> a = b.
Proof. intros [[y x] z] [[y' x'] z']. unfold eqb_cell. split; [intro H; f_equal; [f_equal|]; lia|intro H; injection H as <- <- <-; lia]. Qed.
(** Zero contributions *)
Lemma xrays_other : forall g d c a w, is 11 w = false -> xrays g d c (a ++ [w]) = xrays g d c a.
Proof. intros g d [[y x] z] a w H. unfold xrays. rewrite total_snoc. unfold xray at 2. rewrite H. cbn [andb]. lia. Qed.
Lemma bright_other : forall g d p a w, is 10 w = false -> brightness g d p (a ++ [w]) = brightness g d p a.
Proof. intros g d p a w H. unfold brightness. rewrite total_snoc. unfold bright at 2. rewrite H. cbn [andb]. lia. Qed.
Lemma step_inv : forall g d ux cu mx h0 e0 a s w b s', good g -> word w -> inv g d ux cu h0 e0 a s -> dense_step g d cu mx s w = Ok (b, s') ->
  (b = false -> inv g d ux cu h0 e0 (a ++ [w]) s') /\ (b = true -> s' = s) /\ (b = true <-> is 9 w = true /\ exists v, last_val 9 a = Some v /\ val w < v).
Proof.
  intros g d ux cu mx h0 e0 a s w b s' [Gw [Gh [G1 [G2 G3]]]] Hw [Ix Iy Ipx Ipy Iem In Ih Ie] H.
  pose proof (kind_is w 8 Hw) as K8. pose proof (kind_is w 9 Hw) as K9. pose proof (kind_is w 10 Hw) as K10. pose proof (kind_is w 11 Hw) as K11.
  cbn [Z.mul Pos.mul Pos.add] in K8, K9, K10, K11.
  assert (Dis : forall i j, is i w = true -> is j w = true -> i = j) by (unfold is; intros; lia).
  assert (Ln : zlen (a ++ [w]) = zlen a + 1) by (unfold zlen; rewrite app_length; cbn [List.length]; lia).
  unfold dense_step in H. rewrite K8, K9, K10, K11, payload_val in H.
  destruct (is 8 w) eqn:E8.
  { assert (E9 : is 9 w = false) by (destruct (is 9 w) eqn:Q; [pose proof (Dis 8 9 E8 Q); lia|reflexivity]).
    assert (E10 : is 10 w = false) by (destruct (is 10 w) eqn:Q; [pose proof (Dis 8 10 E8 Q); lia|reflexivity]).
    assert (E11 : is 11 w = false) by (destruct (is 11 w) eqn:Q; [pose proof (Dis 8 11 E8 Q); lia|reflexivity]).
    unfold fdiv in H. destruct (wnorm g =? 0) eqn:Q; [lia|]. cbn [bind] in H. injection H as <- <-. split; [|split; [discriminate|split; [discriminate|intros [K _]; congruence]]]. intros _.
    constructor; cbn [sx sy px py has_em count hyper em].
    - rewrite last_val_snoc, E8. reflexivity.
    - rewrite last_val_snoc, E9. exact Iy.
    - rewrite last_val_snoc, E8. reflexivity.
    - rewrite last_val_snoc, E9. exact Ipy.
    - rewrite has_image_snoc, E10, Iem. split; [left; assumption|intros [K|[K _]]; [exact K|congruence]].
    - lia.
    - intro c. rewrite xrays_other by exact E11. apply Ih.
    - intros Hs p Hp. rewrite bright_other by exact E10. apply Ie; assumption. }
  destruct (is 9 w) eqn:E9.
  { assert (E10 : is 10 w = false) by (destruct (is 10 w) eqn:Q; [pose proof (Dis 9 10 E9 Q); lia|reflexivity]).
    assert (E11 : is 11 w = false) by (destruct (is 11 w) eqn:Q; [pose proof (Dis 9 11 E9 Q); lia|reflexivity]).
    unfold fdiv in H. destruct (hnorm g =? 0) eqn:Q; [lia|]. cbn [bind] in H. pose proof (val_range w) as V.
    destruct (val w <? py s) eqn:P; injection H as <- <-.
    - split; [discriminate|]. split; [reflexivity|]. split; [|reflexivity]. intros _. split; [reflexivity|]. rewrite Ipy in P. destruct (last_val 9 a) as [v|]; [exists v; split; [reflexivity|lia]|lia].
    - split; [|split; [discriminate|split; [discriminate|intros [_ [v [K1 K2]]]; rewrite K1 in Ipy; lia]]]. intros _.
      constructor; cbn [sx sy px py has_em count hyper em].
      + rewrite last_val_snoc, E8. exact Ix.
      + rewrite last_val_snoc, E9. reflexivity.
      + rewrite last_val_snoc, E8. exact Ipx.
      + rewrite last_val_snoc, E9. reflexivity.
      + rewrite has_image_snoc, E10, Iem. split; [left; assumption|intros [K|[K _]]; [exact K|congruence]].
      + lia.
      + intro c. rewrite xrays_other by exact E11. apply Ih.
      + intros Hs p Hp. rewrite bright_other by exact E10. apply Ie; assumption. }
  assert (T : forall X : Prop, X -> (false = true -> s' = s) /\ (false = true <-> false = true /\ exists v, last_val 9 a = Some v /\ val w < v)).
  { intros X _. split; [discriminate|]. split; [discriminate|intros [K _]; congruence]. }
  assert (Cx : sx s = if width g <=? column g d a then -1 else column g d a) by (rewrite Ix; apply clip_place; exact Gw).
  assert (Cy : sy s = if height g <=? line g d a then -1 else line g d a) by (rewrite Iy; apply clip_place; exact Gh).
  destruct (is 10 w) eqn:E10.
  { assert (E11 : is 11 w = false) by (destruct (is 11 w) eqn:Q; [pose proof (Dis 10 11 E10 Q); lia|reflexivity]).
    rewrite E11 in H. cbn [andb] in H. destruct ((0 <=? sx s) && (0 <=? sy s)) eqn:P; injection H as <- <-.
    - split; [|exact (T True I)]. intros _.
      assert (Px : sx s = column g d a /\ 0 <= column g d a < width g) by (destruct (width g <=? column g d a) eqn:Q; lia).
      assert (Py : sy s = line g d a /\ 0 <= line g d a < height g) by (destruct (height g <=? line g d a) eqn:Q; lia).
      destruct Px as [Px1 Px2]. destruct Py as [Py1 Py2].
      constructor; cbn [sx sy px py has_em count hyper em].
      + rewrite last_val_snoc, E8. exact Ix.
      + rewrite last_val_snoc, E9. exact Iy.
      + rewrite last_val_snoc, E8. exact Ipx.
      + rewrite last_val_snoc, E9. exact Ipy.
      + rewrite has_image_snoc. split; [|reflexivity]. intros _. right. split; [exact E10|]. split; [exact Py2|exact Px2].
      + lia.
      + intro c. rewrite xrays_other by exact E11. apply Ih.
      + intros Hs p [Hp1 Hp2]. unfold brightness. rewrite total_snoc. fold (brightness g d p a). unfold bright. rewrite E10. cbn [andb]. unfold add1. rewrite (Ie Hs p (conj Hp1 Hp2)).
        rewrite Px1, Py1. destruct (line g d a =? fst p) eqn:Q1; destruct (column g d a =? snd p) eqn:Q2; cbn [andb];
        destruct (line g d a * stride g + column g d a =? fst p * stride g + snd p) eqn:Q3; try nia.
    - split; [|exact (T True I)]. intros _.
      assert (Np : ~ pixel g (line g d a, column g d a)) by (unfold pixel; cbn [fst snd]; destruct (width g <=? column g d a) eqn:Q1, (height g <=? line g d a) eqn:Q2; lia).
      constructor; cbn [counted sx sy px py has_em count hyper em].
      + rewrite last_val_snoc, E8. exact Ix.
      + rewrite last_val_snoc, E9. exact Iy.
      + rewrite last_val_snoc, E8. exact Ipx.
      + rewrite last_val_snoc, E9. exact Ipy.
      + rewrite has_image_snoc, Iem. split; [left; assumption|intros [K|[_ K]]; [exact K|contradiction]].
      + lia.
      + intro c. rewrite xrays_other by exact E11. apply Ih.
      + intros Hs p Hp. unfold brightness. rewrite total_snoc. fold (brightness g d p a). unfold bright. rewrite E10. cbn [andb]. rewrite (Ie Hs p Hp).
        destruct ((line g d a =? fst p) && (column g d a =? snd p)) eqn:Q; [|lia]. exfalso. apply Np. destruct p as [p1 p2]. unfold pixel in *. cbn [fst snd] in *. lia. }
  assert (Im : has_em s = true <-> has_image g d (a ++ [w])).
  { rewrite has_image_snoc, E10, Iem. split; [left; assumption|intros [K|[K _]]; [exact K|congruence]]. }
  assert (Ie' : width g <= stride g -> forall p, pixel g p -> em s (fst p * stride g + snd p) = e0 (fst p * stride g + snd p) + cu * brightness g d p (a ++ [w])).
  { intros Hs p Hp. rewrite bright_other by exact E10. apply Ie; assumption. }
  cbn [andb] in H. destruct (is 11 w) eqn:E11.
  - unfold fdiv in H. destruct (rebin g =? 0) eqn:Q; [lia|]. cbn [bind] in H.
    set (z := val w / rebin g + dz d) in *.
    destruct ((z <? channels g) && (0 <=? sx s) && (0 <=? sy s) && (0 <=? z)) eqn:P.
    + destruct (add3 (sy s, sx s, z) cu (hyper s) (sy s, sx s, z) =? mx) eqn:M; [discriminate|]. injection H as <- <-. split; [|exact (T True I)]. intros _.
      assert (Px : sx s = column g d a /\ 0 <= column g d a < width g) by (destruct (width g <=? column g d a) eqn:Q'; lia).
      assert (Py : sy s = line g d a /\ 0 <= line g d a < height g) by (destruct (height g <=? line g d a) eqn:Q'; lia).
      destruct Px as [Px1 Px2]. destruct Py as [Py1 Py2].
      constructor; cbn [sx sy px py has_em count hyper em]; try assumption.
      * rewrite last_val_snoc, E8. exact Ix.
      * rewrite last_val_snoc, E9. exact Iy.
      * rewrite last_val_snoc, E8. exact Ipx.
      * rewrite last_val_snoc, E9. exact Ipy.
      * lia.
      * intros [[y x] zz]. unfold xrays. rewrite total_snoc. fold (xrays g d (y, x, zz) a). unfold add3. rewrite (Ih (y, x, zz)). unfold xray. rewrite E11. fold z. cbn [andb]. rewrite Px1, Py1. unfold eqb_cell.
        destruct ((line g d a =? y) && (column g d a =? x) && (z =? zz)) eqn:Q1.
        -- assert (EI : insideb g (y, x, zz) = true) by (unfold insideb; lia). rewrite EI. lia.
        -- destruct (insideb g (y, x, zz)); lia.
    + injection H as <- <-. split; [|exact (T True I)]. intros _.
      constructor; cbn [counted sx sy px py has_em count hyper em]; try assumption.
      * rewrite last_val_snoc, E8. exact Ix.
      * rewrite last_val_snoc, E9. exact Iy.
      * rewrite last_val_snoc, E8. exact Ipx.
      * rewrite last_val_snoc, E9. exact Ipy.
      * lia.
      * intros [[y x] zz]. unfold xrays. rewrite total_snoc. fold (xrays g d (y, x, zz) a). rewrite (Ih (y, x, zz)). unfold xray. rewrite E11. fold z. cbn [andb].
        destruct (insideb g (y, x, zz)) eqn:EI; [|lia]. destruct ((line g d a =? y) && (column g d a =? x) && (z =? zz)) eqn:Q1; [|lia]. exfalso. unfold insideb in EI.
        destruct (width g <=? column g d a) eqn:Q2, (height g <=? line g d a) eqn:Q3; lia.
  - injection H as <- <-. split; [|exact (T True I)]. intros _.
    constructor; cbn [counted sx sy px py has_em count hyper em]; try assumption.
    + rewrite last_val_snoc, E8. exact Ix.
    + rewrite last_val_snoc, E9. exact Iy.
    + rewrite last_val_snoc, E8. exact Ipx.
    + rewrite last_val_snoc, E9. exact Ipy.
    + lia.
    + intro c. rewrite xrays_other by exact E11. apply Ih.
Qed.
Lemma step_error : forall g d ux cu mx h0 e0 a s w, good g -> word w -> inv g d ux cu h0 e0 a s ->
  (exists b s', dense_step g d cu mx s w = Ok (b, s')) \/
  (dense_step g d cu mx s w = Err ValueError /\ exists c, inside g c /\ h0 c + cu * xrays g d c (a ++ [w]) = mx).
Proof.
  intros g d ux cu mx h0 e0 a s w [Gw [Gh [G1 [G2 G3]]]] Hw [Ix Iy Ipx Ipy Iem In Ih Ie].
  pose proof (kind_is w 11 Hw) as K11. cbn [Z.mul Pos.mul Pos.add] in K11.
  unfold dense_step. rewrite K11, payload_val. unfold fdiv. replace (wnorm g =? 0) with false by lia. replace (hnorm g =? 0) with false by lia. replace (rebin g =? 0) with false by lia. cbn [bind].
  destruct (kind w =? 32768); [left; eexists; eexists; reflexivity|]. destruct (kind w =? 36864); [destruct (val w <? py s); left; eexists; eexists; reflexivity|].
  destruct ((kind w =? 40960) && (0 <=? sx s) && (0 <=? sy s)); [left; eexists; eexists; reflexivity|].
  destruct (is 11 w) eqn:E11; [|left; eexists; eexists; reflexivity].
  set (z := val w / rebin g + dz d). destruct ((z <? channels g) && (0 <=? sx s) && (0 <=? sy s) && (0 <=? z)) eqn:P; [|left; eexists; eexists; reflexivity].
  destruct (add3 (sy s, sx s, z) cu (hyper s) (sy s, sx s, z) =? mx) eqn:M; [|left; eexists; eexists; reflexivity].
  right. split; [reflexivity|].
  assert (Cx : sx s = if width g <=? column g d a then -1 else column g d a) by (rewrite Ix; apply clip_place; exact Gw).
  assert (Cy : sy s = if height g <=? line g d a then -1 else line g d a) by (rewrite Iy; apply clip_place; exact Gh).
  assert (Px : sx s = column g d a /\ 0 <= column g d a < width g) by (destruct (width g <=? column g d a) eqn:Q'; lia).
  assert (Py : sy s = line g d a /\ 0 <= line g d a < height g) by (destruct (height g <=? line g d a) eqn:Q'; lia).
  destruct Px as [Px1 Px2]. destruct Py as [Py1 Py2]. exists (sy s, sx s, z).
  assert (I : inside g (sy s, sx s, z)) by (unfold inside; lia). split; [exact I|].
  unfold add3 in M. assert (R : eqb_cell (sy s, sx s, z) (sy s, sx s, z) = true) by (apply eqb_cell_spec; reflexivity). rewrite R, Ih in M. apply insideb_spec in I. rewrite I in M.
  unfold xrays. rewrite total_snoc. fold (xrays g d (sy s, sx s, z) a). unfold xray. rewrite E11. fold z. rewrite Px1, Py1, !Z.eqb_refl. cbn [andb]. rewrite Px1, Py1 in M. lia.
Qed.
Lemma run_frame : forall g d ux cu mx h0 e0 ws a s rest, good g -> Forall word ws -> Forall word rest -> inv g d ux cu h0 e0 a s -> one_frame (a ++ ws) -> ends (a ++ ws) rest ->
  (exists s', dense_run g d cu mx s (ws ++ rest) = Ok s' /\ inv g d ux cu h0 e0 (a ++ ws) s') \/
  (dense_run g d cu mx s (ws ++ rest) = Err ValueError /\ exists b b' c, a ++ ws = b ++ b' /\ inside g c /\ h0 c + cu * xrays g d c b = mx).
Proof.
  intros g d ux cu mx h0 e0 ws. induction ws as [|w ws IH]; intros a s rest G Hw Hr I F E.
  - left. rewrite app_nil_r in *. cbn [app]. destruct E as [->|[w [r [v [-> [E1 [E2 E3]]]]]]]; [exists s; split; [reflexivity|exact I]|].
    exists s. split; [|exact I]. inversion Hr as [|? ? W Hr']; subst. cbn [dense_run]. destruct (step_error g d ux cu mx h0 e0 a s w G W I) as [[b [s' S]]|[S [c [I2 _]]]].
    + rewrite S. cbn [bind]. destruct (step_inv _ _ _ _ _ _ _ _ _ _ _ _ G W I S) as [_ [T1 T2]]. destruct T2 as [_ T2]. rewrite T2 by (split; [exact E1|exists v; split; assumption]). f_equal. apply T1, T2. split; [exact E1|exists v; split; assumption].
    + exfalso. unfold dense_step in S. pose proof (kind_is w 8 W) as K8. pose proof (kind_is w 9 W) as K9. cbn [Z.mul Pos.mul Pos.add] in K8, K9. rewrite K9, E1 in S.
      destruct (kind w =? 32768); [unfold fdiv in S; destruct (wnorm g =? 0); discriminate|]. unfold fdiv in S. destruct (hnorm g =? 0); [discriminate|]. cbn [bind] in S. destruct (payload w <? py s); discriminate.
  - inversion Hw as [|? ? W Hw']; subst. cbn [app dense_run].
    destruct (step_error g d ux cu mx h0 e0 a s w G W I) as [[b [s' S]]|[S [c [I2 M]]]].
    + rewrite S. cbn [bind]. destruct (step_inv _ _ _ _ _ _ _ _ _ _ _ _ G W I S) as [T0 [_ T2]]. destruct b.
      * exfalso. destruct T2 as [T2 _]. destruct (T2 eq_refl) as [E9 [v [Lv V]]]. unfold one_frame in F. rewrite vals_app in F. unfold vals at 2 in F. cbn [filter] in F. rewrite E9 in F. cbn [map] in F.
        replace (vals 9 a ++ val w :: map val (filter (is 9) ws)) with ((vals 9 a ++ [val w]) ++ map val (filter (is 9) ws)) in F by (rewrite <- app_assoc; reflexivity).
        apply sorted_app_l in F. pose proof (sorted_snoc _ _ v F (last_val_in _ _ _ Lv)). lia.
      * replace (a ++ w :: ws) with ((a ++ [w]) ++ ws) in * by (rewrite <- app_assoc; reflexivity). apply IH; auto.
    + right. rewrite S. split; [reflexivity|]. exists (a ++ [w]), ws, c. split; [rewrite <- app_assoc; reflexivity|]. split; assumption.
Qed.
Lemma inv_start : forall g d ux cu h e, inv g d ux cu h e [] {| sx := 0; sy := 0; px := ux; py := -1; has_em := false; count := 0; hyper := h; em := e |}.
Proof.
  intros. constructor; cbn [sx sy px py has_em count hyper em]; try reflexivity.
  - split; [discriminate|]. intros [a [w [b [E _]]]]. destruct a; discriminate.
  - intro c. unfold xrays. rewrite total_nil. destruct (insideb g c); lia.
  - intros _ p _. unfold brightness. rewrite total_nil. lia.
Qed.
Lemma ok5 : forall A B C D E (a a' : A) (b b' : B) (c c' : C) (d d' : D) (e e' : E), Ok (a, b, c, d, e) = Ok (a', b', c', d', e') -> a = a' /\ b = b' /\ c = c' /\ d = d' /\ e = e'.
Proof. intros. inversion H. repeat split. Qed.
Lemma flags : forall (b1 b2 h : bool) (P1 P2 P3 : Prop), (b1 = true <-> P1) -> ((b2 = true <-> P2) \/ ~ P3) -> (h = true <-> P3) -> (b1 && (b2 || negb h) = true <-> P1 /\ (P2 \/ ~ P3)).
Proof. intros [] [] [] P1 P2 P3 [A1 A2] B [C1 C2]; cbn; intuition congruence. Qed.
(** The frame that starts the stream is added to the map, the rest is not looked at. *)
Theorem C66_frame : forall ux g d cu mx h e ws rest n em v h' e', good g -> Forall word (ws ++ rest) -> one_frame ws -> ends ws rest ->
  readframe_dense ux g d cu mx h e (ws ++ rest) = Ok (n, em, v, h', e') ->
  n = zlen ws /\ (em = true <-> has_image g d ws) /\
  (last_val 8 ws <> None \/ ~ has_image g d ws -> hnorm g <= 4096 -> (v = true <-> complete g d ws)) /\
  (forall c, inside g c -> h' c = h c + cu * xrays g d c ws) /\ (forall c, ~ inside g c -> h' c = h c) /\
  (width g <= stride g -> forall y x, 0 <= y < height g -> 0 <= x < width g -> e' (y * stride g + x) = e (y * stride g + x) + cu * brightness g d (y, x) ws).
Proof.
  intros ux g d cu mx h e ws rest n em v h' e' G W F E H. apply Forall_app in W. destruct W as [W1 W2]. unfold readframe_dense in H.
  destruct (run_frame g d ux cu mx h e ws [] _ rest G W1 W2 (inv_start g d ux cu h e) F E) as [[s' [S I]]|[S _]]; rewrite S in H; [|discriminate]. cbn [bind] in H. cbn [app] in I. apply ok5 in H. destruct H as [<- [<- [<- [<- <-]]]].
  destruct I as [Ix Iy Ipx Ipy Iem In Ih Ie]. split; [exact In|]. split; [exact Iem|]. split.
  - intros Hx Hn. rewrite Ipy, Ipx. unfold complete. apply flags; [| |exact Iem].
    + destruct (last_val 9 ws) as [vy|]; [split; [intro; exists vy; split; [reflexivity|lia]|intros [v [K1 K2]]; injection K1 as <-; lia]|]. split; [lia|intros [v [K _]]; discriminate].
    + destruct (last_val 8 ws) as [vx|]; [left; split; [intro; exists vx; split; [reflexivity|lia]|intros [v [K1 K2]]; injection K1 as <-; lia]|right]. destruct Hx as [Hx|Hx]; [congruence|exact Hx].
  - split; [intros c Hc; rewrite Ih; apply insideb_spec in Hc; rewrite Hc; reflexivity|]. split; [intros c Hc; rewrite Ih; destruct (insideb g c) eqn:K; [apply insideb_spec in K; contradiction|lia]|].
    intros Hs y x Hy Hx. apply (Ie Hs (y, x)). split; assumption.
Qed.
(** The check of the range is exact. *)
Theorem C66_range : forall ux g d mx h e ws rest, good g -> Forall word (ws ++ rest) -> one_frame ws -> ends ws rest -> (forall c, inside g c -> h c < mx) ->
  ((exists r, readframe_dense ux g d 1 mx h e (ws ++ rest) = Ok r) <-> forall c, inside g c -> h c + xrays g d c ws < mx) /\
  (forall x, readframe_dense ux g d 1 mx h e (ws ++ rest) = Err x -> x = ValueError).
Proof.
  intros ux g d mx h e ws rest G W F E Hh. apply Forall_app in W. destruct W as [W1 W2]. unfold readframe_dense.
  pose proof (run_frame g d ux 1 mx h e ws [] _ rest G W1 W2 (inv_start g d ux 1 h e) F E) as R. cbn [app] in R.
  split.
  - destruct R as [[s' [S I]]|[S [b [b' [c [E1 [E2 E3]]]]]]]; rewrite S; cbn [bind].
    + split; [|intros _; eexists; reflexivity]. intros _ c Hc. destruct (Z_lt_le_dec (h c + xrays g d c ws) mx) as [L|L]; [exact L|exfalso].
      assert (P : forall ws1 ws2 s, ws = ws1 ++ ws2 -> h c + xrays g d c ws1 < mx -> inv g d ux 1 h e ws1 s -> dense_run g d 1 mx s (ws2 ++ rest) = Ok s' -> False).
      { intros ws1 ws2. revert ws1. induction ws2 as [|w ws2 IH]; intros ws1 s Ew L1 I1 S1; [rewrite app_nil_r in Ew; subst ws1; lia|].
        assert (Ww : word w) by (rewrite Forall_forall in W1; apply W1; rewrite Ew; apply in_or_app; right; left; reflexivity).
        cbn [app dense_run] in S1. destruct (dense_step g d 1 mx s w) as [[bb s2]|] eqn:St; [|discriminate]. cbn [bind] in S1.
        destruct (step_inv _ _ _ _ _ _ _ _ _ _ _ _ G Ww I1 St) as [T0 [_ T2]].
        assert (Ew2 : ws = (ws1 ++ [w]) ++ ws2) by (rewrite <- app_assoc; exact Ew).
        destruct bb.
        - destruct T2 as [T2 _]. destruct (T2 eq_refl) as [E9 [v [Lv V]]]. unfold one_frame in F. rewrite Ew, vals_app in F. unfold vals at 2 in F. cbn [filter] in F. rewrite E9 in F. cbn [map] in F.
          replace (vals 9 ws1 ++ val w :: map val (filter (is 9) ws2)) with ((vals 9 ws1 ++ [val w]) ++ map val (filter (is 9) ws2)) in F by (rewrite <- app_assoc; reflexivity).
          apply sorted_app_l in F. pose proof (sorted_snoc _ _ v F (last_val_in _ _ _ Lv)). lia.
        - apply (IH (ws1 ++ [w]) s2 Ew2); [|apply T0; reflexivity|exact S1].
          destruct (Z_lt_le_dec (h c + xrays g d c (ws1 ++ [w])) mx) as [L2|L2]; [exact L2|exfalso].
          assert (Xe : xrays g d c (ws1 ++ [w]) = xrays g d c ws1 + xray g d c ws1 w) by (unfold xrays; apply total_snoc).
          destruct c as [[y x] z]. unfold xray in Xe. destruct (is 11 w && (line g d ws1 =? y) && (column g d ws1 =? x) && (val w / rebin g + dz d =? z)) eqn:Hit; [|lia].
          (* the step would have raised the error *)
          pose proof (kind_is w 8 Ww) as K8. pose proof (kind_is w 9 Ww) as K9. pose proof (kind_is w 10 Ww) as K10. pose proof (kind_is w 11 Ww) as K11. cbn [Z.mul Pos.mul Pos.add] in K8, K9, K10, K11.
          assert (E11 : is 11 w = true) by (destruct (is 11 w); [reflexivity|discriminate]).
          assert (E8 : is 8 w = false) by (clear - E11; unfold is in *; lia). assert (E9 : is 9 w = false) by (clear - E11; unfold is in *; lia). assert (E10 : is 10 w = false) by (clear - E11; unfold is in *; lia).
          destruct G as [Gw [Gh [G1 [G2 G3]]]]. destruct I1 as [Ix Iy Ipx Ipy Iem In Ih Ie].
          assert (Cx : sx s = if width g <=? column g d ws1 then -1 else column g d ws1) by (rewrite Ix; apply clip_place; exact Gw).
          assert (Cy : sy s = if height g <=? line g d ws1 then -1 else line g d ws1) by (rewrite Iy; apply clip_place; exact Gh).
          destruct Hc as [Hy [Hx Hz]]. assert (Sx : sx s = x) by (destruct (width g <=? column g d ws1) eqn:Q; lia). assert (Sy : sy s = y) by (destruct (height g <=? line g d ws1) eqn:Q; lia).
          unfold dense_step in St. rewrite K8, K9, K10, K11, E8, E9, E10, E11, payload_val in St. cbn [andb] in St. unfold fdiv in St. replace (rebin g =? 0) with false in St by lia. cbn [bind] in St.
          replace ((val w / rebin g + dz d <? channels g) && (0 <=? sx s) && (0 <=? sy s) && (0 <=? val w / rebin g + dz d)) with true in St by lia.
          assert (Ez : val w / rebin g + dz d = z) by lia. rewrite Ez, Sx, Sy in St. unfold add3 in St. assert (Rf : eqb_cell (y, x, z) (y, x, z) = true) by (apply eqb_cell_spec; reflexivity). rewrite Rf, Ih in St.
          assert (Ib : insideb g (y, x, z) = true) by (unfold insideb; lia). rewrite Ib in St. replace (h (y, x, z) + 1 * xrays g d (y, x, z) ws1 + 1 =? mx) with true in St by lia. discriminate. }
      apply (P [] ws _ eq_refl) with (2 := inv_start g d ux 1 h e) (3 := S). unfold xrays. rewrite total_nil. pose proof (Hh c Hc). lia.
    + split; [intros [r K]; discriminate|]. intro K. exfalso. pose proof (K c E2) as K2. rewrite E1 in K2. pose proof (total_mono (xray g d c) b b' (xray_nonneg g d c)). fold (xrays g d c b) in *. fold (xrays g d c (b ++ b')) in *. lia.
  - intros x. destruct R as [[s' [S I]]|[S _]]; rewrite S; cbn [bind]; [discriminate|]. intro K. injection K as <-. reflexivity.
Qed.
(** A map of two by two pixels: one frame and the start of the next *)
Definition ex_geom : geom := {| width := 2; height := 2; channels := 8; wnorm := 2048; hnorm := 2048; rebin := 1; stride := 2 |}.
Definition ex_frame (z : Z) : list Z := [36864; 32768; 45056 + z; 45056 + z; 34816; 40967; 45056 + z + 1; 38912; 32768; 45056 + 3; 34816; 40960 + 9].
Definition ex_zero : shift := {| dx := 0; dy := 0; dz := 0 |}.
Example C66_example :
  Forall word (ex_frame 4 ++ ex_frame 5) /\ one_frame (ex_frame 4) /\ ends (ex_frame 4) (ex_frame 5) /\ complete ex_geom ex_zero (ex_frame 4) /\
  match readframe_dense 77 ex_geom ex_zero 1 100 (fun _ => 0) (fun _ => 0) (ex_frame 4 ++ ex_frame 5) with
  | Ok (n, em, v, h, e) => n = 12 /\ em = true /\ v = true /\ h (0, 0, 4) = 2 /\ h (0, 1, 5) = 1 /\ h (1, 0, 3) = 1 /\ h (1, 1, 3) = 0 /\ e 1 = 7 /\ e 3 = 9
  | Err _ => False
  end /\
  readframe_dense 77 ex_geom ex_zero 1 2 (fun _ => 0) (fun _ => 0) (ex_frame 4 ++ ex_frame 5) = Err ValueError.
Proof.
  split; [repeat (constructor; [unfold word; vm_compute; split; congruence|]); constructor|].
  split; [unfold one_frame; vm_compute; repeat constructor; discriminate|]. split; [right; exists 36864, (tl (ex_frame 5)), 2048; vm_compute; repeat split|].
  split; [split; [exists 2048; vm_compute; split; [reflexivity|discriminate]|left; exists 2048; vm_compute; split; [reflexivity|discriminate]]|]. split; [vm_compute; repeat split|vm_compute; reflexivity].
Qed.
Print Assumptions C66_frame.
Print Assumptions C66_range.
