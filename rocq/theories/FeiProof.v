From Verif Require Import Base FeiModel FeiSpec.

Lemma events_from_ge : forall s m0 m v, In (m, v) (events_from m0 s) -> m0 <= m.
Proof.
  induction s as [|a s IH]; intros m0 m v H; cbn [events_from] in H; [contradiction|].
  destruct (is_marker a).
  - apply IH in H; lia.
  - destruct H as [H|H]; [injection H; lia|]. apply IH in H; lia.
Qed.

Lemma nav_cell : forall xs nav y x, 0 < xs -> 0 <= x < xs ->
  ((nav / xs =? y) && (nav mod xs =? x)) = (nav =? y * xs + x).
Proof.
  intros xs nav y x Hxs Hx.
  pose proof (Z.div_mod nav xs ltac:(lia)) as E.
  pose proof (Z.mod_pos_bound nav xs ltac:(lia)) as B.
  destruct (nav =? y * xs + x) eqn:K.
  - apply Z.eqb_eq in K.
    assert (nav / xs = y) by (rewrite K; rewrite Z.div_add_l by lia; rewrite Z.div_small by lia; lia).
    assert (nav mod xs = x) by nia.
    rewrite (proj2 (Z.eqb_eq _ _) H), (proj2 (Z.eqb_eq _ _) H0). reflexivity.
  - apply Z.eqb_neq in K.
    destruct (nav / xs =? y) eqn:K1; [|reflexivity].
    destruct (nav mod xs =? x) eqn:K2; [|reflexivity].
    apply Z.eqb_eq in K1, K2. nia.
Qed.

Lemma frame_of : forall fs frame nav, 0 <= nav < fs -> (frame * fs + nav) / fs = frame.
Proof. intros. rewrite Z.div_add_l by lia. rewrite Z.div_small by lia. lia. Qed.
Lemma pixel_of : forall fs frame nav, 0 <= nav < fs -> (frame * fs + nav) mod fs = nav.
Proof. intros. rewrite Z.add_comm, Z.mod_add by lia. apply Z.mod_small; lia. Qed.

Section Dense.
Variables w ys xs nch first last r : Z.
Hypothesis Hw : 0 < w.
Hypothesis Hys : 0 < ys.
Hypothesis Hxs : 0 < xs.
Hypothesis Hr : 0 < r.
Hypothesis Hfirst : 0 <= first.

Let fs := ys * xs.

Lemma fs_pos : 0 < fs.
Proof. unfold fs; nia. Qed.

Definition fitb (e : Z * Z) : bool :=
  if (first <=? fst e / fs) && (fst e / fs <? last) then snd e / r <? nch else true.

Lemma pow_pos : 0 < 2 ^ w.
Proof. apply Z.pow_pos_nonneg; lia. Qed.

Lemma late_events_fit : forall s m, last * fs <= m -> forallb fitb (events_from m s) = true.
Proof.
  intros s m Hm. apply forallb_forall. intros [m' v] Hin.
  apply events_from_ge in Hin. unfold fitb; cbn [fst snd].
  replace (m' / fs <? last) with false; [rewrite andb_false_r; reflexivity|].
  symmetry; apply Z.ltb_ge. apply Z.div_le_lower_bound; [apply fs_pos|lia].
Qed.

Lemma late_events_cell : forall s m f y x c, last * fs <= m -> f < last ->
  countZ (in_cell ys xs r f y x c) (events_from m s) = 0.
Proof.
  intros s m f y x c Hm Hf. apply countZ_zero. intros [m' v] Hin.
  apply events_from_ge in Hin. unfold in_cell; cbn [fst snd]. fold fs.
  replace (m' / fs =? f) with false; [reflexivity|].
  symmetry; apply Z.eqb_neq.
  enough (last <= m' / fs) by lia.
  apply Z.div_le_lower_bound; [apply fs_pos|lia].
Qed.

Lemma late_events_cell_frames : forall s m y x c, last * fs <= m ->
  countZ (in_cell_frames ys xs r first last y x c) (events_from m s) = 0.
Proof.
  intros s m y x c Hm. apply countZ_zero. intros [m' v] Hin.
  apply events_from_ge in Hin. unfold in_cell_frames; cbn [fst snd]. fold fs.
  replace (m' / fs <? last) with false; [rewrite andb_false_r; reflexivity|].
  symmetry; apply Z.ltb_ge. apply Z.div_le_lower_bound; [apply fs_pos|lia].
Qed.


Lemma fill_frames_norm : forall frame a v s,
  fill_array_with_stream w ys xs nch first last r fs frame a (v :: s) =
  if frame + 1 =? last then Ok a
  else fill_array_with_stream w ys xs nch first last r 0 (frame + 1) a (v :: s).
Proof.
  intros. pose proof fs_pos as Hfs.
  cbn [fill_array_with_stream]. fold fs. rewrite Z.eqb_refl.
  replace (0 =? fs) with false by (symmetry; lia). cbn [andb].
  destruct (frame + 1 =? last); reflexivity.
Qed.

Lemma fill_sum_norm : forall frame a v s,
  fill_array_with_stream_sum w ys xs nch first last r fs frame a (v :: s) =
  if frame + 1 =? last then Ok a
  else fill_array_with_stream_sum w ys xs nch first last r 0 (frame + 1) a (v :: s).
Proof.
  intros. pose proof fs_pos as Hfs.
  cbn [fill_array_with_stream_sum]. fold fs. rewrite Z.eqb_refl.
  replace (0 =? fs) with false by (symmetry; lia). cbn [andb].
  destruct (frame + 1 =? last); reflexivity.
Qed.

Lemma fill_frames_spec : forall s nav frame (a : cube4),
  0 <= nav <= fs -> 0 <= frame < last ->
  (forall f y x c, 0 <= a f y x c < 2 ^ w) ->
  match fill_array_with_stream w ys xs nch first last r nav frame a s with
  | Ok a' => forallb fitb (events_from (frame * fs + nav) s) = true /\
      forall f y x c, 0 <= f < last - first -> 0 <= x < xs ->
        a' f y x c = (a f y x c
           + countZ (in_cell ys xs r (first + f) y x c) (events_from (frame * fs + nav) s)) mod 2 ^ w
  | Err e => e = IndexError /\ forallb fitb (events_from (frame * fs + nav) s) = false
  end.
Proof.
  pose proof fs_pos as Hfs. pose proof pow_pos as HP.
  induction s as [|v s IH]; intros nav frame a Hnav Hframe Ha.
  - cbn. split; [reflexivity|]. intros. rewrite Z.add_0_r, Z.mod_small by apply Ha. reflexivity.
  - assert (Hstep : forall nav frame a, 0 <= nav < fs -> 0 <= frame < last ->
      (forall f y x c, 0 <= a f y x c < 2 ^ w) ->
      match fill_array_with_stream w ys xs nch first last r nav frame a (v :: s) with
      | Ok a' => forallb fitb (events_from (frame * fs + nav) (v :: s)) = true /\
          forall f y x c, 0 <= f < last - first -> 0 <= x < xs ->
            a' f y x c = (a f y x c
               + countZ (in_cell ys xs r (first + f) y x c) (events_from (frame * fs + nav) (v :: s)))
               mod 2 ^ w
      | Err e => e = IndexError /\ forallb fitb (events_from (frame * fs + nav) (v :: s)) = false
      end).
    { clear nav frame a Hnav Hframe Ha. intros nav frame a Hnav Hframe Ha.
      cbn [fill_array_with_stream]. fold fs.
      replace (nav =? fs) with false by (symmetry; lia). cbn [andb].
      cbn [events_from]. unfold is_marker.
      destruct (v =? 65535) eqn:Ev; cbn [negb].
      - specialize (IH (nav + 1) frame a ltac:(lia) ltac:(lia) Ha).
        replace (frame * fs + nav + 1) with (frame * fs + (nav + 1)) by lia. exact IH.
      - cbn [forallb].
        assert (Efit : fitb (frame * fs + nav, v) = if first <=? frame then v / r <? nch else true).
        { unfold fitb; cbn [fst snd]. rewrite frame_of by lia.
          replace (frame <? last) with true by (symmetry; lia).
          rewrite andb_true_r. reflexivity. }
        rewrite Efit.
        destruct (first <=? frame) eqn:Ef.
        + destruct (v / r <? nch) eqn:Ech; [|split; reflexivity].
          cbn [andb].
          specialize (IH nav frame
            (incr4 w a (frame - first) (nav / xs) (nav mod xs) (v / r)) ltac:(lia) ltac:(lia)).
          match type of IH with (?A -> _) => assert (HA : A) end.
          { intros. unfold incr4. destruct (_ && _ && _ && _); [apply Z.mod_pos_bound; lia|apply Ha]. }
          specialize (IH HA). clear HA.
          destruct (fill_array_with_stream _ _ _ _ _ _ _ _ _ _ _) as [a'|e]; [|exact IH].
          destruct IH as [IH1 IH2]. split; [exact IH1|].
          intros f y x c Hf Hx. rewrite (IH2 f y x c Hf Hx). cbn [countZ].
          unfold in_cell at 2; cbn [fst snd]. fold fs.
          rewrite frame_of, pixel_of by lia.
          rewrite <- nav_cell by assumption.
          unfold incr4.
          replace (f =? frame - first) with (frame =? first + f)
            by (apply Bool.eq_iff_eq_true; rewrite !Z.eqb_eq; lia).
          rewrite (Z.eqb_sym y), (Z.eqb_sym x), (Z.eqb_sym c).
          rewrite <- !andb_assoc.
          destruct (andb _ _) eqn:K.
          * rewrite !andb_true_iff, !Z.eqb_eq in K. destruct K as (K1 & K2 & K3 & K4).
            replace (frame - first) with f by lia. rewrite K2, K3, K4.
            rewrite Zplus_mod_idemp_l. f_equal. lia.
          * f_equal. 
        + cbn [andb].
          specialize (IH nav frame a ltac:(lia) ltac:(lia) Ha).
          destruct (fill_array_with_stream _ _ _ _ _ _ _ _ _ _ _) as [a'|e]; [|exact IH].
          destruct IH as [IH1 IH2]. split; [exact IH1|].
          intros f y x c Hf Hx. rewrite (IH2 f y x c Hf Hx). cbn [countZ].
          unfold in_cell at 2; cbn [fst snd]. fold fs.
          rewrite frame_of, pixel_of by lia.
          replace (frame =? first + f) with false by (symmetry; lia).
          cbn [andb]. f_equal. }
    destruct (nav =? fs) eqn:Eend.
    + apply Z.eqb_eq in Eend. subst nav. rewrite fill_frames_norm.
      destruct (frame + 1 =? last) eqn:Elast.
      * apply Z.eqb_eq in Elast.
        replace (frame * fs + fs) with (last * fs) by nia.
        split; [apply late_events_fit; lia|]. intros.
        rewrite late_events_cell by lia. rewrite Z.add_0_r, Z.mod_small by apply Ha. reflexivity.
      * apply Z.eqb_neq in Elast.
        replace (frame * fs + fs) with ((frame + 1) * fs + 0) by nia.
        apply Hstep; [lia|lia|exact Ha].
    + apply Z.eqb_neq in Eend. apply Hstep; [lia|lia|exact Ha].
Qed.

Lemma fill_sum_spec : forall s nav frame (a : cube3),
  0 <= nav <= fs -> 0 <= frame < last ->
  (forall y x c, 0 <= a y x c < 2 ^ w) ->
  match fill_array_with_stream_sum w ys xs nch first last r nav frame a s with
  | Ok a' => forallb fitb (events_from (frame * fs + nav) s) = true /\
      forall y x c, 0 <= x < xs ->
        a' y x c = (a y x c
           + countZ (in_cell_frames ys xs r first last y x c) (events_from (frame * fs + nav) s)) mod 2 ^ w
  | Err e => e = IndexError /\ forallb fitb (events_from (frame * fs + nav) s) = false
  end.
Proof.
  pose proof fs_pos as Hfs. pose proof pow_pos as HP.
  induction s as [|v s IH]; intros nav frame a Hnav Hframe Ha.
  - cbn. split; [reflexivity|]. intros. rewrite Z.add_0_r, Z.mod_small by apply Ha. reflexivity.
  - assert (Hstep : forall nav frame a, 0 <= nav < fs -> 0 <= frame < last ->
      (forall y x c, 0 <= a y x c < 2 ^ w) ->
      match fill_array_with_stream_sum w ys xs nch first last r nav frame a (v :: s) with
      | Ok a' => forallb fitb (events_from (frame * fs + nav) (v :: s)) = true /\
          forall y x c, 0 <= x < xs ->
            a' y x c = (a y x c
               + countZ (in_cell_frames ys xs r first last y x c) (events_from (frame * fs + nav) (v :: s)))
               mod 2 ^ w
      | Err e => e = IndexError /\ forallb fitb (events_from (frame * fs + nav) (v :: s)) = false
      end).
    { clear nav frame a Hnav Hframe Ha. intros nav frame a Hnav Hframe Ha.
      cbn [fill_array_with_stream_sum]. fold fs.
      replace (nav =? fs) with false by (symmetry; lia). cbn [andb].
      cbn [events_from]. unfold is_marker.
      destruct (v =? 65535) eqn:Ev; cbn [negb].
      - specialize (IH (nav + 1) frame a ltac:(lia) ltac:(lia) Ha).
        replace (frame * fs + nav + 1) with (frame * fs + (nav + 1)) by lia. exact IH.
      - cbn [forallb].
        assert (Efit : fitb (frame * fs + nav, v) = if first <=? frame then v / r <? nch else true).
        { unfold fitb; cbn [fst snd]. rewrite frame_of by lia.
          replace (frame <? last) with true by (symmetry; lia).
          rewrite andb_true_r. reflexivity. }
        rewrite Efit.
        destruct (first <=? frame) eqn:Ef.
        + destruct (v / r <? nch) eqn:Ech; [|split; reflexivity].
          cbn [andb].
          specialize (IH nav frame
            (incr3 w a (nav / xs) (nav mod xs) (v / r)) ltac:(lia) ltac:(lia)).
          match type of IH with (?A -> _) => assert (HA : A) end.
          { intros. unfold incr3. destruct (_ && _ && _); [apply Z.mod_pos_bound; lia|apply Ha]. }
          specialize (IH HA). clear HA.
          destruct (fill_array_with_stream_sum _ _ _ _ _ _ _ _ _ _ _) as [a'|e]; [|exact IH].
          destruct IH as [IH1 IH2]. split; [exact IH1|].
          intros y x c Hx. rewrite (IH2 y x c Hx). cbn [countZ].
          unfold in_cell_frames at 2; cbn [fst snd]. fold fs.
          rewrite frame_of, pixel_of by lia. rewrite Ef.
          replace (frame <? last) with true by (symmetry; lia). cbn [andb].
          rewrite <- nav_cell by assumption.
          unfold incr3.
          rewrite (Z.eqb_sym y), (Z.eqb_sym x), (Z.eqb_sym c).
          rewrite <- !andb_assoc.
          destruct (andb _ _) eqn:K.
          * rewrite !andb_true_iff, !Z.eqb_eq in K. destruct K as (K2 & K3 & K4).
            rewrite K2, K3, K4.
            rewrite Zplus_mod_idemp_l. f_equal. lia.
          * f_equal. 
        + cbn [andb].
          specialize (IH nav frame a ltac:(lia) ltac:(lia) Ha).
          destruct (fill_array_with_stream_sum _ _ _ _ _ _ _ _ _ _ _) as [a'|e]; [|exact IH].
          destruct IH as [IH1 IH2]. split; [exact IH1|].
          intros y x c Hx. rewrite (IH2 y x c Hx). cbn [countZ].
          unfold in_cell_frames at 2; cbn [fst snd]. fold fs.
          rewrite frame_of, pixel_of by lia. rewrite Ef.
          cbn [andb]. f_equal. }
    destruct (nav =? fs) eqn:Eend.
    + apply Z.eqb_eq in Eend. subst nav. rewrite fill_sum_norm.
      destruct (frame + 1 =? last) eqn:Elast.
      * apply Z.eqb_eq in Elast.
        replace (frame * fs + fs) with (last * fs) by nia.
        split; [apply late_events_fit; lia|]. intros.
        rewrite late_events_cell_frames by lia. rewrite Z.add_0_r, Z.mod_small by apply Ha. reflexivity.
      * apply Z.eqb_neq in Elast.
        replace (frame * fs + fs) with ((frame + 1) * fs + 0) by nia.
        apply Hstep; [lia|lia|exact Ha].
    + apply Z.eqb_neq in Eend. apply Hstep; [lia|lia|exact Ha].
Qed.
End Dense.

Section Sparse.
Variables ys xs first last r : Z.
Hypothesis Hys : 0 < ys.
Hypothesis Hxs : 0 < xs.
Hypothesis Hr : 0 < r.
Hypothesis Hfirst : 0 <= first < last.
Let fs := xs * ys.
Variable P : Z -> bool.

Lemma sfs_pos : 0 < fs.
Proof. unfold fs; nia. Qed.

(** Sum of the stored values whose frame satisfies [P] and whose other coordinates match. *)
Definition wsum (y x c : Z) (l : list coo4) : Z :=
  sumZ (map (fun e => if P (c4_frame e) && ((c4_y e =? y) && (c4_x e =? x)) && (c4_c e =? c)
                      then c4_data e else 0) l).

Definition gsel (y x c : Z) (e : Z * Z) : bool :=
  (first <=? fst e / fs) && (fst e / fs <? last) && P (fst e / fs - first)
  && (fst e mod fs =? y * xs + x) && (snd e / r =? c).

Definition pending (frame nav data ch y x c : Z) : Z :=
  if negb (data =? 0) && P (frame - first) && (nav =? y * xs + x) && (ch / r =? c) then data else 0.

Lemma late_gsel : forall s m y x c, last * fs <= m ->
  countZ (gsel y x c) (events_from m s) = 0.
Proof.
  intros s m y x c Hm. apply countZ_zero. intros [m' v] Hin.
  apply events_from_ge in Hin. unfold gsel; cbn [fst snd].
  replace (m' / fs <? last) with false; [rewrite andb_false_r; reflexivity|].
  symmetry; apply Z.ltb_ge. apply Z.div_le_lower_bound; [apply sfs_pos|lia].
Qed.

Lemma wsum_app : forall y x c a b, wsum y x c (a ++ b) = wsum y x c a + wsum y x c b.
Proof. intros. unfold wsum. rewrite map_app, sumZ_app. reflexivity. Qed.

Lemma wsum_flush : forall frame nav data ch y x c, 0 <= x < xs ->
  wsum y x c (if negb (data =? 0)
    then [Coo4 (frame - first) (nav / xs) (nav mod xs) (ch / r) data] else [])
  = pending frame nav data ch y x c.
Proof.
  intros. unfold wsum, pending. destruct (data =? 0); cbn [negb map sumZ andb]; [reflexivity|].
  cbn [c4_frame c4_y c4_x c4_c c4_data]. rewrite nav_cell by assumption.
  destruct (_ && _ && _); lia.
Qed.

Lemma sparse_norm : forall frame ch v s, first <= frame ->
  sparse_frames xs fs first last r fs frame 0 ch (v :: s) =
  if frame + 1 =? last then []
  else sparse_frames xs fs first last r 0 (frame + 1) 0 ch (v :: s).
Proof.
  intros. pose proof sfs_pos as Hfs.
  cbn [sparse_frames].
  replace (frame <? first) with false by (symmetry; lia).
  replace (frame + 1 <? first) with false by (symmetry; lia).
  rewrite Z.eqb_refl. replace (0 =? fs) with false by (symmetry; lia). cbn [andb].
  destruct (frame + 1 =? last); reflexivity.
Qed.

Lemma sparse_main : forall s nav frame data ch y x c,
  0 <= nav <= fs -> (nav = fs -> data = 0) -> first <= frame < last -> 0 <= data -> 0 <= x < xs ->
  wsum y x c (sparse_frames xs fs first last r nav frame data ch s) =
  pending frame nav data ch y x c + countZ (gsel y x c) (events_from (frame * fs + nav) s).
Proof.
  pose proof sfs_pos as Hfs.
  induction s as [|v s IH]; intros nav frame data ch y x c Hnav Hend Hframe Hdata Hx.
  - cbn [sparse_frames events_from countZ]. rewrite wsum_flush by assumption. lia.
  - assert (Hstep : forall nav frame data ch y x c,
      0 <= nav < fs -> first <= frame < last -> 0 <= data -> 0 <= x < xs ->
      wsum y x c (sparse_frames xs fs first last r nav frame data ch (v :: s)) =
      pending frame nav data ch y x c + countZ (gsel y x c) (events_from (frame * fs + nav) (v :: s))).
    { clear - IH Hfs Hr Hxs. intros nav frame data ch y x c Hnav Hframe Hdata Hx.
      cbn [sparse_frames].
      replace (frame <? first) with false by (symmetry; lia).
      replace (nav =? fs) with false by (symmetry; lia). cbn [andb].
      cbn [events_from]. unfold is_marker.
      destruct (v =? 65535) eqn:Ev; cbn [negb].
      - rewrite wsum_app, wsum_flush by assumption.
        rewrite (IH (nav + 1) frame 0 ch y x c) by lia.
        replace (frame * fs + nav + 1) with (frame * fs + (nav + 1)) by lia.
        unfold pending at 2. cbn [Z.eqb negb andb]. lia.
      - cbn [countZ].
        assert (Eg : gsel y x c (frame * fs + nav, v) =
                     P (frame - first) && (nav =? y * xs + x) && (v / r =? c)).
        { unfold gsel; cbn [fst snd]. rewrite frame_of, pixel_of by lia.
          replace (first <=? frame) with true by (symmetry; lia).
          replace (frame <? last) with true by (symmetry; lia). reflexivity. }
        rewrite Eg.
        destruct (data =? 0) eqn:Ed; cbn [negb].
        + rewrite (IH nav frame 1 v y x c) by lia.
          apply Z.eqb_eq in Ed. subst data.
          unfold pending. cbn [Z.eqb negb andb]. lia.
        + destruct (v =? ch) eqn:Ech.
          * apply Z.eqb_eq in Ech. subst v.
            rewrite (IH nav frame (data + 1) ch y x c) by lia.
            unfold pending. rewrite Ed.
            replace (data + 1 =? 0) with false by (symmetry; lia). cbn [negb andb].
            destruct (_ && _ && _); lia.
          * change (?e :: ?l) with ([e] ++ l). rewrite wsum_app.
            rewrite (IH nav frame 1 v y x c) by lia.
            pose proof (wsum_flush frame nav data ch y x c Hx) as Hf. rewrite Ed in Hf. cbn [negb] in Hf.
            rewrite Hf.
            unfold pending at 2. cbn [Z.eqb negb andb]. lia. }
    destruct (nav =? fs) eqn:Eend.
    + apply Z.eqb_eq in Eend. specialize (Hend Eend). subst nav data. rewrite sparse_norm by lia.
      unfold pending. cbn [Z.eqb negb andb].
      destruct (frame + 1 =? last) eqn:Elast.
      * apply Z.eqb_eq in Elast.
        replace (frame * fs + fs) with (last * fs) by nia.
        rewrite late_gsel by lia. reflexivity.
      * apply Z.eqb_neq in Elast.
        replace (frame * fs + fs) with ((frame + 1) * fs + 0) by nia.
        rewrite Hstep by lia. unfold pending. reflexivity.
    + apply Z.eqb_neq in Eend. apply Hstep; lia.
Qed.

Lemma sparse_skip : forall s nav frame ch y x c,
  0 <= nav < fs -> 0 <= frame < first -> 0 <= x < xs ->
  wsum y x c (sparse_frames xs fs first last r nav frame 0 ch s) =
  countZ (gsel y x c) (events_from (frame * fs + nav) s).
Proof.
  pose proof sfs_pos as Hfs.
  induction s as [|v s IH]; intros nav frame ch y x c Hnav Hframe Hx.
  - reflexivity.
  - cbn [sparse_frames events_from]. unfold is_marker.
    replace (frame <? first) with true by (symmetry; lia).
    destruct (v =? 65535) eqn:Ev; cbn [negb].
    + destruct (nav + 1 =? fs) eqn:Efs.
      * apply Z.eqb_eq in Efs.
        replace (frame * fs + nav + 1) with ((frame + 1) * fs + 0) by lia.
        destruct (Z.eq_dec (frame + 1) first) as [E|E].
        -- rewrite sparse_main by lia. unfold pending. cbn [Z.eqb negb andb]. lia.
        -- apply IH; lia.
      * apply Z.eqb_neq in Efs.
        replace (frame * fs + nav + 1) with (frame * fs + (nav + 1)) by lia.
        apply IH; lia.
    + rewrite IH by lia. cbn [countZ].
      unfold gsel at 2; cbn [fst snd]. rewrite frame_of by lia.
      replace (first <=? frame) with false by (symmetry; lia). cbn [andb]. reflexivity.
Qed.

Lemma sparse_wsum : forall s y x c, 0 <= x < xs ->
  wsum y x c (sparse_frames xs fs first last r 0 0 0 0 s) = countZ (gsel y x c) (events s).
Proof.
  intros. pose proof sfs_pos as Hfs. unfold events.
  change 0 with (0 * fs + 0) at 5.
  destruct (Z.eq_dec first 0) as [E|E].
  - rewrite sparse_main by lia. unfold pending. cbn [Z.eqb negb andb]. lia.
  - apply sparse_skip; lia.
Qed.
End Sparse.

(** The summed variant stores the same elements without their frame. *)
Definition drop_frame (e : coo4) : coo3 := Coo3 (c4_y e) (c4_x e) (c4_c e) (c4_data e).

Lemma sparse_sum_map : forall xs fs first last r s nav frame data ch,
  sparse_sum xs fs first last r nav frame data ch s =
  map drop_frame (sparse_frames xs fs first last r nav frame data ch s).
Proof.
  induction s as [|v s IH]; intros; cbn [sparse_sum sparse_frames].
  - destruct (data =? 0); reflexivity.
  - destruct (frame <? first).
    + destruct (negb _); [apply IH|]. destruct (_ =? _); apply IH.
    + destruct (nav =? fs); cbn [andb].
      * destruct (frame + 1 =? last).
        -- destruct (data =? 0); reflexivity.
        -- destruct (v =? 65535); cbn [negb].
           ++ rewrite map_app, IH. f_equal. destruct (data =? 0); reflexivity.
           ++ destruct (data =? 0); cbn [negb]; [apply IH|].
              destruct (v =? ch); [apply IH|]. cbn [map]. rewrite IH. reflexivity.
      * destruct (v =? 65535); cbn [negb].
        -- rewrite map_app, IH. f_equal. destruct (data =? 0); reflexivity.
        -- destruct (data =? 0); cbn [negb]; [apply IH|].
           destruct (v =? ch); [apply IH|]. cbn [map]. rewrite IH. reflexivity.
Qed.

Lemma sparse_frames_count : forall ys xs first last r s f y x c,
  0 < ys -> 0 < xs -> 0 < r -> 0 <= first < last -> 0 <= f < last - first -> 0 <= x < xs ->
  stream_to_sparse_frames ys xs last first r s f y x c = event_count ys xs r s (first + f) y x c.
Proof.
  intros ys xs first last r s f y x c Hys Hxs Hr Hf Hff Hx.
  unfold stream_to_sparse_frames, coo4_dense, event_count.
  rewrite (countZ_ext _ _ (gsel ys xs first last r (fun k => k =? f) y x c)).
  - rewrite <- sparse_wsum by lia. unfold wsum. f_equal. apply map_ext. intros e.
    rewrite <- !andb_assoc. reflexivity.
  - intros [m v] _. unfold in_cell, gsel; cbn [fst snd].
    replace (ys * xs) with (xs * ys) by lia.
    destruct (m / (xs * ys) =? first + f) eqn:E.
    + apply Z.eqb_eq in E. rewrite E.
      replace (first <=? first + f) with true by (symmetry; lia).
      replace (first + f <? last) with true by (symmetry; lia).
      replace (first + f - first =? f) with true by (symmetry; lia). reflexivity.
    + apply Z.eqb_neq in E.
      replace (m / (xs * ys) - first =? f) with false by (symmetry; lia).
      rewrite andb_false_r. reflexivity.
Qed.

Lemma sparse_sum_count : forall ys xs first last r s y x c,
  0 < ys -> 0 < xs -> 0 < r -> 0 <= first < last -> 0 <= x < xs ->
  stream_to_sparse_sum ys xs last first r s y x c = event_count_frames ys xs r first last s y x c.
Proof.
  intros ys xs first last r s y x c Hys Hxs Hr Hf Hx.
  unfold stream_to_sparse_sum, coo3_dense, event_count_frames.
  rewrite sparse_sum_map, map_map.
  rewrite (countZ_ext _ _ (gsel ys xs first last r (fun _ => true) y x c)).
  - rewrite <- sparse_wsum by lia. unfold wsum. f_equal. 
  - intros [m v] _. unfold in_cell_frames, gsel; cbn [fst snd].
    replace (ys * xs) with (xs * ys) by lia. rewrite andb_true_r. reflexivity.
Qed.

Lemma fitb_channels : forall ys xs nch first last r s,
  0 < ys -> 0 < xs ->
  forallb (fitb ys xs nch first last r) (events s) = true <-> channels_fit ys xs r first last nch s.
Proof.
  intros. unfold channels_fit. rewrite forallb_forall. split.
  - intros H1 m v Hin Hm. specialize (H1 _ Hin). unfold fitb in H1; cbn [fst snd] in H1.
    replace (first <=? m / (ys * xs)) with true in H1 by (symmetry; lia).
    replace (m / (ys * xs) <? last) with true in H1 by (symmetry; lia).
    cbn [andb] in H1. lia.
  - intros H1 [m v] Hin. unfold fitb; cbn [fst snd].
    destruct ((first <=? m / (ys * xs)) && (m / (ys * xs) <? last)) eqn:E; [|reflexivity].
    apply andb_true_iff in E. apply Z.ltb_lt. apply (H1 m v Hin). lia.
Qed.

Lemma dense_frames_count : forall w ys xs channels first last r s,
  0 < w -> 0 < ys -> 0 < xs -> 0 < r -> 0 <= first < last ->
  channels_fit ys xs r first last (channels / r) s ->
  exists a, stream_to_array_frames w ys xs channels last first r s = Ok a /\
    forall f y x c, 0 <= f < last - first -> 0 <= x < xs ->
      a f y x c = event_count ys xs r s (first + f) y x c mod 2 ^ w.
Proof.
  intros w ys xs channels first last r s Hw Hys Hxs Hr Hf Hfit.
  pose proof (fill_frames_spec w ys xs (channels / r) first last r Hw Hys Hxs Hr s 0 0 zeros4) as H.
  assert (0 < ys * xs) by nia.
  specialize (H ltac:(lia) ltac:(lia)).
  assert (HP : 0 < 2 ^ w) by (apply Z.pow_pos_nonneg; lia).
  specialize (H ltac:(intros; unfold zeros4; lia)).
  unfold stream_to_array_frames.
  destruct (fill_array_with_stream _ _ _ _ _ _ _ _ _ _ _) as [a|e].
  - exists a. split; [reflexivity|]. intros. destruct H as [_ H]. rewrite H by lia. reflexivity.
  - destruct H as [_ H]. change (events_from (0 * (ys * xs) + 0) s) with (events s) in H.
    rewrite (proj2 (fitb_channels _ _ _ _ _ _ _ Hys Hxs) Hfit) in H. discriminate.
Qed.

Lemma dense_frames_error : forall w ys xs channels first last r s,
  0 < w -> 0 < ys -> 0 < xs -> 0 < r -> 0 <= first < last ->
  ~ channels_fit ys xs r first last (channels / r) s ->
  stream_to_array_frames w ys xs channels last first r s = Err IndexError.
Proof.
  intros w ys xs channels first last r s Hw Hys Hxs Hr Hf Hfit.
  pose proof (fill_frames_spec w ys xs (channels / r) first last r Hw Hys Hxs Hr s 0 0 zeros4) as H.
  assert (0 < ys * xs) by nia.
  specialize (H ltac:(lia) ltac:(lia)).
  assert (HP : 0 < 2 ^ w) by (apply Z.pow_pos_nonneg; lia).
  specialize (H ltac:(intros; unfold zeros4; lia)).
  unfold stream_to_array_frames.
  destruct (fill_array_with_stream _ _ _ _ _ _ _ _ _ _ _) as [a|e].
  - destruct H as [H _]. exfalso. apply Hfit. apply fitb_channels; assumption.
  - destruct H as [-> _]. reflexivity.
Qed.

Lemma dense_sum_count : forall w ys xs channels first last r s,
  0 < w -> 0 < ys -> 0 < xs -> 0 < r -> 0 <= first < last ->
  channels_fit ys xs r first last (channels / r) s ->
  exists a, stream_to_array_sum w ys xs channels last first r s = Ok a /\
    forall y x c, 0 <= x < xs ->
      a y x c = event_count_frames ys xs r first last s y x c mod 2 ^ w.
Proof.
  intros w ys xs channels first last r s Hw Hys Hxs Hr Hf Hfit.
  pose proof (fill_sum_spec w ys xs (channels / r) first last r Hw Hys Hxs Hr s 0 0 zeros3) as H.
  assert (0 < ys * xs) by nia.
  specialize (H ltac:(lia) ltac:(lia)).
  assert (HP : 0 < 2 ^ w) by (apply Z.pow_pos_nonneg; lia).
  specialize (H ltac:(intros; unfold zeros3; lia)).
  unfold stream_to_array_sum.
  destruct (fill_array_with_stream_sum _ _ _ _ _ _ _ _ _ _ _) as [a|e].
  - exists a. split; [reflexivity|]. intros. destruct H as [_ H]. rewrite H by lia. reflexivity.
  - destruct H as [_ H]. change (events_from (0 * (ys * xs) + 0) s) with (events s) in H.
    rewrite (proj2 (fitb_channels _ _ _ _ _ _ _ Hys Hxs) Hfit) in H. discriminate.
Qed.

Lemma dense_sum_error : forall w ys xs channels first last r s,
  0 < w -> 0 < ys -> 0 < xs -> 0 < r -> 0 <= first < last ->
  ~ channels_fit ys xs r first last (channels / r) s ->
  stream_to_array_sum w ys xs channels last first r s = Err IndexError.
Proof.
  intros w ys xs channels first last r s Hw Hys Hxs Hr Hf Hfit.
  pose proof (fill_sum_spec w ys xs (channels / r) first last r Hw Hys Hxs Hr s 0 0 zeros3) as H.
  assert (0 < ys * xs) by nia.
  specialize (H ltac:(lia) ltac:(lia)).
  assert (HP : 0 < 2 ^ w) by (apply Z.pow_pos_nonneg; lia).
  specialize (H ltac:(intros; unfold zeros3; lia)).
  unfold stream_to_array_sum.
  destruct (fill_array_with_stream_sum _ _ _ _ _ _ _ _ _ _ _) as [a|e].
  - destruct H as [H _]. exfalso. apply Hfit. apply fitb_channels; assumption.
  - destruct H as [-> _]. reflexivity.
Qed.

(** Summing over frames and over channel bins. *)
Lemma countZ_partition : forall A (p : A -> bool) (q : Z -> A -> bool) (n : nat) a l,
  (forall x, In x l -> (if p x then 1 else 0) = sumZ (map (fun k => if q k x then 1 else 0) (zseq a n))) ->
  countZ p l = sumZ (map (fun k => countZ (q k) l) (zseq a n)).
Proof.
  intros A p q n a. induction l as [|x l IH]; intros H; cbn [countZ].
  - clear H. induction (zseq a n) as [|k ks IHk]; cbn; [reflexivity|rewrite <- IHk; reflexivity].
  - rewrite IH by (intros; apply H; right; assumption).
    rewrite H by (left; reflexivity). clear IH H.
    induction (zseq a n) as [|k ks IHk]; cbn [map sumZ]; [reflexivity|]. cbn [countZ]. lia.
Qed.

Lemma sum_indicator : forall n a t, sumZ (map (fun k => if t =? k then 1 else 0) (zseq a n)) =
  if (a <=? t) && (t <? a + Z.of_nat n) then 1 else 0.
Proof.
  induction n as [|n IH]; intros a t; cbn [zseq map sumZ].
  - destruct ((a <=? t) && (t <? a + Z.of_nat 0)) eqn:E; [lia|reflexivity].
  - rewrite IH. destruct (t =? a) eqn:E; destruct ((a + 1 <=? t) && _) eqn:E1;
    destruct ((a <=? t) && _) eqn:E2; lia.
Qed.

Lemma sum_const_zero : forall A (l : list A), sumZ (map (fun _ => 0) l) = 0.
Proof. induction l; simpl; auto. Qed.

Lemma event_count_frames_sum : forall ys xs r first last s y x c,
  0 < ys -> 0 < xs -> first <= last ->
  event_count_frames ys xs r first last s y x c =
  sumZ (map (fun f => event_count ys xs r s f y x c) (zseq first (Z.to_nat (last - first)))).
Proof.
  intros. unfold event_count_frames, event_count.
  apply countZ_partition. intros [m v] _. unfold in_cell_frames, in_cell; cbn [fst snd].
  destruct ((m mod (ys * xs) =? y * xs + x) && (v / r =? c)) eqn:E.
  - rewrite <- !andb_assoc, E, andb_true_r.
    erewrite map_ext; [|intros k; rewrite <- andb_assoc, E, andb_true_r; reflexivity].
    rewrite sum_indicator.
    replace (first + Z.of_nat (Z.to_nat (last - first))) with last by lia. reflexivity.
  - rewrite <- !andb_assoc, E, !andb_false_r.
    erewrite map_ext; [|intros k; rewrite <- andb_assoc, E, andb_false_r; reflexivity].
    rewrite sum_const_zero. reflexivity.
Qed.

Lemma event_count_rebin : forall ys xs r s f y x c, 0 < r ->
  event_count ys xs r s f y x c =
  sumZ (map (fun k => event_count ys xs 1 s f y x k) (zseq (c * r) (Z.to_nat r))).
Proof.
  intros. unfold event_count.
  apply countZ_partition. intros [m v] _. unfold in_cell; cbn [fst snd].
  destruct ((m / (ys * xs) =? f) && (m mod (ys * xs) =? y * xs + x)) eqn:E; cbn [andb].
  - erewrite map_ext; [|intros k; rewrite Z.div_1_r; reflexivity].
    rewrite sum_indicator.
    clear E.
    destruct (v / r =? c) eqn:E1;
      destruct ((c * r <=? v) && (v <? c * r + Z.of_nat (Z.to_nat r))) eqn:E2; try reflexivity.
    + apply Z.eqb_eq in E1.
      pose proof (Z.div_mod v r ltac:(lia)) as D. pose proof (Z.mod_pos_bound v r ltac:(lia)) as B.
      rewrite E1 in D. rewrite (Z.mul_comm r c) in D. clear E1.
      generalize dependent (v mod r). intros t D B. generalize dependent (c * r). intros. lia.
    + apply Z.eqb_neq in E1. exfalso. apply E1.
      symmetry. clear E1. apply Z.div_unique with (v - c * r); [|lia].
      generalize dependent (c * r). intros. lia.
  - rewrite sum_const_zero. reflexivity.
Qed.

(** Array to stream. *)
Lemma events_from_repeat : forall n m v s, v <> 65535 ->
  events_from m (repeat v n ++ s) = repeat (m, v) n ++ events_from m s.
Proof.
  induction n as [|n IH]; intros m v s Hv; [reflexivity|].
  cbn [repeat app events_from]. unfold is_marker.
  replace (v =? 65535) with false by (symmetry; lia).
  rewrite IH by assumption. reflexivity.
Qed.

Lemma events_from_last_marker : forall s m, events_from m (s ++ [65535]) = events_from m s.
Proof.
  induction s as [|v s IH]; intros m; [reflexivity|].
  cbn [app events_from]. destruct (is_marker v); rewrite IH; reflexivity.
Qed.

Lemma a2s_last : forall channels flat channel,
  0 < channels -> 0 <= channel < channels -> flat <> [] ->
  (channel + Z.of_nat (List.length flat)) mod channels = 0 ->
  exists s, array_to_stream_loop channels channel flat = s ++ [65535].
Proof.
  induction flat as [|v flat IH]; intros channel Hch Hc Hne Hmod; [congruence|].
  cbn [array_to_stream_loop].
  destruct flat as [|v' flat'].
  - cbn [List.length] in Hmod. change (Z.of_nat 1) with 1 in Hmod. rewrite Hmod.
    exists (repeat channel (Z.to_nat v)). reflexivity.
  - destruct ((channel + 1) mod channels =? 0) eqn:E.
    + apply Z.eqb_eq in E.
      assert (channel + 1 = channels).
      { destruct (Z.eq_dec (channel + 1) channels); [assumption|].
        rewrite Z.mod_small in E by lia. lia. }
      destruct (IH 0) as [s Hs]; [lia|lia|congruence| |].
      { cbn [List.length] in *.
        replace (channel + Z.of_nat (S (S (List.length flat'))))
          with (0 + Z.of_nat (S (List.length flat')) + 1 * channels) in Hmod by lia.
        rewrite Z.mod_add in Hmod by lia. exact Hmod. }
      rewrite Hs. exists (repeat channel (Z.to_nat v) ++ 65535 :: s).
      rewrite <- app_assoc. reflexivity.
    + destruct (IH (channel + 1)) as [s Hs]; [lia| |congruence| |].
      { apply Z.eqb_neq in E.
        destruct (Z.eq_dec (channel + 1) channels); [|lia].
        rewrite e, Z.mod_same in E by lia. lia. }
      { cbn [List.length] in *. 
        replace (channel + 1 + Z.of_nat (S (List.length flat')))
          with (channel + Z.of_nat (S (S (List.length flat')))) by lia. exact Hmod. }
      rewrite Hs. exists (repeat channel (Z.to_nat v) ++ s).
      rewrite <- app_assoc. reflexivity.
Qed.

Lemma a2s_events : forall channels flat p q,
  0 < channels <= 65535 -> 0 <= p -> 0 <= q -> Forall (fun v => 0 <= v) flat ->
  countZ (fun e => (fst e * channels + snd e =? q))
     (events_from (p / channels) (array_to_stream_loop channels (p mod channels) flat))
  = if p <=? q then nth (Z.to_nat (q - p)) flat 0 else 0.
Proof.
  induction flat as [|v flat IH]; intros p q Hch Hp Hq Hall.
  - cbn. destruct (p <=? q); [destruct (Z.to_nat _); reflexivity|reflexivity].
  - inversion Hall as [|? ? Hv Hall']; subst.
    pose proof (Z.mod_pos_bound p channels ltac:(lia)) as Hb.
    cbn [array_to_stream_loop].
    rewrite events_from_repeat by lia.
    rewrite countZ_app, countZ_repeat. cbn [fst snd].
    pose proof (Z.div_mod p channels ltac:(lia)) as Edm.
    replace (p / channels * channels + p mod channels) with p by lia.
    assert (Erest : forall s,
      s = (if (p mod channels + 1) mod channels =? 0
        then 65535 :: array_to_stream_loop channels 0 flat
        else array_to_stream_loop channels (p mod channels + 1) flat) ->
      events_from (p / channels) s =
      events_from ((p + 1) / channels) (array_to_stream_loop channels ((p + 1) mod channels) flat)).
    { intros s ->. destruct (_ =? 0) eqn:E.
      - apply Z.eqb_eq in E.
        assert (p mod channels + 1 = channels).
        { destruct (Z.eq_dec (p mod channels + 1) channels); [assumption|].
          rewrite Z.mod_small in E by lia. lia. }
        assert ((p + 1) mod channels = 0).
        { replace (p + 1) with (0 + (p / channels + 1) * channels) by nia.
          rewrite Z.mod_add by lia. apply Z.mod_0_l; lia. }
        assert ((p + 1) / channels = p / channels + 1).
        { replace (p + 1) with ((p / channels + 1) * channels) by nia.
          apply Z.div_mul; lia. }
        rewrite H0, H1. reflexivity.
      - apply Z.eqb_neq in E.
        assert (p mod channels + 1 < channels).
        { destruct (Z.eq_dec (p mod channels + 1) channels); [|lia].
          rewrite e, Z.mod_same in E by lia. lia. }
        assert ((p + 1) / channels = p / channels).
        { symmetry. apply Z.div_unique with (p mod channels + 1); lia. }
        assert ((p + 1) mod channels = p mod channels + 1).
        { symmetry. apply Z.mod_unique with (p / channels); lia. }
        rewrite H0, H1. reflexivity. }
    rewrite (Erest _ eq_refl), (IH (p + 1) q) by (assumption || lia).
    destruct (p =? q) eqn:Epq.
    + apply Z.eqb_eq in Epq. subst q.
      replace (p <=? p) with true by (symmetry; lia).
      replace (p + 1 <=? p) with false by (symmetry; lia).
      rewrite Z.sub_diag. cbn. lia.
    + apply Z.eqb_neq in Epq.
      destruct (p <=? q) eqn:E1.
      * replace (p + 1 <=? q) with true by (symmetry; lia).
        replace (Z.to_nat (q - p)) with (S (Z.to_nat (q - (p + 1)))) by lia.
        cbn [nth]. lia.
      * replace (p + 1 <=? q) with false by (symmetry; lia). lia.
Qed.

Lemma a2s_channels : forall channels flat channel m e,
  0 < channels <= 65535 -> 0 <= channel < channels ->
  In e (events_from m (array_to_stream_loop channels channel flat)) -> 0 <= snd e < channels.
Proof.
  induction flat as [|v flat IH]; intros channel m e Hch Hc Hin; [contradiction|].
  cbn [array_to_stream_loop] in Hin.
  rewrite events_from_repeat in Hin by lia.
  apply in_app_or in Hin. destruct Hin as [Hin|Hin].
  - apply repeat_spec in Hin. subst e. cbn [snd]. lia.
  - destruct ((channel + 1) mod channels =? 0) eqn:E.
    + cbn [events_from] in Hin. unfold is_marker in Hin. cbn in Hin.
      eapply IH; [| |exact Hin]; lia.
    + eapply IH; [| |exact Hin]; [lia|].
      apply Z.eqb_neq in E.
      destruct (Z.eq_dec (channel + 1) channels); [|lia].
      rewrite e0, Z.mod_same in E by lia. lia.
Qed.

Lemma a2s_removelast_events : forall channels flat,
  0 < channels -> Z.of_nat (List.length flat) mod channels = 0 ->
  events (array_to_stream channels flat) = events_from 0 (array_to_stream_loop channels 0 flat).
Proof.
  intros channels flat Hch Hmod. unfold array_to_stream, events.
  destruct flat as [|v flat]; [reflexivity|].
  destruct (a2s_last channels (v :: flat) 0) as [s Hs]; [lia|lia|congruence|exact Hmod|].
  rewrite Hs. rewrite removelast_last. rewrite events_from_last_marker. reflexivity.
Qed.

Lemma array_stream_round_trip : forall w ys xs channels frames flat,
  0 < w -> 0 < ys -> 0 < xs -> 0 < channels <= 65535 -> 0 < frames ->
  Z.of_nat (List.length flat) = frames * ys * xs * channels ->
  Forall (fun v => 0 <= v < 2 ^ w) flat ->
  exists a, stream_to_array_frames w ys xs channels frames 0 1 (array_to_stream channels flat) = Ok a /\
    forall f y x c, 0 <= f < frames -> 0 <= y < ys -> 0 <= x < xs -> 0 <= c < channels ->
      a f y x c = nth (Z.to_nat (((f * ys + y) * xs + x) * channels + c)) flat 0.
Proof.
  intros w ys xs channels frames flat Hw Hys Hxs Hch Hfr Hlen Hall.
  assert (Hmod : Z.of_nat (List.length flat) mod channels = 0).
  { rewrite Hlen. apply Z.mod_mul; lia. }
  assert (Hpos : Forall (fun v => 0 <= v) flat).
  { eapply Forall_impl; [|exact Hall]. cbn. lia. }
  destruct (dense_frames_count w ys xs channels 0 frames 1 (array_to_stream channels flat))
    as [a [Ha Hcells]]; try lia.
  { intros m v Hin _. rewrite a2s_removelast_events in Hin by lia.
    apply a2s_channels in Hin; [|lia|lia]. cbn [snd] in Hin.
    rewrite !Z.div_1_r. lia. }
  exists a. split; [exact Ha|]. intros f y x c Hf Hy Hx Hc.
  rewrite Hcells by lia. unfold event_count. rewrite a2s_removelast_events by lia.
  set (q := ((f * ys + y) * xs + x) * channels + c).
  assert (Hq : 0 <= q).
  { unfold q. assert (0 <= f * ys) by nia. assert (0 <= (f * ys + y) * xs) by nia. nia. }
  rewrite (countZ_ext _ _ (fun e => fst e * channels + snd e =? q)).
  - pose proof (a2s_events channels flat 0 q Hch ltac:(lia) Hq Hpos) as H.
    rewrite Z.div_0_l, Z.mod_0_l in H by lia. rewrite H.
    replace (0 <=? q) with true by (symmetry; lia). rewrite Z.sub_0_r.
    apply Z.mod_small.
    destruct (nth_in_or_default (Z.to_nat q) flat 0) as [Hin|Hd].
    + rewrite Forall_forall in Hall. apply Hall; assumption.
    + rewrite Hd. assert (0 < 2 ^ w) by (apply Z.pow_pos_nonneg; lia). lia.
  - intros [m v] Hin. pose proof (a2s_channels channels flat 0 0 (m, v) Hch ltac:(lia) Hin) as Hv.
    cbn [snd] in Hv. pose proof (events_from_ge _ _ _ _ Hin) as Hm.
    unfold in_cell; cbn [fst snd]. rewrite Z.div_1_r, Z.add_0_l.
    assert (0 <= y * xs + x < ys * xs) by nia.
    apply Bool.eq_iff_eq_true. rewrite !andb_true_iff, !Z.eqb_eq. unfold q. split.
    + intros [[E1 E2] E3]. subst c.
      pose proof (Z.div_mod m (ys * xs) ltac:(lia)) as E. rewrite E1, E2 in E.
      subst m. lia.
    + intros E.
      assert (Em : m = (f * ys + y) * xs + x).
      { assert ((m * channels + v) / channels = m).
        { rewrite Z.div_add_l by lia. rewrite Z.div_small by lia. apply Z.add_0_r. }
        assert ((((f * ys + y) * xs + x) * channels + c) / channels = (f * ys + y) * xs + x).
        { rewrite Z.div_add_l by lia. rewrite Z.div_small by lia. apply Z.add_0_r. }
        congruence. }
      replace m with (f * (ys * xs) + (y * xs + x)) by lia.
      rewrite frame_of, pixel_of by lia. repeat split; try lia.
Qed.
