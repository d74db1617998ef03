(** Property C125: spectrum images from the event streams of Velox files. *)
From Coq Require Import QArith.
From Verif Require Import Base Text HierModel SfsModel ProtoFile RowMajor Dict FeiModel FeiSpec FeiProof FeiProps VxModel VxProps VxImage.
Local Open Scope Z_scope.

(** * Specification: number of events of a stream in a cell of the result *)
Definition cell_count (o : options) (ys xs last : Z) (words : list Z) (f y x k : Z) : Z :=
  if o_sum_frames o then event_count_frames ys xs (o_rebin o) (o_first o) last words y x k
  else event_count ys xs (o_rebin o) words (o_first o + f) y x k.
Definition sum_counts (o : options) (ys xs last : Z) (l : list (pystr * stream)) (f y x k : Z) : Z :=
  sumZ (map (fun p => cell_count o ys xs last (st_words (snd p)) f y x k) l).
(** the counts of a signal, of its cells *)
Definition holds_counts (o : options) (ys xs last w : Z) (g : signal) (n : Z -> Z -> Z -> Z -> Z) : Prop :=
  exists t, width t = Ok w /\ exists nch,
    match s_data g with
    | Cube ys' xs' nch' a t' => o_sum_frames o = true /\ (ys', xs', nch', t') = (ys, xs, nch, t) /\ forall y x k, 0 <= x < xs -> a y x k = n 0 y x k mod 2 ^ w
    | Frames m ys' xs' nch' a t' => o_sum_frames o = false /\ (m, ys', xs', nch', t') = (last - o_first o, ys, xs, nch, t) /\
        forall f y x k, 0 <= f < last - o_first o -> 0 <= x < xs -> a f y x k = n f y x k mod 2 ^ w
    | Arr _ _ _ => False
    end.
Definition good (o : options) (ys xs last : Z) : Prop := 0 < ys /\ 0 < xs /\ 0 < o_rebin o /\ 0 <= o_first o < last.

(** * Decoders *)
Definition cell (a : decoded) (f y x k : Z) : Z := match a with D3 a => a y x k | D4 a => a f y x k end.
Definition kind (o : options) (a : decoded) : Prop := match a with D3 _ => o_sum_frames o = true | D4 _ => o_sum_frames o = false end.
Definition bounded (w : Z) (a : decoded) : Prop := match a with D3 a => forall y x k, 0 <= a y x k < 2 ^ w | D4 a => forall f y x k, 0 <= a f y x k < 2 ^ w end.

Lemma incr3_bounded : forall w a y x k, 0 < w -> (forall y x k, 0 <= a y x k < 2 ^ w) -> forall y' x' k', 0 <= incr3 w a y x k y' x' k' < 2 ^ w.
Proof. intros w a y x k Hw H y' x' k'. unfold incr3. destruct (_ && _); [apply Z.mod_pos_bound; apply Z.pow_pos_nonneg; lia|apply H]. Qed.
Lemma incr4_bounded : forall w a f y x k, 0 < w -> (forall f y x k, 0 <= a f y x k < 2 ^ w) -> forall f' y' x' k', 0 <= incr4 w a f y x k f' y' x' k' < 2 ^ w.
Proof. intros w a f y x k Hw H f' y' x' k'. unfold incr4. destruct (_ && _); [apply Z.mod_pos_bound; apply Z.pow_pos_nonneg; lia|apply H]. Qed.
Lemma fill_sum_bounded : forall w ys xs nch first last r, 0 < w -> forall s nav frame a a', (forall y x k, 0 <= a y x k < 2 ^ w) ->
  fill_array_with_stream_sum w ys xs nch first last r nav frame a s = Ok a' -> forall y x k, 0 <= a' y x k < 2 ^ w.
Proof.
  intros w ys xs nch first last r Hw. induction s as [|v s IH]; intros nav frame a a' B H; cbn [fill_array_with_stream_sum] in H; [injection H as <-; exact B|].
  cbv zeta in H. destruct (_ && _); [injection H as <-; exact B|]. destruct (negb (v =? 65535)); [|exact (IH _ _ _ _ B H)].
  destruct (_ <=? _); [|exact (IH _ _ _ _ B H)]. destruct (_ <? _); [|discriminate]. refine (IH _ _ _ _ _ H). apply incr3_bounded; assumption.
Qed.
Lemma fill_frames_bounded : forall w ys xs nch first last r, 0 < w -> forall s nav frame a a', (forall f y x k, 0 <= a f y x k < 2 ^ w) ->
  fill_array_with_stream w ys xs nch first last r nav frame a s = Ok a' -> forall f y x k, 0 <= a' f y x k < 2 ^ w.
Proof.
  intros w ys xs nch first last r Hw. induction s as [|v s IH]; intros nav frame a a' B H; cbn [fill_array_with_stream] in H; [injection H as <-; exact B|].
  cbv zeta in H. destruct (_ && _); [injection H as <-; exact B|]. destruct (negb (v =? 65535)); [|exact (IH _ _ _ _ B H)].
  destruct (_ <=? _); [|exact (IH _ _ _ _ B H)]. destruct (_ <? _); [|discriminate]. refine (IH _ _ _ _ _ H). apply incr4_bounded; assumption.
Qed.
Lemma width_pos : forall t w, width t = Ok w -> 0 < w.
Proof.
  intros t w H. unfold width in H. destruct (lookup t _) as [w'|] eqn:L; [|discriminate]. injection H as <-. apply Dict.lookup_some_in in L.
  cbn [In] in L. repeat (destruct L as [L|L]; [injection L; intros; subst; lia|]). contradiction.
Qed.
Lemma to_array_counts : forall o w ys xs nch last start words a, good o ys xs last -> 0 < w ->
  match start with None => True | Some d => kind o d /\ bounded w d end ->
  to_array o w ys xs nch last start words = Ok a ->
  kind o a /\ bounded w a /\ forall f y x k, 0 <= f < last - o_first o -> 0 <= x < xs ->
    cell a f y x k = (match start with None => 0 | Some d => cell d f y x k end + cell_count o ys xs last words f y x k) mod 2 ^ w.
Proof.
  intros o w ys xs nch last start words a (Hy & Hx & Hr & Hf) Hw S H. unfold to_array, cell_count in *.
  assert (P : 0 < 2 ^ w) by (apply Z.pow_pos_nonneg; lia).
  destruct (o_sum_frames o) eqn:SF.
  - set (b := match start with Some (D3 a) => a | _ => zeros3 end) in *. assert (B : forall y x k, 0 <= b y x k < 2 ^ w).
    { intros. unfold b. destruct start as [[d|d]|]; [exact (proj2 S y x k)|unfold zeros3; lia|unfold zeros3; lia]. }
    assert (C : forall f y x k, b y x k = match start with None => 0 | Some d => cell d f y x k end).
    { intros. unfold b. destruct start as [[d|d]|]; [reflexivity| |reflexivity]. destruct S as [K _]. cbn [kind] in K. congruence. }
    destruct (fill_array_with_stream_sum w ys xs nch (o_first o) last (o_rebin o) 0 0 b words) as [a'|] eqn:F; [|discriminate]. cbn [bind] in H. injection H as <-.
    split; [exact SF|]. split; [exact (fill_sum_bounded _ _ _ _ _ _ _ Hw _ _ _ _ _ B F)|].
    pose proof (fill_sum_spec w ys xs nch (o_first o) last (o_rebin o) Hw Hy Hx Hr words 0 0 b ltac:(nia) ltac:(lia) B) as SP. rewrite F in SP. destruct SP as [_ SP].
    intros f y x k _ Hx'. cbn [cell]. rewrite SP by exact Hx'. rewrite (C f). replace (0 * (ys * xs) + 0) with 0 by lia. reflexivity.
  - destruct (last - o_first o <? 0); [discriminate|].
    set (b := match start with Some (D4 a) => a | _ => zeros4 end) in *. assert (B : forall f y x k, 0 <= b f y x k < 2 ^ w).
    { intros. unfold b. destruct start as [[d|d]|]; [unfold zeros4; lia|exact (proj2 S f y x k)|unfold zeros4; lia]. }
    assert (C : forall f y x k, b f y x k = match start with None => 0 | Some d => cell d f y x k end).
    { intros. unfold b. destruct start as [[d|d]|]; [|reflexivity|reflexivity]. destruct S as [K _]. cbn [kind] in K. congruence. }
    destruct (fill_array_with_stream w ys xs nch (o_first o) last (o_rebin o) 0 0 b words) as [a'|] eqn:F; [|discriminate]. cbn [bind] in H. injection H as <-.
    split; [exact SF|]. split; [exact (fill_frames_bounded _ _ _ _ _ _ _ Hw _ _ _ _ _ B F)|].
    pose proof (fill_frames_spec w ys xs nch (o_first o) last (o_rebin o) Hw Hy Hx Hr words 0 0 b ltac:(nia) ltac:(lia) B) as SP. rewrite F in SP. destruct SP as [_ SP].
    intros f y x k Hf' Hx'. cbn [cell]. rewrite SP by assumption. rewrite (C f). replace (0 * (ys * xs) + 0) with 0 by lia. reflexivity.
Qed.
Lemma to_sparse_counts : forall o ys xs last words, good o ys xs last ->
  kind o (to_sparse o ys xs last words) /\ forall f y x k, 0 <= f < last - o_first o -> 0 <= x < xs -> cell (to_sparse o ys xs last words) f y x k = cell_count o ys xs last words f y x k.
Proof.
  intros o ys xs last words (Hy & Hx & Hr & Hf). unfold to_sparse, cell_count. destruct (o_sum_frames o) eqn:SF; (split; [exact SF|]); intros f y x k Hf' Hx'; cbn [cell].
  - apply C02_sparse_sum_counts_events; assumption.
  - apply C02_sparse_counts_events; assumption.
Qed.
(** what the array of a stream holds before the conversion of lazy arrays *)
Definition raw (o : options) (w n : Z) : Z := if o_lazy o then n else n mod 2 ^ w.
Lemma add_kind : forall o a b, kind o a -> kind o b -> kind o (add_decoded a b).
Proof. intros o [a|a] [b|b] A B; cbn in *; congruence. Qed.
Lemma add_cell : forall o a b f y x k, kind o a -> kind o b -> cell (add_decoded a b) f y x k = cell a f y x k + cell b f y x k.
Proof. intros o [a|a] [b|b] f y x k A B; cbn in *; congruence. Qed.
Lemma add_streams_counts : forall c w ys xs nch last, good (c_opt c) ys xs last -> 0 < w -> forall l a a' (n : Z -> Z -> Z -> Z -> Z),
  kind (c_opt c) a -> (o_lazy (c_opt c) = false -> bounded w a) ->
  (forall f y x k, 0 <= f < last - o_first (c_opt c) -> 0 <= x < xs -> cell a f y x k = raw (c_opt c) w (n f y x k)) ->
  add_streams c w ys xs nch last l a = Ok a' ->
  kind (c_opt c) a' /\ forall f y x k, 0 <= f < last - o_first (c_opt c) -> 0 <= x < xs ->
    cell a' f y x k = raw (c_opt c) w (n f y x k + sum_counts (c_opt c) ys xs last l f y x k).
Proof.
  intros c w ys xs nch last G Hw. induction l as [|[key st] l IH]; intros a a' n K B C H; cbn [add_streams] in H.
  - injection H as <-. split; [exact K|]. intros f y x k Hf Hx. unfold sum_counts. cbn [map sumZ]. rewrite Z.add_0_r. apply C; assumption.
  - assert (R : forall b, kind (c_opt c) b -> (o_lazy (c_opt c) = false -> bounded w b) ->
        (forall f y x k, 0 <= f < last - o_first (c_opt c) -> 0 <= x < xs -> cell b f y x k = raw (c_opt c) w (n f y x k + cell_count (c_opt c) ys xs last (st_words st) f y x k)) ->
        add_streams c w ys xs nch last l b = Ok a' ->
        kind (c_opt c) a' /\ forall f y x k, 0 <= f < last - o_first (c_opt c) -> 0 <= x < xs -> cell a' f y x k = raw (c_opt c) w (n f y x k + sum_counts (c_opt c) ys xs last ((key, st) :: l) f y x k)).
    { intros b Kb Bb Cb Hb. destruct (IH b a' (fun f y x k => n f y x k + cell_count (c_opt c) ys xs last (st_words st) f y x k) Kb Bb Cb Hb) as [K' C']. split; [exact K'|].
      intros f y x k Hf Hx. rewrite C' by assumption. unfold sum_counts. cbn [map sumZ snd]. rewrite Z.add_assoc. reflexivity. }
    unfold raw in *. destruct (o_lazy (c_opt c)) eqn:LZ; cbn [bind] in H.
    + destruct (to_sparse_counts (c_opt c) ys xs last (st_words st) G) as [KS CS]. refine (R _ (add_kind _ _ _ K KS) (fun F => match Bool.diff_true_false F with end) _ H).
      intros f y x k Hf Hx. rewrite (add_cell _ _ _ _ _ _ _ K KS), C, CS by assumption. reflexivity.
    + destruct (to_array (c_opt c) w ys xs nch last (Some a) (st_words st)) as [b|] eqn:T; [|discriminate]. cbn [bind] in H.
      destruct (to_array_counts _ _ _ _ _ _ (Some a) _ _ G Hw (conj K (B eq_refl)) T) as (Kb & Bb & Cb). refine (R b Kb (fun _ => Bb) _ H).
      intros f y x k Hf Hx. rewrite Cb, C by assumption. rewrite Z.add_mod_idemp_l by (apply Z.pow_nonzero; lia). reflexivity.
Qed.

(** * Reading *)
Section Stream.
Variable E : env.
Lemma open_parts : forall c st s x s', open_stream E c st s = Ok (x, s') ->
  exists ys xs last t w, r_shape s = Some [ys; xs] /\ r_shape s' = Some [ys; xs] /\ r_last s' = Some last /\ r_dtype s' = Some t /\ width t = Ok w /\ r_out s' = r_out s /\
    (forall l, r_last s = Some l -> last = l) /\ (r_last s = None -> computed_frames (ys * xs) (st_words st) = Ok last) /\ (forall u, r_dtype s = Some u -> t = u) /\ (ss_bins x) mod (o_rebin (c_opt c)) = 0 /\
    (if o_lazy (c_opt c) then ss_image x = to_sparse (c_opt c) ys xs last (st_words st)
     else to_array (c_opt c) w ys xs (ss_bins x / o_rebin (c_opt c)) last None (st_words st) = Ok (ss_image x)).
Proof.
  intros c st s x s' H. unfold open_stream in H. cbv zeta in H. step H. step H. step H. destruct (o_rebin (c_opt c) =? 0) eqn:RB; [discriminate|]. destruct (negb (v1 mod o_rebin (c_opt c) =? 0)) eqn:DV; [discriminate|].
  match type of H with bind ?r _ = _ => destruct r as [t|] eqn:DT; cbn [bind] in H; [|discriminate] end. step H. step H.
  destruct (r_shape s) as [[|ys [|xs [|]]]|] eqn:SH; cbn [bind] in H; try discriminate.
  match type of H with bind ?r _ = _ => destruct r as [[last frames]|] eqn:LF; cbn [bind] in H; [|discriminate] end.
  destruct (width t) as [w|] eqn:W; cbn [bind] in H; [|discriminate].
  match type of H with bind ?r _ = _ => destruct r as [a|] eqn:A; cbn [bind] in H; [|discriminate] end. injection H as <- <-. cbn [r_shape r_last r_dtype r_out ss_bins ss_image].
  exists ys, xs, last, t, w. repeat (split; [first [reflexivity|assumption]|]). split.
  { intros l L. rewrite L in LF. injection LF as <- _. reflexivity. }
  split. { intro L. rewrite L in LF. step LF. injection LF as -> _. reflexivity. }
  split. { intros u U. rewrite U in DT. injection DT as <-. reflexivity. }
  split. { apply negb_false_iff, Z.eqb_eq in DV. exact DV. }
  destruct (o_lazy (c_opt c)); [injection A as <-; reflexivity|exact A].
Qed.
Lemma open_counts : forall c st s x s' ys xs last t w, open_stream E c st s = Ok (x, s') -> r_shape s' = Some [ys; xs] -> r_last s' = Some last -> r_dtype s' = Some t -> width t = Ok w -> good (c_opt c) ys xs last ->
  kind (c_opt c) (ss_image x) /\ (o_lazy (c_opt c) = false -> bounded w (ss_image x)) /\
  forall f y x' k, 0 <= f < last - o_first (c_opt c) -> 0 <= x' < xs -> cell (ss_image x) f y x' k = raw (c_opt c) w (cell_count (c_opt c) ys xs last (st_words st) f y x' k).
Proof.
  intros c st s x s' ys xs last t w H SH L T W G. destruct (open_parts _ _ _ _ _ H) as (ys' & xs' & last' & t' & w' & _ & SH' & L' & T' & W' & _ & _ & _ & _ & _ & A).
  rewrite SH in SH'. injection SH' as <- <-. rewrite L in L'. injection L' as <-. rewrite T in T'. injection T' as <-. rewrite W in W'. injection W' as <-. unfold raw. destruct (o_lazy (c_opt c)).
  - rewrite A. destruct (to_sparse_counts (c_opt c) ys xs last (st_words st) G) as [K C]. split; [exact K|]. split; [discriminate|]. exact C.
  - destruct (to_array_counts _ _ _ _ _ _ None _ _ G (width_pos _ _ W) Logic.I A) as (K & B & C). split; [exact K|]. split; [intros _; exact B|]. intros f y x' k Hf Hx. rewrite C by assumption. reflexivity.
Qed.
Lemma signal_counts : forall c t ys xs last axes md x g w n, stream_signal c t ys xs last axes md x = Ok g -> width t = Ok w -> good (c_opt c) ys xs last -> kind (c_opt c) (ss_image x) ->
  (forall f y x' k, 0 <= f < last - o_first (c_opt c) -> 0 <= x' < xs -> cell (ss_image x) f y x' k = raw (c_opt c) w (n f y x' k)) ->
  holds_counts (c_opt c) ys xs last w g n /\ s_axes g = axes /\ s_md g = md.
Proof.
  intros c t ys xs last axes md x g w n H W (_ & _ & _ & Hf) K C. unfold stream_signal in H. cbv zeta in H. rewrite W in H. cbn [bind] in H. step H. injection H as <-. cbn [s_axes s_md]. split; [|split; reflexivity].
  exists t. split; [exact W|]. exists (ss_bins x / o_rebin (c_opt c)). cbn [s_data]. unfold raw in C. destruct (o_lazy (c_opt c)).
  - destruct (ss_image x) as [a|a]; cbn [astype cell kind] in *; (split; [exact K|]; split; [reflexivity|]).
    + intros y x' k Hx. rewrite (C 0) by lia. reflexivity.
    + intros f y x' k Hf' Hx. rewrite C by assumption. reflexivity.
  - destruct (ss_image x) as [a|a]; cbn [cell kind] in *; (split; [exact K|]; split; [reflexivity|]).
    + intros y x' k Hx. rewrite (C 0) by lia. reflexivity.
    + intros f y x' k Hf' Hx. rewrite C by assumption. reflexivity.
Qed.

(** The state after the spectrum images of EELS: only the results can have changed *)
Lemma eels_state : forall c d s s', read_eels_images E c d s = Ok s' -> r_shape s' = r_shape s /\ r_dtype s' = r_dtype s.
Proof.
  intros c d s s' H. unfold read_eels_images in H. destruct (d_eels d) as [l|]; [|injection H as <-; split; reflexivity]. step H. step H.
  revert s H. induction l as [|[k e] l IH]; intros s H; cbn [eels_loop] in H; [injection H as <-; split; reflexivity|]. step H. destruct (IH _ H) as [A B]. split; [exact A|exact B].
Qed.
Lemma emits_state : forall gs s, r_shape (fold_left (fun s g => emit g s) gs s) = r_shape s /\ r_last (fold_left (fun s g => emit g s) gs s) = r_last s /\ r_dtype (fold_left (fun s g => emit g s) gs s) = r_dtype s.
Proof. induction gs as [|g gs IH]; intros s; cbn [fold_left]; [repeat split|]. exact (IH (emit g s)). Qed.

(** With the detectors summed, one signal: the events of all streams, modulo the width of the numbers, lazily or not *)
Theorem C125_summed : forall c d s s' l ys xs last, read_spectrum_stream E c true d s = Ok s' -> o_sum_detectors (c_opt c) = true ->
  d_stream d = Some l -> l <> [] -> r_shape s = Some [ys; xs] -> r_last s' = Some last -> good (c_opt c) ys xs last ->
  exists out g w, r_out s' = out ++ [g] /\ holds_counts (c_opt c) ys xs last w g (sum_counts (c_opt c) ys xs last l).
Proof.
  intros c d s s' l ys xs last H SD DS NE SH LA G. unfold read_spectrum_stream in H. cbn [negb] in H. cbv zeta in H. step H. rename v into s1. destruct (eels_state _ _ _ _ Ev) as [S1 _]. step H.
  cbn [set_detector r_out r_shape r_dtype r_detector] in H. rewrite DS, SD in H. destruct l as [|[key st] others]; [contradiction|].
  match type of H with bind ?r _ = _ => destruct r as [[streams s2]|] eqn:OP; cbn [bind] in H; [|discriminate] end.
  match type of OP with bind ?r _ = _ => destruct r as [[x s3]|] eqn:O1; cbn [bind] in OP; [|discriminate] end.
  destruct (open_parts _ _ _ _ _ O1) as (ys' & xs' & last' & t & w & Sa & Sb & L3 & T3 & W & _ & _ & _ & _ & _ & _). cbn [r_shape] in Sa. rewrite S1, SH in Sa. injection Sa as <- <-.
  rewrite Sb, L3, T3, W in OP. cbn [bind] in OP. step OP. injection OP as <- <-. rewrite Sb, L3, T3 in H. step H. step H. step H. step H. injection H as <-.
  match goal with X : mapM _ _ = Ok ?z |- _ => rename X into MM, z into gs end. match goal with X : add_streams _ _ _ _ _ _ _ _ = Ok ?z |- _ => rename X into AD, z into tot end.
  destruct (emits_state gs s3) as (_ & LL & _). rewrite LL, L3 in LA. injection LA as ->.
  destruct (open_counts _ _ _ _ _ _ _ _ _ _ O1 Sb L3 T3 W G) as (K & B & C).
  destruct (add_streams_counts c w ys xs (ss_bins x / o_rebin (c_opt c)) last G (width_pos _ _ W) others (ss_image x) tot _ K B C AD) as [K' C'].
  cbn [mapM] in MM. step MM. injection MM as <-. match goal with X : stream_signal _ _ _ _ _ _ _ _ = Ok ?z |- _ => rename X into SG, z into g end. rewrite emits_all. exists (r_out s3), g, w. split; [reflexivity|].
  refine (proj1 (signal_counts _ _ _ _ _ _ _ _ _ _ _ SG W G _ _)); cbn [ss_image]; [exact K'|]. intros f y x' k Hf Hx. rewrite C' by assumption. unfold sum_counts. cbn [map sumZ snd]. reflexivity.
Qed.
Lemma opens_counts : forall c l s xs' s', open_streams E c l s = Ok (xs', s') -> forall ys xs last t w, l <> [] -> r_shape s' = Some [ys; xs] -> r_last s' = Some last -> r_dtype s' = Some t -> width t = Ok w -> good (c_opt c) ys xs last ->
  Forall2 (fun p x => kind (c_opt c) (ss_image x) /\ forall f y x' k, 0 <= f < last - o_first (c_opt c) -> 0 <= x' < xs ->
     cell (ss_image x) f y x' k = raw (c_opt c) w (cell_count (c_opt c) ys xs last (st_words (snd p)) f y x' k)) l xs' /\ r_shape s = Some [ys; xs].
Proof.
  intros c. induction l as [|[key st] l IH]; intros s xs' s' H ys xs last t w NE SH L T W G; [contradiction|]. cbn [open_streams] in H.
  destruct (open_stream E c st s) as [[x s1]|] eqn:O1; cbn [bind] in H; [|discriminate]. destruct (open_streams E c l s1) as [[x2 s2]|] eqn:O2; cbn [bind] in H; [|discriminate]. injection H as <- <-.
  destruct (open_parts _ _ _ _ _ O1) as (ys' & xs'' & last' & t' & w' & Sa & Sb & L1 & T1 & W1 & _).
  assert (FIX : forall l s1 x2 s2, open_streams E c l s1 = Ok (x2, s2) -> forall a b z u, r_shape s1 = Some [a; b] -> r_last s1 = Some z -> r_dtype s1 = Some u -> r_shape s2 = Some [a; b] /\ r_last s2 = Some z /\ r_dtype s2 = Some u).
  { clear. induction l as [|[k st] l IH]; intros s1 x2 s2 H a b z u A B C; cbn [open_streams] in H; [injection H as <- <-; repeat split; assumption|].
    destruct (open_stream E c st s1) as [[x s3]|] eqn:O1; cbn [bind] in H; [|discriminate]. destruct (open_streams E c l s3) as [[x4 s4]|] eqn:O2; cbn [bind] in H; [|discriminate]. injection H as <- <-.
    destruct (open_parts _ _ _ _ _ O1) as (ys' & xs'' & last' & t' & w' & Sa & Sb & L1 & T1 & W1 & _ & LL & _ & TT & _). rewrite A in Sa. injection Sa as <- <-. rewrite (LL _ B) in L1. rewrite (TT _ C) in T1.
    exact (IH _ _ _ O2 _ _ _ _ Sb L1 T1). }
  destruct (FIX _ _ _ _ O2 _ _ _ _ Sb L1 T1) as (A & B & C). rewrite SH in A. injection A as <- <-. rewrite L in B. injection B as <-. rewrite T in C. injection C as <-. rewrite W in W1. injection W1 as <-.
  split; [|exact Sa]. destruct (open_counts _ _ _ _ _ _ _ _ _ _ O1 Sb L1 T1 W G) as (K & _ & C'). constructor; [split; [exact K|exact C']|].
  destruct l as [|p l]; [cbn [open_streams] in O2; injection O2 as <- <-; constructor|]. exact (proj1 (IH _ _ _ O2 _ _ _ _ _ ltac:(discriminate) SH L T W G)).
Qed.
(** Otherwise one signal for each stream, with its events *)
Theorem C125_each : forall c d s s' l ys xs last, read_spectrum_stream E c true d s = Ok s' -> o_sum_detectors (c_opt c) = false ->
  d_stream d = Some l -> l <> [] -> r_shape s = Some [ys; xs] -> r_last s' = Some last -> good (c_opt c) ys xs last ->
  exists out gs w, r_out s' = out ++ gs /\ Forall2 (fun p g => holds_counts (c_opt c) ys xs last w g (cell_count (c_opt c) ys xs last (st_words (snd p)))) l gs.
Proof.
  intros c d s s' l ys xs last H SD DS NE SH LA G. unfold read_spectrum_stream in H. cbn [negb] in H. cbv zeta in H. step H. rename v into s1. destruct (eels_state _ _ _ _ Ev) as [S1 _]. step H.
  cbn [set_detector r_out r_shape r_dtype r_detector] in H. rewrite DS, SD in H. destruct l as [|[key st] others]; [contradiction|].
  match type of H with bind ?r _ = _ => destruct r as [[streams s2]|] eqn:OP; cbn [bind] in H; [|discriminate] end.
  destruct streams as [|x streams]; [discriminate|]. destruct (r_shape s2) as [[|ys' [|xs' [|]]]|] eqn:SH2; try discriminate. destruct (r_last s2) as [last2|] eqn:L2; [|discriminate]. destruct (r_dtype s2) as [t|] eqn:T2; [|discriminate].
  step H. step H. step H. step H. injection H as <-. match goal with X : mapM _ _ = Ok ?z |- _ => rename X into MM, z into gs end. destruct (emits_state gs s2) as (_ & LL & _). rewrite LL, L2 in LA. injection LA as ->.
  assert (WW : exists w, width t = Ok w). { cbn [mapM] in MM. step MM. match goal with X : stream_signal _ _ _ _ _ _ _ _ = Ok ?z |- _ => unfold stream_signal in X; cbv zeta in X end. destruct (width t) as [w|]; [exists w; reflexivity|discriminate]. }
  destruct WW as [w W].
  assert (YX : ys' = ys /\ xs' = xs).
  { cbn [open_streams] in OP. match type of OP with bind ?r _ = _ => destruct r as [[x0 s3]|] eqn:O1; cbn [bind] in OP; [|discriminate] end.
    destruct (open_parts _ _ _ _ _ O1) as (a & b & last' & t' & w' & Sa & Sb & _). cbn [r_shape] in Sa. rewrite S1, SH in Sa. injection Sa as <- <-.
    match type of OP with bind ?r _ = _ => destruct r as [[x1 s4]|] eqn:O2; cbn [bind] in OP; [|discriminate] end. injection OP as <- <- <-.
    assert (FIX : forall l s1 x2 s2, open_streams E c l s1 = Ok (x2, s2) -> r_shape s2 = r_shape s1).
    { clear. induction l as [|[k st] l IH]; intros s1 x2 s2 H; cbn [open_streams] in H; [injection H as <- <-; reflexivity|].
      destruct (open_stream E c st s1) as [[x s3]|] eqn:O1; cbn [bind] in H; [|discriminate]. destruct (open_streams E c l s3) as [[x4 s4]|] eqn:O2; cbn [bind] in H; [|discriminate]. injection H as <- <-.
      rewrite (IH _ _ _ O2). exact (proj2 (proj2 (open_emits _ _ _ _ _ _ O1))). }
    rewrite (FIX _ _ _ _ O2), Sb in SH2. injection SH2 as <- <-. split; reflexivity. }
  destruct YX as [-> ->]. destruct (opens_counts _ _ _ _ _ OP ys xs last t w ltac:(discriminate) SH2 L2 T2 W G) as [F _].
  rewrite emits_all. exists (r_out s2), gs, w. split; [reflexivity|]. clear - F MM W G.
  revert gs MM. induction F as [|p x0 l xs0 [K C] F IH]; intros gs M; cbn [mapM] in M; [injection M as <-; constructor|]. step M. step M. injection M as <-. constructor; [|exact (IH _ eq_refl)].
  exact (proj1 (signal_counts _ _ _ _ _ _ _ _ _ _ _ Ev W G K C)).
Qed.
(** The default range of frames ends where the file says; a later end is refused *)
Theorem C125_frames : forall c d s s', read_spectrum_stream E c true d s = Ok s' -> d_stream d <> None -> d_stream d <> Some [] ->
  exists last, r_last s' = Some last /\
    match o_last (c_opt c), end_frame E d with
    | Some l, Some n => last = l /\ (n = 0 \/ l <= n)
    | Some l, None => last = l
    | None, Some n => last = n
    | None, None => exists ys xs key st others, d_stream d = Some ((key, st) :: others) /\ r_shape s = Some [ys; xs] /\ computed_frames (ys * xs) (st_words st) = Ok last
    end.
Proof.
  intros c d s s' H N1 N2. unfold read_spectrum_stream in H. cbn [negb] in H. cbv zeta in H. step H. rename v into s1. destruct (eels_state _ _ _ _ Ev) as [S1 _]. step H.
  cbn [set_detector r_out r_shape r_dtype r_detector] in H. destruct (d_stream d) as [[|[key st] others]|]; try congruence.
  match type of H with bind ?r _ = _ => destruct r as [[streams s2]|] eqn:OP; cbn [bind] in H; [|discriminate] end.
  assert (O : exists x s3, open_stream E c st {| r_detector := Some (JStr (str "EDS")); r_shape := r_shape s1; r_last := v; r_frames := end_frame E d; r_dtype := r_dtype s1; r_out := r_out s1 |} = Ok (x, s3) /\ r_last s2 = r_last s3).
  { destruct (o_sum_detectors (c_opt c)).
    - match type of OP with bind ?r _ = _ => destruct r as [[x s3]|] eqn:O1; cbn [bind] in OP; [|discriminate] end. exists x, s3. split; [reflexivity|].
      repeat step OP. injection OP as _ <-. congruence.
    - cbn [open_streams] in OP. match type of OP with bind ?r _ = _ => destruct r as [[x s3]|] eqn:O1; cbn [bind] in OP; [|discriminate] end. exists x, s3. split; [reflexivity|].
      match type of OP with bind ?r _ = _ => destruct r as [[x4 s4]|] eqn:O2; cbn [bind] in OP; [|discriminate] end. injection OP as _ <-.
      destruct (open_parts _ _ _ _ _ O1) as (_ & _ & last' & _ & _ & _ & _ & L1 & _). rewrite L1. clear - O2 L1. revert s3 x4 L1 O2.
      induction others as [|[k t] l IH]; intros s3 x4 L1 O2; cbn [open_streams] in O2; [injection O2 as <- <-; exact L1|].
      destruct (open_stream E c t s3) as [[x s5]|] eqn:O1; cbn [bind] in O2; [|discriminate]. destruct (open_streams E c l s5) as [[x6 s6]|] eqn:O3; cbn [bind] in O2; [|discriminate]. injection O2 as <- <-.
      destruct (open_parts _ _ _ _ _ O1) as (_ & _ & l2 & _ & _ & _ & _ & L2 & _ & _ & _ & LL & _). rewrite (LL _ L1) in L2. exact (IH _ _ L2 O3). }
  destruct O as (x & s3 & O & L). destruct (open_parts _ _ _ _ _ O) as (ys & xs & last & t & w & Sa & _ & L3 & _ & _ & _ & LA & LB & _). cbn [r_last r_shape] in *. exists last. split.
  - rewrite L3 in L. repeat step H. injection H as <-. rewrite (proj1 (proj2 (emits_state _ _))). congruence.
  - unfold check_frames in Ev0. destruct (o_last (c_opt c)) as [l|]; destruct (end_frame E d) as [n|].
    + destruct (negb (n =? 0) && (n <? l)) eqn:CK; [discriminate|]. injection Ev0 as <-. split; [exact (LA _ eq_refl)|]. lia.
    + injection Ev0 as <-. exact (LA _ eq_refl).
    + injection Ev0 as <-. exact (LA _ eq_refl).
    + injection Ev0 as <-. exists ys, xs, key, st, others. split; [reflexivity|]. split; [congruence|]. exact (LB eq_refl).
Qed.
Theorem C125_frames_refused : forall c d s l n, o_last (c_opt c) = Some l -> end_frame E d = Some n -> n <> 0 -> n < l -> exists e, read_spectrum_stream E c true d s = Err e.
Proof.
  intros c d s l n L N N0 NL. unfold read_spectrum_stream. cbn [negb]. cbv zeta. destruct (read_eels_images E c d s) as [s1|e]; [|exists e; reflexivity]. cbn [bind]. unfold check_frames. rewrite L, N.
  replace (negb (n =? 0) && (n <? l)) with true by lia. exists ValueError. reflexivity.
Qed.
(** The axes: frames unless summed, y, x and the energies, in the order of the array; all but the energies are for navigation *)
Theorem C125_axes : forall c om ys xs m nch axes, stream_axes E c om ys xs m nch = Ok axes ->
  map x_size axes = (if o_sum_frames (c_opt c) then [] else [m]) ++ [ys; xs; nch] /\
  map x_index axes = map Some (zseq 0 (if o_sum_frames (c_opt c) then 3%nat else 4%nat)) /\
  map x_name axes = (if o_sum_frames (c_opt c) then [] else [str "Time"]) ++ [str "y"; str "x"; str "X-ray energy"] /\
  map x_navigate axes = (if o_sum_frames (c_opt c) then [] else [true]) ++ [true; true; false] /\
  exists q0 q u, dispersion_offset E (o_rebin (c_opt c)) om = Ok (q, q0, u) /\
    exists l x, axes = l ++ [x] /\ x_offset x = q0 /\ x_scale x = Some q /\ x_units x = u.
Proof.
  intros c om ys xs m nch axes H. unfold stream_axes in H. cbv zeta in H. step H. step H. step H. step H.
  destruct (dispersion_offset E (o_rebin (c_opt c)) om) as [[[q q0] u]|]; cbn [bind] in H; [|discriminate]. step H. step H. destruct v4 as [[[[sy oy] sx] ox] un].
  destruct (o_sum_frames (c_opt c)); cbn [bind] in H.
  - injection H as <-. repeat (split; [reflexivity|]). exists q0, q, u. split; [reflexivity|]. eexists [_; _], _. split; [reflexivity|]. repeat split.
  - step H. step Ev5. injection Ev5 as <-. injection H as <-. repeat (split; [reflexivity|]). exists q0, q, u. split; [reflexivity|]. eexists [_; _; _], _. split; [reflexivity|]. repeat split.
Qed.
(** The computed number of frames covers every pixel that was left by a marker *)
Theorem C125_computed : forall area words n, 0 < area -> computed_frames area words = Ok n ->
  forall m, 0 <= m -> (m / area < n <-> m / area * area < countZ (fun v => v =? 65535) words).
Proof.
  intros area words n A H m M. unfold computed_frames in H. cbv zeta in H. replace (area =? 0) with false in H by lia. injection H as <-. set (k := countZ _ words). 
  pose proof (Z.div_mod (- k) area ltac:(lia)). pose proof (Z.mod_pos_bound (- k) area ltac:(lia)). split; intro; nia.
Qed.
End Stream.
Print Assumptions C125_summed.
Print Assumptions C125_each.
Print Assumptions C125_frames.
Print Assumptions C125_frames_refused.
Print Assumptions C125_axes.
Print Assumptions C125_computed.
