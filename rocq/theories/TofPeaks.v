(** Peak data of Tofwerk files: from events (C115) and stored (C116). *)
From Coq Require Import QArith Sorting.Sorted Permutation.
From Verif Require Import Base Text HierModel DistModel DistProps RowMajor SfsModel DateModel DateProps HierProof ProtoFile TofModel TofProps.
Local Open Scope Z_scope.

(** * Active channels *)
(** The digits after Ch?Record=, from left to right *)
Inductive records : pystr -> list Z -> Prop :=
| R_end : records [] []
| R_hit d e r l : is_digit d = true -> is_digit e = true -> records r l -> records (str "Ch" ++ d :: str "Record=" ++ e :: r) ((e - 48) :: l)
| R_skip c s l : (forall d e r, is_digit d = true -> is_digit e = true -> c :: s <> str "Ch" ++ d :: str "Record=" ++ e :: r) -> records s l -> records (c :: s) l.
Lemma channel_spec : forall s k r, channel s = Some (k, r) <-> exists d e, is_digit d = true /\ is_digit e = true /\ s = str "Ch" ++ d :: str "Record=" ++ e :: r /\ k = e - 48.
Proof.
  intros s k r. split.
  - unfold channel. destruct s as [|a [|b [|d s]]]; try discriminate. destruct ((a =? 67) && (b =? 104) && is_digit d && startswith (str "Record=") s) eqn:E; [|discriminate]. apply andb_true_iff in E. destruct E as [E S]. apply andb_true_iff in E. destruct E as [E D]. apply startswith_spec in S. destruct S as [q ->].
    change (skipn 7 (str "Record=" ++ q)) with q. destruct q as [|e q]; [discriminate|]. destruct (is_digit e) eqn:DE; [|discriminate]. intro H. injection H as <- <-. exists d, e. repeat split; try assumption. assert (a = 67) by lia. assert (b = 104) by lia. subst. reflexivity.
  - intros (d & e & D & E & -> & ->). unfold channel. change (str "Ch" ++ d :: str "Record=" ++ e :: r) with (67 :: 104 :: d :: str "Record=" ++ e :: r). cbv iota. rewrite D, startswith_app. cbn [Z.eqb Pos.eqb andb]. change (skipn 7 (str "Record=" ++ e :: r)) with (e :: r). cbv iota. rewrite E. reflexivity.
Qed.
Lemma channels_records : forall s l, records s l -> forall fuel, (List.length s < fuel)%nat -> channels fuel s = l.
Proof.
  intros s l R. induction R as [|d e r l D E R IH|c s l N R IH]; intros fuel F; (destruct fuel as [|fuel]; [lia|]); cbn [channels].
  - reflexivity.
  - replace (channel (str "Ch" ++ d :: str "Record=" ++ e :: r)) with (Some (e - 48, r)) by (symmetry; apply channel_spec; exists d, e; auto). rewrite IH; [reflexivity|]. rewrite app_length in F. cbn [List.length] in F. rewrite app_length in F. cbn [List.length] in F. lia.
  - destruct (channel (c :: s)) as [[k r]|] eqn:C; [apply channel_spec in C; destruct C as (d & e & D & E & C & _); destruct (N d e r D E C)|]. apply IH. cbn [List.length] in F. lia.
Qed.
Theorem C115_channels : forall ini l, records ini l -> active_channels ini = Z.max 1 (sumZ l).
Proof. intros ini l R. unfold active_channels. rewrite (channels_records ini l R) by lia. apply Z.max_comm. Qed.
(** Every text has its list *)
Lemma records_total : forall fuel s, (List.length s < fuel)%nat -> exists l, records s l.
Proof.
  induction fuel as [|fuel IH]; intros s L; [lia|]. destruct (channel s) as [[k r]|] eqn:E.
  - apply channel_spec in E. destruct E as (d & e & D & E & -> & ->). destruct (IH r) as [l R]; [rewrite app_length in L; cbn [List.length] in L; rewrite app_length in L; cbn [List.length] in L; lia|]. eexists. apply R_hit; eassumption.
  - destruct s as [|c s]; [exists []; constructor|]. destruct (IH s) as [l R]; [cbn [List.length] in L; lia|]. exists l. apply R_skip; [|exact R]. intros d e r D F C. assert (channel (c :: s) = Some (e - 48, r)) by (apply channel_spec; exists d, e; auto). congruence.
Qed.
(** * The ratio of the clocks, rounded *)
Theorem C115_ratio : forall t c s, t_clock t = Some c -> t_sample t = Some s -> (0 < c)%Q -> (s - c * (1 # 2) <= inject_Z (clock_ratio t) * c <= s + c * (1 # 2))%Q.
Proof.
  intros t c s C S P. unfold clock_ratio. rewrite C, S. replace (Qeq_bool c 0) with false; [|symmetry; apply not_true_iff_false; intro E; apply Qeq_bool_iff in E; rewrite E in P; exact (Qlt_irrefl _ P)].
  assert (N : ~ (c == 0)%Q) by (intro E; rewrite E in P; exact (Qlt_irrefl _ P)). assert (E : (s == (s / c) * c)%Q) by (field; exact N). set (q := (s / c)%Q) in *. assert (B : (q - (1 # 2) <= inject_Z (round_q q) <= q + (1 # 2))%Q).
  { unfold round_q. pose proof (rhe_err (Qnum q) (Zpos (Qden q)) ltac:(lia)) as H. destruct q as [n d]. cbn [Qnum Qden] in H |- *. set (z := round_half_even n (Zpos d)) in *. unfold Qle, Qminus, Qplus, Qopp, inject_Z. cbn [Qnum Qden]. split; nia. }
  destruct B as [B1 B2]. assert (PC : (0 <= c)%Q) by (apply Qlt_le_weak; exact P). split.
  - setoid_replace (s - c * (1 # 2))%Q with ((q - (1 # 2)) * c)%Q by (rewrite E at 1; ring). apply Qmult_le_compat_r; assumption.
  - setoid_replace (s + c * (1 # 2))%Q with ((q + (1 # 2)) * c)%Q by (rewrite E at 1; ring). apply Qmult_le_compat_r; assumption.
Qed.
(** * Peak data from events *)
Definition clips (start stop n m : Z) : Prop := start + m = Z.min stop n \/ Z.min stop n <= start /\ m = 0.
Lemma clip_clips : forall start stop n, clips start stop n (clip start stop n).
Proof. intros. unfold clips, clip. lia. Qed.
Lemma sliced_spec : forall ev start stop nw ns nx, e_shape ev = (nw, ns, nx) -> 0 <= start <= stop -> stop <= nw -> e_shape (sliced ev start stop) = (stop - start, ns, nx) /\ forall w s x, 0 <= w < stop - start -> e_at (sliced ev start stop) w s x = e_at ev (w + start) s x.
Proof.
  intros ev start stop nw ns nx E S L. unfold sliced. rewrite E. destruct ((start =? 0) && (stop =? nw)) eqn:B; [rewrite E; split; [f_equal; f_equal; lia|intros; f_equal; lia]|]. cbn [e_shape e_at]. split; [unfold clip; f_equal; f_equal; lia|reflexivity].
Qed.
Theorem C115_events : forall numba t m ev peaks start stop nw ns nx norm, t_masses t = Some m -> t_events t = Some ev -> e_shape ev = (nw, ns, nx) -> 0 <= start <= stop -> stop <= nw -> clock_ratio t <> 0 ->
  norm = (match t_waveforms t with Some n => n | None => 1 end * active_channels (t_ini t)) ->
  exists a, from_events numba t peaks start stop = Ok a /\ a_shape a = [stop - start; ns; nx; zlen peaks] /\
    forall w s x k, 0 <= w < stop - start -> 0 <= s < ns -> 0 <= x < nx -> 0 <= k < zlen peaks ->
      exists n, number_of (fun e => exists q, mass_of m (clock_ratio t) e q /\ belongs peaks q (Z.to_nat k)) (e_at ev (w + start) s x) n /\ a_at a [w; s; x; k] = n / norm.
Proof.
  intros numba t m ev peaks start stop nw ns nx norm M E ES S L R NO. unfold from_events. rewrite M, E. destruct (sliced_spec ev start stop nw ns nx ES S L) as [SS SA]. set (ev' := sliced ev start stop) in *. rewrite <- NO. unfold peak_data. destruct (mapM_ok _ _ (fun ws => row_counts numba m (zlen m) (clock_ratio t) peaks (row_of ev' (fst ws) (snd ws))) (rows ev')) as (ys & Y & _).
  { intros ws _. destruct (C115_counts numba m (clock_ratio t) peaks (row_of ev' (fst ws) (snd ws)) R) as (r & ER & _). exists r. exact ER. }
  rewrite Y. cbn [bind]. rewrite SS. eexists. split; [reflexivity|]. split; [reflexivity|]. intros w s x k W HS X K. cbn [a_at]. destruct (C115_counts numba m (clock_ratio t) peaks (row_of ev' w s) R) as (r & ER & _ & H). rewrite ER.
  assert (NX : nth_error (row_of ev' w s) (Z.to_nat x) = Some (e_at ev (w + start) s x)). { unfold row_of. rewrite SS. rewrite (map_nth_error (fun x => e_at ev' w s x) _ _ (nth_error_zseq (Z.to_nat nx) 0 (Z.to_nat x) ltac:(lia))). f_equal. rewrite SA by lia. f_equal. lia. }
  destruct (H _ _ NX) as (counts & C & CL & N). rewrite (nth_error_nth _ _ _ C). exists (nth (Z.to_nat k) counts 0). split; [|reflexivity]. apply N. unfold zlen in K. lia.
Qed.
(** * Stored peak data *)
(** The peaks of a kind with a mass in the range, in a given order *)
Definition chosen (l : list peak) (P : peak -> Prop) (R : nat -> nat -> Prop) (c : list nat) : Prop :=
  StronglySorted R c /\ forall i, In i c <-> exists p, nth_error l i = Some p /\ P p.
Definition by_mass (l : list peak) (i j : nat) : Prop := let m k := p_mass (peak_at l k) in (m i < m j)%Q \/ (m i == m j)%Q /\ (i < j)%nat.
Definition nominal (p : peak) : Prop := exists r, p_label p = str "nominal" ++ r.
Definition ranged (mz : option (Q * Q)) (p : peak) : Prop := match mz with Some (a, b) => (a <= p_mass p <= b)%Q | None => True end.
Lemma nominal_spec : forall p, is_nominal p = true <-> nominal p.
Proof. intro p. unfold is_nominal, nominal. apply startswith_spec. Qed.
Lemma ranged_spec : forall mz p, in_range mz (p_mass p) = true <-> ranged mz p.
Proof. intros [[a b]|] p; unfold in_range, ranged; [rewrite andb_true_iff, !Qle_bool_iff; tauto|tauto]. Qed.
Lemma columns_from : forall f l s, map fst (filter (fun ip : nat * peak => f (snd ip)) (combine (seq s (List.length l)) l)) = filter (fun i => f (peak_at l (i - s))) (seq s (List.length l)) /\
  filter f l = map (fun i => peak_at l (i - s)) (map fst (filter (fun ip : nat * peak => f (snd ip)) (combine (seq s (List.length l)) l))).
Proof.
  intros f l. induction l as [|p l IH]; intro s; [split; reflexivity|]. destruct (IH (S s)) as [A B]. cbn [List.length seq combine filter snd]. replace (s - s)%nat with O by lia. change (peak_at (p :: l) 0) with p.
  assert (SH : forall i, In i (seq (S s) (List.length l)) -> peak_at (p :: l) (i - s) = peak_at l (i - S s)). { intros i I. apply in_seq in I. replace (i - s)%nat with (S (i - S s)) by lia. reflexivity. }
  assert (A' : filter (fun i => f (peak_at (p :: l) (i - s))) (seq (S s) (List.length l)) = filter (fun i => f (peak_at l (i - S s))) (seq (S s) (List.length l))) by (apply filter_ext_in; intros i I; rewrite SH by exact I; reflexivity).
  assert (B' : map (fun i => peak_at (p :: l) (i - s)) (map fst (filter (fun ip : nat * peak => f (snd ip)) (combine (seq (S s) (List.length l)) l))) = filter f l). { rewrite B. apply map_ext_in. intros i I. apply SH. rewrite A in I. apply filter_In in I. tauto. }
  split; destruct (f p); cbn [map fst].
  - rewrite A', A. reflexivity.
  - rewrite A', A. reflexivity.
  - replace (s - s)%nat with O by lia. rewrite B'. reflexivity.
  - symmetry. exact B'.
Qed.
Lemma columns_spec : forall f l, columns f l = filter (fun i => f (peak_at l i)) (seq 0 (List.length l)) /\ filter f l = map (peak_at l) (columns f l).
Proof.
  intros f l. destruct (columns_from f l 0) as [A B]. unfold columns. split; [rewrite A; apply filter_ext; intro i; rewrite Nat.sub_0_r; reflexivity|]. rewrite B at 1. apply map_ext. intro i. rewrite Nat.sub_0_r. reflexivity.
Qed.
Lemma seq_sorted : forall n s, StronglySorted lt (seq s n).
Proof. induction n as [|n IH]; intro s; cbn [seq]; constructor; [apply IH|]. apply Forall_forall. intros x X. apply in_seq in X. lia. Qed.
Lemma filter_sorted : forall A (R : A -> A -> Prop) f l, StronglySorted R l -> StronglySorted R (filter f l).
Proof. intros A R f l S. induction S as [|a l S IH F]; cbn [filter]; [constructor|]. destruct (f a); [|exact IH]. constructor; [exact IH|]. apply Forall_forall. intros x X. apply filter_In in X. rewrite Forall_forall in F. apply F. tauto. Qed.
Lemma columns_in : forall f l i, In i (columns f l) <-> exists p, nth_error l i = Some p /\ f p = true.
Proof.
  intros f l i. destruct (columns_spec f l) as [-> _]. rewrite filter_In, in_seq. split.
  - intros [I F]. exists (peak_at l i). split; [|exact F]. unfold peak_at. apply nth_error_nth'. lia.
  - intros (p & N & F). assert (i < List.length l)%nat by (apply nth_error_Some; rewrite N; discriminate). split; [lia|]. unfold peak_at. rewrite (nth_error_nth _ _ _ N). exact F.
Qed.
Lemma sorted_increasing : forall l, StronglySorted lt l -> increasing l = true.
Proof. induction l as [|a l IH]; intro S; [reflexivity|]. inversion S as [|? ? S1 F]; subst. destruct l as [|b l]; [reflexivity|]. cbn [increasing]. rewrite Forall_forall in F. apply andb_true_iff. split; [apply Nat.ltb_lt; apply F; left; reflexivity|apply IH; exact S1]. Qed.
Lemma filter_map' : forall A B (h : A -> B) g l, filter g (map h l) = map h (filter (fun x => g (h x)) l).
Proof. intros A B h g l. induction l as [|a l IH]; [reflexivity|]. cbn [map filter]. destruct (g (h a)); cbn [map]; rewrite IH; reflexivity. Qed.
Lemma sel_filter : forall (h : nat -> peak) g l, map snd (filter (fun pi : peak * nat => g (p_mass (fst pi))) (combine (map h l) l)) = filter (fun i => g (p_mass (h i))) l.
Proof. intros h g l. induction l as [|a l IH]; [reflexivity|]. cbn [map combine filter fst]. destruct (g (p_mass (h a))); cbn [map snd]; rewrite IH; reflexivity. Qed.
(** A stored array is read *)
Lemma read_spec : forall a start stop cols nw ns nx np, a_shape a = [nw; ns; nx; np] -> increasing cols = true -> (forall c, In c cols -> Z.of_nat c < np) -> 0 <= start <= stop -> stop <= nw ->
  exists b, read_columns a start stop cols = Ok b /\ a_shape b = [stop - start; ns; nx; zlen cols] /\ forall w s x k, a_at b [w; s; x; k] = a_at a [w + start; s; x; Z.of_nat (nth (Z.to_nat k) cols O)].
Proof.
  intros a start stop cols nw ns nx np A I C S L. unfold read_columns. rewrite A, I. cbn [negb]. replace (forallb (fun c => Z.of_nat c <? np) cols) with true by (symmetry; apply forallb_forall; intros c H; specialize (C c H); lia). eexists. split; [reflexivity|]. cbn [a_shape a_at]. split; [unfold clip; f_equal; lia|reflexivity].
Qed.
Section Stored.
  Variable numba : bool.
  Variable t : tof.
  Variables start stop : Z.
  Variable mz : option (Q * Q).
  Variables nsegs nx : Z.
  (** The peaks chosen, the axis and the data *)
  Definition peak_signal (k : kind) (c : list nat) (tab : list peak) (elements : array -> Prop) (s : signal) : Prop :=
    s_kind s = k /\ s_axes s = peak_axes (stop - start) nsegs nx (map (fun i => p_mass (peak_at (table t) i)) c) (pixel_size t nx) /\ s_table s = Some tab /\
    exists a, s_data s = Elements a /\ a_shape a = [stop - start; nsegs; nx; zlen c] /\ elements a.
  Definition stored (a : array) (c : list nat) (b : array) : Prop := forall w y x k i, nth_error c k = Some i -> a_at b [w; y; x; Z.of_nat k] = a_at a [w + start; y; x; Z.of_nat i].
  Lemma chosen_lt : forall P R c, chosen (table t) P R c -> forall i, In i c -> (i < List.length (table t))%nat.
  Proof. intros P R c [_ C] i I. apply C in I. destruct I as (p & N & _). apply nth_error_Some. rewrite N. discriminate. Qed.
  Definition nominal_columns : list nat := filter (fun i => in_range mz (p_mass (peak_at (table t) i))) (columns is_nominal (table t)).
  Lemma nominal_chosen : chosen (table t) (fun p => nominal p /\ ranged mz p) lt nominal_columns.
  Proof.
    unfold chosen, nominal_columns. split; [apply filter_sorted; destruct (columns_spec is_nominal (table t)) as [-> _]; apply filter_sorted, seq_sorted|]. intro i. rewrite filter_In, columns_in. split.
    - intros [(p & N & F) G]. exists p. split; [exact N|]. split; [apply nominal_spec; exact F|apply ranged_spec]. unfold peak_at in G. rewrite (nth_error_nth _ _ _ N) in G. exact G.
    - intros (p & N & F & G). split; [exists p; split; [exact N|apply nominal_spec; exact F]|]. unfold peak_at. rewrite (nth_error_nth _ _ _ N). apply ranged_spec. exact G.
  Qed.
  Theorem C116_nominal : forall a nw np, t_data t = Some a -> a_shape a = [nw; nsegs; nx; np] -> zlen (table t) <= np -> 0 <= start <= stop -> stop <= nw ->
    exists c, chosen (table t) (fun p => nominal p /\ ranged mz p) lt c /\
      (c = [] /\ make numba t start stop mz nsegs nx Nominal = Ok [] \/
       c <> [] /\ exists s, make numba t start stop mz nsegs nx Nominal = Ok [s] /\ peak_signal Nominal c (filter is_nominal (table t)) (stored a c) s).
  Proof.
    intros a nw np D A P S L. exists nominal_columns. pose proof nominal_chosen as NC. split; [exact NC|]. cbn [make]. unfold nominal_signal. destruct (columns_spec is_nominal (table t)) as [_ F]. rewrite F, filter_map', sel_filter. fold nominal_columns. destruct nominal_columns as [|c0 c] eqn:E; [left; split; reflexivity|]. right. split; [discriminate|]. cbn [map]. rewrite D.
    destruct (read_spec a start stop (c0 :: c) nw nsegs nx np A) as (b & B & BS & BA); [apply sorted_increasing; apply NC| |exact S|exact L|]; [intros i I; apply (chosen_lt _ _ _ NC) in I; unfold zlen in P; lia|].
    rewrite B. cbn [bind]. eexists. split; [reflexivity|]. split; [reflexivity|]. split; [cbn [s_axes]; unfold peaks_axes; cbn [map]; rewrite map_map; reflexivity|]. split; [reflexivity|]. exists b. split; [reflexivity|]. split; [exact BS|]. intros w y x k i K. rewrite BA, Nat2Z.id, (nth_error_nth _ _ _ K). reflexivity.
  Qed.
  (** Peaks of the events: the counts of each *)
  Definition counted_from (ev : events) (m : list Q) (kept : list peak) (b : array) : Prop := forall w y x k, 0 <= w < stop - start -> 0 <= y < nsegs -> 0 <= x < nx -> 0 <= k < zlen kept ->
    exists n, number_of (fun e => exists q, mass_of m (clock_ratio t) e q /\ belongs kept q (Z.to_nat k)) (e_at ev (w + start) y x) n /\ a_at b [w; y; x; k] = n / (match t_waveforms t with Some n => n | None => 1 end * active_channels (t_ini t)).
  Theorem C116_nominal_events : forall ev m nw, t_data t = None -> t_events t = Some ev -> t_masses t = Some m -> e_shape ev = (nw, nsegs, nx) -> 0 <= start <= stop -> stop <= nw -> clock_ratio t <> 0 ->
    exists c, chosen (table t) (fun p => nominal p /\ ranged mz p) lt c /\
      (c = [] /\ make numba t start stop mz nsegs nx Nominal = Ok [] \/
       c <> [] /\ exists s, make numba t start stop mz nsegs nx Nominal = Ok [s] /\ peak_signal Nominal c (filter is_nominal (table t)) (counted_from ev m (map (peak_at (table t)) c)) s).
  Proof.
    intros ev m nw D EV M ES S L R. exists nominal_columns. pose proof nominal_chosen as NC. split; [exact NC|]. cbn [make]. unfold nominal_signal. destruct (columns_spec is_nominal (table t)) as [_ F]. rewrite F, filter_map', sel_filter. fold nominal_columns. destruct nominal_columns as [|c0 c] eqn:E; [left; split; reflexivity|]. right. split; [discriminate|].
    destruct (C115_events numba t m ev (map (peak_at (table t)) (c0 :: c)) start stop nw nsegs nx _ M EV ES S L R eq_refl) as (b & B & BS & BA). cbn [map] in B |- *. rewrite D, B. cbn [bind]. eexists. split; [reflexivity|]. split; [reflexivity|]. split; [cbn [s_axes]; unfold peaks_axes; cbn [map]; rewrite map_map; reflexivity|]. split; [reflexivity|]. exists b. split; [reflexivity|]. split; [rewrite BS; unfold zlen; rewrite map_length; reflexivity|exact BA].
  Qed.
  (** Additional peaks, by mass *)
  Let other := fun p => negb (is_nominal p).
  Let cols := columns other (table t).
  Let order := argsort (map p_mass (filter other (table t))).
  Definition other_columns : list nat := take O cols order.
  Lemma cols_peaks : filter other (table t) = map (peak_at (table t)) cols.
  Proof. apply columns_spec. Qed.
  Lemma ord_perm : Permutation (seq 0 (List.length cols)) order.
  Proof. unfold order, argsort. destruct (argsort_by_spec (fun i => nth i (map p_mass (filter other (table t))) 0%Q) (List.length (map p_mass (filter other (table t))))) as [P _]. replace (List.length cols) with (List.length (map p_mass (filter other (table t)))); [exact P|]. rewrite cols_peaks, !map_length. reflexivity. Qed.
  Lemma ord_lt : forall i, In i order -> (i < List.length cols)%nat.
  Proof. intros i I. apply (Permutation_in _ (Permutation_sym ord_perm)) in I. apply in_seq in I. lia. Qed.
  Lemma cols_sorted : StronglySorted lt cols.
  Proof. unfold cols. destruct (columns_spec other (table t)) as [-> _]. apply filter_sorted, seq_sorted. Qed.
  Lemma other_perm : Permutation cols other_columns.
  Proof.
    unfold other_columns, take. etransitivity; [|apply Permutation_map; exact ord_perm]. assert (G : forall l : list nat, map (fun i => nth i l O) (seq 0 (List.length l)) = l) by (clear; induction l as [|a l IH]; [reflexivity|]; cbn [List.length seq map nth]; f_equal; rewrite <- seq_shift, map_map; exact IH). rewrite G. reflexivity.
  Qed.
  Lemma sorted_peaks : take {| p_label := []; p_mass := 0; p_low := 0; p_high := 0 |} (filter other (table t)) order = map (peak_at (table t)) other_columns.
  Proof.
    unfold other_columns, take. rewrite map_map. apply map_ext_in. intros i I. apply ord_lt in I. rewrite cols_peaks. rewrite (nth_indep _ _ (peak_at (table t) O)) by (rewrite map_length; exact I). apply (map_nth (peak_at (table t))).
  Qed.
  Lemma other_sorted : StronglySorted (by_mass (table t)) other_columns.
  Proof.
    unfold other_columns, take. destruct (argsort_by_spec (fun i => nth i (map p_mass (filter other (table t))) 0%Q) (List.length (map p_mass (filter other (table t))))) as [_ S]. fold (argsort (map p_mass (filter other (table t)))) in S. fold order in S. pose proof ord_lt as LT.
    assert (KEY : forall i, (i < List.length cols)%nat -> nth i (map p_mass (filter other (table t))) 0%Q = p_mass (peak_at (table t) (nth i cols O))). { intros i I. rewrite cols_peaks, map_map. rewrite (nth_indep _ _ (p_mass (peak_at (table t) O))) by (rewrite map_length; exact I). apply (map_nth (fun x => p_mass (peak_at (table t) x))). }
    revert S LT. induction order as [|i o IH]; intros S LT; [constructor|]. inversion S as [|? ? S1 F]; subst. cbn [map]. constructor; [apply IH; [exact S1|intros j J; apply LT; right; exact J]|]. apply Forall_forall. intros x X. apply in_map_iff in X. destruct X as (j & <- & J). rewrite Forall_forall in F. specialize (F j J). unfold before in F. rewrite !KEY in F by (apply LT; [right; exact J|left; reflexivity] || (apply LT; auto with datatypes)). unfold by_mass.
    destruct F as [F|[F G]]; [left; exact F|right; split; [exact F|]]. apply (sorted_nth _ lt cols i j); [exact cols_sorted| | |exact G]; apply nth_error_nth'; apply LT; [left; reflexivity|right; exact J].
  Qed.
  Definition other_kept : list nat := filter (fun i => in_range mz (p_mass (peak_at (table t) i))) other_columns.
  Lemma other_chosen : chosen (table t) (fun p => ~ nominal p /\ ranged mz p) (by_mass (table t)) other_kept.
  Proof.
    unfold chosen, other_kept. split; [apply filter_sorted, other_sorted|]. intro i. rewrite filter_In. assert (IN : In i other_columns <-> In i cols) by (split; apply Permutation_in; [apply Permutation_sym|]; apply other_perm). rewrite IN. unfold cols. rewrite columns_in. unfold other. split.
    - intros [(p & N & F) G]. exists p. split; [exact N|]. split; [rewrite <- nominal_spec; destruct (is_nominal p); [discriminate F|discriminate]|apply ranged_spec]. unfold peak_at in G. rewrite (nth_error_nth _ _ _ N) in G. exact G.
    - intros (p & N & F & G). split; [exists p; split; [exact N|]; rewrite <- nominal_spec in F; destruct (is_nominal p); [congruence|reflexivity]|]. unfold peak_at. rewrite (nth_error_nth _ _ _ N). apply ranged_spec. exact G.
  Qed.
  Lemma argsort_nat_perm : forall l, Permutation (seq 0 (List.length l)) (argsort_nat l).
  Proof. intro l. apply (argsort_by_spec (fun i => inject_Z (Z.of_nat (nth i l O))) (List.length l)). Qed.
  Lemma argsort_nat_sorted : forall l, NoDup l -> StronglySorted lt (take O l (argsort_nat l)).
  Proof.
    intros l ND. pose proof (argsort_nat_perm l) as P. destruct (argsort_by_spec (fun i => inject_Z (Z.of_nat (nth i l O))) (List.length l)) as [_ S]. fold (argsort_nat l) in S. assert (LT : forall i, In i (argsort_nat l) -> (i < List.length l)%nat) by (intros i I; apply (Permutation_in _ (Permutation_sym P)) in I; apply in_seq in I; lia).
    unfold take. revert S LT. generalize (argsort_nat l). induction l0 as [|i o IH]; intros S LT; [constructor|]. inversion S as [|? ? S1 F]; subst. cbn [map]. constructor; [apply IH; [exact S1|intros j J; apply LT; right; exact J]|]. apply Forall_forall. intros x X. apply in_map_iff in X. destruct X as (j & <- & J). rewrite Forall_forall in F. specialize (F j J). destruct F as [F|[F G]]; [rewrite <- Zlt_Qlt in F; lia|].
    exfalso. assert (E : nth i l O = nth j l O) by (unfold inject_Z, Qeq in F; cbn [Qnum Qden] in F; lia). apply (proj1 (NoDup_nth l O) ND) in E; [lia|apply LT; left; reflexivity|apply LT; right; exact J].
  Qed.
  Theorem C116_additional : forall a nw np, t_data t = Some a -> a_shape a = [nw; nsegs; nx; np] -> zlen (table t) <= np -> 0 <= start <= stop -> stop <= nw ->
    exists c, chosen (table t) (fun p => ~ nominal p /\ ranged mz p) (by_mass (table t)) c /\
      (c = [] /\ make numba t start stop mz nsegs nx Additional = Ok [] \/
       c <> [] /\ exists s, make numba t start stop mz nsegs nx Additional = Ok [s] /\ peak_signal Additional c (filter (fun p => negb (is_nominal p)) (table t)) (stored a c) s).
  Proof.
    intros a nw np D A P S L. exists other_kept. pose proof other_chosen as NC. split; [exact NC|]. cbn [make]. unfold additional_signal. fold other. fold cols. fold order. rewrite sorted_peaks. fold other_columns. rewrite filter_map', sel_filter. fold other_kept. destruct other_kept as [|c0 c] eqn:E; [left; split; reflexivity|]. right. split; [discriminate|]. rewrite D. rewrite <- E in NC |- *. assert (MT : forall X (u v : X), match map (peak_at (table t)) other_kept with [] => u | _ :: _ => v end = v) by (intros; rewrite E; reflexivity). rewrite MT. clear MT.
    assert (FIN : forall b, a_shape b = [stop - start; nsegs; nx; zlen other_kept] -> stored a other_kept b -> exists s, (let! a := Ok b in Ok [{| s_kind := Additional; s_data := Elements a; s_axes := peaks_axes t start stop nsegs nx (map p_mass (map (peak_at (table t)) other_kept)); s_table := Some (filter other (table t)) |}]) = Ok [s] /\ peak_signal Additional other_kept (filter other (table t)) (stored a other_kept) s).
    { intros b BS BA. cbn [bind]. eexists. split; [reflexivity|]. split; [reflexivity|]. split; [cbn [s_axes]; unfold peaks_axes; rewrite map_map; reflexivity|]. split; [reflexivity|]. exists b. split; [reflexivity|]. split; [exact BS|exact BA]. }
    assert (CL : forall i, In i cols -> Z.of_nat i < np). { intros i I. unfold cols in I. apply columns_in in I. destruct I as (p & N & _). assert (i < List.length (table t))%nat by (apply nth_error_Some; rewrite N; discriminate). unfold zlen in P. lia. }
    destruct mz as [r|] eqn:MZ.
    - assert (ND : NoDup other_kept). { unfold other_kept. apply NoDup_filter. apply (Permutation_NoDup other_perm). pose proof cols_sorted as CS. clear - CS. induction CS as [|x l CS IH F]; constructor; [|exact IH]. intro I. rewrite Forall_forall in F. specialize (F x I). lia. }
      pose proof (argsort_nat_perm other_kept) as AP. set (asc := argsort_nat other_kept) in *. assert (AL : List.length asc = List.length other_kept) by (rewrite <- (Permutation_length AP); apply seq_length).
      destruct (read_spec a start stop (take O other_kept asc) nw nsegs nx np A) as (b & B & BS & BA); [apply sorted_increasing, argsort_nat_sorted; exact ND| |exact S|exact L|].
      { intros i I. unfold take in I. apply in_map_iff in I. destruct I as (j & <- & J). apply CL. apply (Permutation_in _ (Permutation_sym other_perm)). assert (K : In (nth j other_kept O) other_kept). { apply nth_In. apply (Permutation_in _ (Permutation_sym AP)) in J. apply in_seq in J. lia. } unfold other_kept in K at 2. apply filter_In in K. tauto. }
      assert (AP' : Permutation (seq 0 (List.length asc)) asc) by (rewrite AL; exact AP).
      destruct (FIN (reorder (argsort_nat asc) b)) as (s & SE & SP).
      + unfold reorder. cbn [a_shape]. rewrite BS. f_equal. f_equal. f_equal. f_equal. unfold zlen. rewrite <- (Permutation_length (argsort_nat_perm asc)), seq_length, AL. reflexivity.
      + intros w y x k i K. unfold reorder. cbn [a_at]. rewrite BA, !Nat2Z.id. assert (KL : (k < List.length asc)%nat) by (rewrite AL; apply nth_error_Some; rewrite K; discriminate). destruct (inverse_nth asc AP' k KL) as (j & J1 & J2 & J3). rewrite (nth_error_nth _ _ _ J1). unfold take. rewrite (nth_error_nth _ _ _ (map_nth_error (fun i => nth i other_kept O) _ _ J2)). rewrite (nth_error_nth _ _ _ K). reflexivity.
      + exists s. split; [|exact SP]. rewrite <- SE. rewrite B. reflexivity.
    - assert (OK : other_kept = other_columns). { unfold other_kept. rewrite MZ. cbn [in_range]. clear. induction other_columns as [|x l IH]; [reflexivity|]. cbn [filter]. rewrite IH. reflexivity. }
      destruct (read_spec a start stop cols nw nsegs nx np A) as (b & B & BS & BA); [apply sorted_increasing, cols_sorted|exact CL|exact S|exact L|].
      assert (LO : zlen cols = zlen other_kept). { rewrite OK. unfold zlen. rewrite (Permutation_length other_perm). reflexivity. }
      assert (OL : List.length order = List.length cols) by (rewrite <- (Permutation_length ord_perm); apply seq_length).
      destruct (FIN (if list_eq_dec Nat.eq_dec order (seq 0 (List.length order)) then b else reorder order b)) as (s & SE & SP).
      + rewrite <- LO. destruct (list_eq_dec _ _ _); [exact BS|]. unfold reorder. cbn [a_shape]. rewrite BS. unfold zlen. rewrite OL. reflexivity.
      + intros w y x k i K. rewrite OK in K. unfold other_columns, take in K. destruct (nth_error order k) as [j|] eqn:J; [|apply nth_error_None in J; assert (nth_error (map (fun i => nth i cols O) order) k = None) by (apply nth_error_None; rewrite map_length; exact J); congruence]. rewrite (map_nth_error _ _ _ J) in K. injection K as <-. destruct (list_eq_dec _ _ _) as [EQ|NE].
        * rewrite BA, Nat2Z.id. rewrite EQ in J. assert (KL : (k < List.length order)%nat) by (rewrite <- (seq_length (List.length order) 0); apply nth_error_Some; rewrite J; discriminate). rewrite (nth_error_nth' _ O) in J by (rewrite seq_length; exact KL). rewrite seq_nth in J by exact KL. injection J as <-. reflexivity.
        * unfold reorder. cbn [a_at]. rewrite BA, !Nat2Z.id, (nth_error_nth _ _ _ J). reflexivity.
      + exists s. split; [|exact SP]. rewrite <- SE. rewrite B. cbn [bind]. unfold filled. match goal with |- context [eqb_zs ?u ?v] => replace (eqb_zs u v) with true end; [reflexivity|]. symmetry. apply eqb_zs_spec. destruct (list_eq_dec _ _ _); [exact BS|]. unfold reorder. cbn [a_shape]. rewrite BS. unfold zlen. rewrite OL. reflexivity.
  Qed.
  Theorem C116_additional_events : forall ev m nw, t_data t = None -> t_events t = Some ev -> t_masses t = Some m -> e_shape ev = (nw, nsegs, nx) -> 0 <= start <= stop -> stop <= nw -> clock_ratio t <> 0 ->
    exists c, chosen (table t) (fun p => ~ nominal p /\ ranged mz p) (by_mass (table t)) c /\
      (c = [] /\ make numba t start stop mz nsegs nx Additional = Ok [] \/
       c <> [] /\ exists s, make numba t start stop mz nsegs nx Additional = Ok [s] /\ peak_signal Additional c (filter (fun p => negb (is_nominal p)) (table t)) (counted_from ev m (map (peak_at (table t)) c)) s).
  Proof.
    intros ev m nw D EV M ES S L R. exists other_kept. pose proof other_chosen as NC. split; [exact NC|]. cbn [make]. unfold additional_signal. fold other. fold cols. fold order. rewrite sorted_peaks. fold other_columns. rewrite filter_map', sel_filter. fold other_kept. destruct other_kept as [|c0 c] eqn:E; [left; split; reflexivity|]. right. split; [discriminate|]. rewrite D.
    destruct (C115_events numba t m ev (map (peak_at (table t)) (c0 :: c)) start stop nw nsegs nx _ M EV ES S L R eq_refl) as (b & B & BS & BA). rewrite B. cbn [map bind]. eexists. split; [reflexivity|]. split; [reflexivity|]. split; [cbn [s_axes]; unfold peaks_axes; cbn [map]; rewrite map_map; reflexivity|]. split; [reflexivity|]. exists b. split; [reflexivity|]. split; [rewrite BS; unfold zlen; rewrite map_length; reflexivity|exact BA].
  Qed.
End Stored.
