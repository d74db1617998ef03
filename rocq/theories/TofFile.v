(** Signals of Tofwerk files (C117). *)
From Coq Require Import QArith Sorting.Sorted Permutation.
From Verif Require Import Base Text HierModel HierProps HierProof DistModel DistProps RowMajor SfsModel ProtoFile TofModel TofProps TofPeaks.
Local Open Scope Z_scope.

(** * The sum spectrum *)
(** The first sample: after those before the first mass that is not negative, and after those that do not grow *)
Definition begins (m : list Q) (b : nat) : Prop :=
  (exists q, nth_error m b = Some q /\ (0 <= q)%Q /\ forall j p, (j < b)%nat -> nth_error m j = Some p -> (p < 0)%Q) \/ b = O /\ Forall (fun p => (p < 0)%Q) m.
Definition grows_from (m : list Q) (i : nat) : Prop := exists b, begins m b /\ (b <= i < List.length m)%nat /\
  (forall j p q, (b <= j < i)%nat -> nth_error m j = Some p -> nth_error m (S j) = Some q -> (q <= p)%Q) /\
  (forall p q, nth_error m i = Some p -> nth_error m (S i) = Some q -> (p < q)%Q).
Lemma first_positive_spec : forall m, match first_positive m with Some b => exists q, nth_error m b = Some q /\ (0 <= q)%Q /\ forall j p, (j < b)%nat -> nth_error m j = Some p -> (p < 0)%Q | None => Forall (fun p => (p < 0)%Q) m end.
Proof.
  induction m as [|a m IH]; [constructor|]. cbn [first_positive]. destruct (Qle_bool 0 a) eqn:E.
  - apply Qle_bool_iff in E. exists a. split; [reflexivity|]. split; [exact E|]. intros j p J. lia.
  - assert (N : (a < 0)%Q) by (apply Qnot_le_lt; intro C; apply Qle_bool_iff in C; congruence). destruct (first_positive m) as [b|]; cbn [option_map].
    + destruct IH as (q & Q1 & Q2 & Q3). exists q. split; [exact Q1|]. split; [exact Q2|]. intros [|j] p J H; cbn [nth_error] in H; [injection H as <-; exact N|]. apply (Q3 j p); [lia|exact H].
    + constructor; assumption.
Qed.
Lemma advance_spec : forall l i, l <> [] -> (i <= advance l i < i + List.length l)%nat /\ (forall j p q, (i + j < advance l i)%nat -> nth_error l j = Some p -> nth_error l (S j) = Some q -> (q <= p)%Q) /\ (forall p q, nth_error l (advance l i - i) = Some p -> nth_error l (S (advance l i - i)) = Some q -> (p < q)%Q).
Proof.
  induction l as [|a l IH]; intros i N; [congruence|]. destruct l as [|b l].
  - cbn [advance List.length]. split; [lia|]. split; [intros j p q J; lia|]. intros p q _ H. rewrite Nat.sub_diag in H. discriminate H.
  - replace (advance (a :: b :: l) i) with (if Qle_bool b a then advance (b :: l) (S i) else i) by reflexivity. destruct (Qle_bool b a) eqn:E.
    + apply Qle_bool_iff in E. destruct (IH (S i) ltac:(discriminate)) as (A & B & C). set (r := advance (b :: l) (S i)) in *. cbn [List.length] in *. split; [lia|]. split.
      * intros [|j] p q J P Q; cbn [nth_error] in P, Q; [injection P as <-; injection Q as <-; exact E|]. apply (B j p q); [lia|exact P|exact Q].
      * intros p q P Q. replace (r - i)%nat with (S (r - S i)) in P, Q by lia. cbn [nth_error] in P. apply (C p q); [exact P|exact Q].
    + split; [cbn [List.length]; lia|]. split; [intros j p q J; lia|]. intros p q P Q. rewrite Nat.sub_diag in P, Q. cbn [nth_error] in P, Q. injection P as <-. injection Q as <-. apply Qnot_le_lt. intro C. apply Qle_bool_iff in C. congruence.
Qed.
Lemma nth_skipn : forall A n (l : list A) i, nth_error (skipn n l) i = nth_error l (n + i).
Proof. intros A n. induction n as [|n IH]; intros [|a l] i; try reflexivity; [destruct i; reflexivity|]. apply IH. Qed.
Lemma nth_firstn : forall A n (l : list A) i, (i < n)%nat -> nth_error (firstn n l) i = nth_error l i.
Proof. intros A n. induction n as [|n IH]; intros [|a l] i L; try lia; [reflexivity|]. destruct i as [|i]; [reflexivity|]. cbn [firstn nth_error]. apply IH. lia. Qed.
Lemma first_valid_spec : forall m, m <> [] -> exists i, first_valid m = Ok i /\ grows_from m i.
Proof.
  intros m N. unfold first_valid. destruct m as [|a m]; [congruence|]. set (l := a :: m) in *. pose proof (first_positive_spec l) as F.
  set (b := match first_positive l with Some i => i | None => O end). assert (B : begins l b /\ (b < List.length l)%nat). { unfold b. destruct (first_positive l) as [k|]; [split; [left; exact F|]; destruct F as (q & Q & _); apply nth_error_Some; rewrite Q; discriminate|split; [right; split; [reflexivity|exact F]|cbn; lia]]. }
  destruct B as [B BL]. eexists. split; [reflexivity|]. exists b. split; [exact B|]. destruct (advance_spec (skipn b l) b) as (A1 & A2 & A3). { intro C. apply (f_equal (@List.length Q)) in C. rewrite skipn_length in C. cbn [List.length] in C. lia. } rewrite skipn_length in A1. split; [lia|]. split.
  - intros j p q J P Q. apply (A2 (j - b)%nat p q); [lia| |]; rewrite nth_skipn; [replace (b + (j - b))%nat with j by lia; exact P|replace (b + S (j - b))%nat with (S j) by lia; exact Q].
  - intros p q P Q. apply A3; rewrite nth_skipn; [replace (b + (advance (skipn b l) b - b))%nat with (advance (skipn b l) b) by lia; exact P|replace (b + S (advance (skipn b l) b - b))%nat with (S (advance (skipn b l) b)) by lia; exact Q].
Qed.
Lemma grows_unique : forall m i j, grows_from m i -> grows_from m j -> i = j.
Proof.
  assert (U : forall m b c, begins m b -> begins m c -> b = c).
  { intros m b c [(q & Q1 & Q2 & Q3)|[-> F]] [(r & R1 & R2 & R3)|[-> G]]; [|exfalso; rewrite Forall_forall in G; apply (Qlt_irrefl 0); eapply Qle_lt_trans; [exact Q2|apply G; exact (nth_error_In _ _ Q1)]|exfalso; rewrite Forall_forall in F; apply (Qlt_irrefl 0); eapply Qle_lt_trans; [exact R2|apply F; exact (nth_error_In _ _ R1)]|reflexivity].
    destruct (Nat.lt_trichotomy b c) as [L|[L|L]]; [exfalso|exact L|exfalso]; apply (Qlt_irrefl 0); [eapply Qle_lt_trans; [exact Q2|exact (R3 b q L Q1)]|eapply Qle_lt_trans; [exact R2|exact (Q3 c r L R1)]]. }
  assert (H : forall m i j, grows_from m i -> grows_from m j -> ~ (i < j)%nat).
  { intros m i j (b & B & I & _ & I2) (c & C & J & J1 & _) L. rewrite (U m c b C B) in *. assert (IL : (i < List.length m)%nat) by lia. assert (JL : (S i < List.length m)%nat) by lia. destruct (nth_error m i) as [p|] eqn:P; [|apply nth_error_None in P; lia]. destruct (nth_error m (S i)) as [q|] eqn:Q; [|apply nth_error_None in Q; lia]. apply (Qlt_irrefl p). eapply Qlt_le_trans; [exact (I2 p q eq_refl eq_refl)|]. exact (J1 i p q ltac:(lia) P Q). }
  intros m i j A B. destruct (Nat.lt_trichotomy i j) as [L|[L|L]]; [destruct (H m i j A B L)|exact L|destruct (H m j i B A L)].
Qed.
Section File.
  Variable numba : bool.
  Variable t : tof.
  Variables start stop : Z.
  Variable mz : option (Q * Q).
  Variables nsegs nx : Z.
  Theorem C117_sum : forall m d i, t_masses t = Some m -> t_sum t = Some d -> grows_from m i ->
    exists v ms, make numba t start stop mz nsegs nx Sum = Ok [{| s_kind := Sum; s_data := Spectrum v; s_axes := [mass_axis ms]; s_table := t_peaks t |}] /\
      List.length ms = (List.length m - i)%nat /\ List.length v = (List.length d - i)%nat /\ (forall j, nth_error ms j = nth_error m (i + j)) /\ (forall j, nth_error v j = nth_error d (i + j)).
  Proof.
    intros m d i M D G. assert (N : m <> []) by (intros ->; destruct G as (b & _ & L & _); cbn in L; lia). destruct (first_valid_spec m N) as (k & K & KG). rewrite (grows_unique m k i KG G) in K. exists (skipn i d), (skipn i m). cbn [make]. unfold sum_signal. rewrite D, M, K. cbn [bind]. split; [reflexivity|]. rewrite !skipn_length. split; [reflexivity|]. split; [reflexivity|]. split; intro j; apply nth_skipn.
  Qed.
  (** * The event list *)
  Theorem C117_events : forall ev nw, t_events t = Some ev -> e_shape ev = (nw, nsegs, nx) -> stop <= nw ->
    exists s e, make numba t start stop mz nsegs nx EventList = Ok [s] /\ s_kind s = EventList /\ s_data s = Ragged e /\ e_shape e = (stop - start, nsegs, nx) /\
      map x_size (s_axes s) = [stop - start; nsegs; nx] /\ forall w y x, e_at e w y x = e_at ev (w + start) y x.
  Proof.
    intros ev nw E S L. cbn [make]. unfold event_signal. rewrite E, S. replace ((stop <=? nw) && (nsegs =? nsegs) && (nx =? nx)) with true by lia. do 2 eexists. split; [reflexivity|]. repeat split.
  Qed.
  (** * Images *)
  Definition name_le (a b : pystr) : Prop := (exists r, b = a ++ r) \/ exists p x y r s, a = p ++ x :: r /\ b = p ++ y :: s /\ x < y.
  Lemma leb_name : forall a b, leb_str a b = true -> name_le a b.
  Proof.
    induction a as [|x a IH]; intros b H; [left; exists b; reflexivity|]. destruct b as [|y b]; [discriminate H|]. cbn [leb_str] in H. destruct (x <? y) eqn:L; [right; exists [], x, y, a, b; repeat split; lia|]. destruct (x =? y) eqn:E; [|cbn [andb] in H; try discriminate H].
    assert (x = y) by lia. subst y. assert (K : leb_str a b = true) by (revert H; destruct (leb_str a b); intro H; [reflexivity|cbn in H; congruence]). destruct (IH b K) as [(r & ->)|(p & u & v & r & s & -> & -> & Q)]; [left; exists r; reflexivity|]. right. exists (x :: p), u, v, r, s. repeat split. exact Q.
  Qed.
  Lemma sort_ordered : forall A (l : list (pystr * A)), StronglySorted (fun p q => name_le (fst p) (fst q)) (sort_items l).
  Proof.
    intros A l. assert (G : StronglySorted (fun p q => leb_str (fst p) (fst q) = true) (sort_items l)).
    { induction l as [|p l IH]; [constructor|]. cbn [sort_items]. generalize dependent (sort_items l). intros r R. induction R as [|q r R IH F]; [repeat constructor|]. cbn [insert_item]. destruct (leb_str (fst p) (fst q)) eqn:E.
      - constructor; [constructor; assumption|]. constructor; [exact E|]. apply Forall_forall. intros x X. rewrite Forall_forall in F. eapply leb_trans; [exact E|apply F; exact X].
      - constructor; [exact IH|]. assert (Q : leb_str (fst q) (fst p) = true) by (destruct (leb_total (fst p) (fst q)); congruence). assert (PM : forall u, In u (insert_item p r) -> u = p \/ In u r). { clear. induction r as [|v r IH]; cbn [insert_item]; intros u U; [destruct U as [<-|[]]; auto|]. destruct (leb_str (fst p) (fst v)); [destruct U as [<-|U]; auto|]. destruct U as [<-|U]; [right; left; reflexivity|]. destruct (IH u U) as [->|K]; [left; reflexivity|right; right; exact K]. }
        apply Forall_forall. intros u U. destruct (PM u U) as [->|K]; [exact Q|]. rewrite Forall_forall in F. apply F. exact K. }
    clear - G. induction G as [|p w G IH F]; constructor; [exact IH|]. apply Forall_forall. intros q Q. apply leb_name. rewrite Forall_forall in F. apply F. exact Q.
  Qed.
  (** The most common shape; of two that are equally common the larger one *)
  Definition number (l : list (Z * Z)) (c : Z * Z) : Z := countZ (fun d => (fst d =? fst c) && (snd d =? snd c)) l.
  Definition most_common (l : list (Z * Z)) (c : Z * Z) : Prop := In c l /\ forall d, In d l -> d = c \/ number l d < number l c \/ number l d = number l c /\ (fst d < fst c \/ fst d = fst c /\ snd d < snd c).
  Lemma number_spec : forall l c, countZ (shape_eqb c) l = number l c.
  Proof. intros l c. unfold number. apply countZ_ext. intros d _. unfold shape_eqb. rewrite (Z.eqb_sym (fst c)), (Z.eqb_sym (snd c)). reflexivity. Qed.
  Definition worse (l : list (Z * Z)) (d c : Z * Z) : Prop := d = c \/ number l d < number l c \/ number l d = number l c /\ (fst d < fst c \/ fst d = fst c /\ snd d < snd c).
  Lemma worse_trans : forall l a b c, worse l a b -> worse l b c -> worse l a c.
  Proof. intros l a b c [->|A] [->|B]; unfold worse; try tauto. right. lia. Qed.
  Lemma shape_le_spec : forall l a b, shape_le l a b = true -> worse l a b.
  Proof. intros l [a a'] [b b'] H. unfold shape_le in H. rewrite !number_spec in H. unfold worse. cbn [fst snd] in *. destruct (Z.eq_dec a b) as [->|]; [destruct (Z.eq_dec a' b') as [->|]; [left; reflexivity|]|]; right; lia. Qed.
  Lemma shape_le_not : forall l a b, shape_le l a b = false -> worse l b a.
  Proof. intros l [a a'] [b b'] H. unfold shape_le in H. rewrite !number_spec in H. unfold worse. cbn [fst snd] in *. right. lia. Qed.
  Lemma dominant_spec : forall l c, dominant l = Some c -> most_common l c.
  Proof.
    intros l0 c H. destruct l0 as [|a r]; [discriminate H|]. unfold dominant in H. set (l := a :: r) in *. assert (G : forall q best, let z := fold_left (fun best c => if shape_le l best c then c else best) q best in (z = best \/ In z q) /\ worse l best z /\ forall d, In d q -> worse l d z).
    { induction q as [|d q IH]; intro best; cbn [fold_left]; [split; [left; reflexivity|split; [left; reflexivity|intros d []]]|]. destruct (shape_le l best d) eqn:E.
      - destruct (IH d) as (A & B & C). set (z := fold_left _ q d) in *. split; [destruct A as [->|A]; right; [left; reflexivity|right; exact A]|]. split; [eapply worse_trans; [apply shape_le_spec; exact E|exact B]|]. intros e [<-|I]; [exact B|apply C; exact I].
      - destruct (IH best) as (A & B & C). set (z := fold_left _ q best) in *. split; [destruct A as [->|A]; [left; reflexivity|right; right; exact A]|]. split; [exact B|]. intros e [<-|I]; [eapply worse_trans; [apply shape_le_not; exact E|exact B]|apply C; exact I]. }
    injection H as <-. destruct (G r a) as (A & B & C). split; [destruct A as [->|A]; [left; reflexivity|right; exact A]|]. intros d [<-|I]; [exact B|apply C; exact I].
  Qed.
  Lemma dominant_some : forall l, l <> [] -> exists c, dominant l = Some c.
  Proof. intros [|a l] H; [congruence|]. eexists. reflexivity. Qed.
  Theorem C117_images : forall images, t_images t = Some images -> images <> [] -> 0 <= start < stop -> exists l c same,
    Permutation images l /\ StronglySorted (fun p q => name_le (fst p) (fst q)) l /\ most_common (map (fun p => i_shape (snd p)) l) c /\ same = filter (fun p => (fst (i_shape (snd p)) =? fst c) && (snd (i_shape (snd p)) =? snd c)) l /\
    (zlen same <= start -> make numba t start stop mz nsegs nx Fib = Err ValueError) /\
    (start < zlen same -> exists s a, make numba t start stop mz nsegs nx Fib = Ok [s] /\ s_kind s = Fib /\ s_data s = Elements a /\ a_shape a = [Z.min stop (zlen same) - start; fst c; snd c] /\ map x_size (s_axes s) = a_shape a /\ map x_scale (s_axes s) = [Some 1%Q; pixel_size t (snd c); pixel_size t (snd c)] /\
       forall k y x p, 0 <= k < stop - start -> nth_error same (Z.to_nat (start + k)) = Some p -> a_at a [k; y; x] = i_at (snd p) y x).
  Proof.
    intros images I N S. exists (sort_items images). pose proof (sort_is_perm _ images) as P. assert (NE : sort_items images <> []) by (intro C; rewrite C in P; apply Permutation_sym, Permutation_nil in P; congruence).
    destruct (dominant_some (map (fun p : pystr * picture => i_shape (snd p)) (sort_items images))) as [c C]; [destruct (sort_items images); [congruence|discriminate]|]. exists c. eexists. split; [exact P|]. split; [apply sort_ordered|]. split; [apply dominant_spec; exact C|]. split; [reflexivity|]. cbn [make]. unfold images_signal. rewrite I, C. destruct c as [ny n]. cbn [fst snd].
    unfold shape_eqb. cbn [fst snd]. set (same := filter (fun p : pystr * picture => (fst (i_shape (snd p)) =? ny) && (snd (i_shape (snd p)) =? n)) (sort_items images)). set (kept := map snd (firstn (Z.to_nat (stop - start)) (skipn (Z.to_nat start) same))). split.
    - intro L. unfold kept. rewrite skipn_all2 by (unfold zlen in L; lia). rewrite firstn_nil. reflexivity.
    - intro L. assert (KL : zlen kept = Z.min stop (zlen same) - start) by (unfold kept, zlen; rewrite map_length, firstn_length, skipn_length; unfold zlen in L; lia). destruct kept as [|d ks] eqn:K; [unfold zlen in KL, L; cbn [List.length] in KL; lia|]. do 2 eexists. split; [reflexivity|]. split; [reflexivity|]. split; [reflexivity|]. cbn [a_shape s_axes]. split; [rewrite KL; reflexivity|]. split; [reflexivity|]. split; [reflexivity|]. intros k y x p R H. cbn [a_at].
      assert (NK : nth_error kept (Z.to_nat k) = Some (snd p)). { unfold kept. apply map_nth_error. rewrite nth_firstn by lia. rewrite nth_skipn. replace (Z.to_nat start + Z.to_nat k)%nat with (Z.to_nat (start + k)) by lia. exact H. }
      rewrite K in NK. rewrite (nth_error_nth _ _ _ NK). reflexivity.
  Qed.
  (** * Selection *)
  (** Each kind gives signals of this kind only, and, without a range of masses, one *)
  Lemma make_kind : forall k l, make numba t start stop mz nsegs nx k = Ok l -> l = [] /\ mz <> None \/ l = [] /\ ~ (can t k = true) \/ exists s, l = [s] /\ s_kind s = k.
  Proof.
    intros k l H. destruct k; cbn [make] in H.
    - unfold sum_signal in H. destruct (t_sum t); [|discriminate H]. destruct (t_masses t); [|discriminate H]. destruct (first_valid l1); [|discriminate H]. cbn [bind] in H. injection H as <-. right. right. eexists. split; reflexivity.
    - unfold nominal_signal in H. destruct (filter (fun p => in_range mz (p_mass p)) (filter is_nominal (table t))) as [|p ps] eqn:E.
      + injection H as <-. destruct mz as [r|]; [left; split; [reflexivity|discriminate]|]. right. left. split; [reflexivity|]. cbn [can]. intro C. apply andb_true_iff in C. destruct C as [_ C]. apply existsb_exists in C. destruct C as (p & I & F). assert (K : In p (filter (fun p0 => in_range None (p_mass p0)) (filter is_nominal (table t)))) by (apply filter_In; split; [apply filter_In; split; assumption|reflexivity]). rewrite E in K. destruct K.
      + destruct (match t_data t with Some a => _ | None => _ end); [|discriminate H]. cbn [bind] in H. injection H as <-. right. right. eexists. split; reflexivity.
    - unfold additional_signal in H. set (srt := take _ _ _) in H. destruct (filter (fun p => in_range mz (p_mass p)) srt) as [|p ps] eqn:E.
      + injection H as <-. destruct mz as [r|]; [left; split; [reflexivity|discriminate]|]. right. left. split; [reflexivity|]. cbn [can]. intro C. apply andb_true_iff in C. destruct C as [_ C]. apply existsb_exists in C. destruct C as (p & I & F). assert (L : List.length srt = List.length (filter (fun p => negb (is_nominal p)) (table t))). { unfold srt, take. rewrite map_length. unfold argsort. destruct (argsort_by_spec (fun i => nth i (map p_mass (filter (fun p => negb (is_nominal p)) (table t))) 0%Q) (List.length (map p_mass (filter (fun p => negb (is_nominal p)) (table t))))) as [Q _]. rewrite <- (Permutation_length Q), seq_length, map_length. reflexivity. }
        assert (Z0 : srt = []) by (destruct srt as [|q qs]; [reflexivity|discriminate E]). rewrite Z0 in L. assert (K : In p (filter (fun p => negb (is_nominal p)) (table t))) by (apply filter_In; split; assumption). destruct (filter (fun p => negb (is_nominal p)) (table t)); [destruct K|discriminate L].
      + destruct (match t_data t with Some a => _ | None => _ end); [|discriminate H]. cbn [bind] in H. injection H as <-. right. right. eexists. split; reflexivity.
    - unfold event_signal in H. destruct (t_events t) as [ev|]; [|discriminate H]. destruct (e_shape ev) as [[nw ns] n]. destruct (_ && _); [|discriminate H]. injection H as <-. right. right. eexists. split; reflexivity.
    - unfold images_signal in H. destruct (t_images t); [|discriminate H]. destruct (dominant _) as [[ny n]|]; [|discriminate H]. destruct (map snd _); [discriminate H|]. injection H as <-. right. right. eexists. split; reflexivity.
  Qed.
End File.
(** What a file has *)
Definition has_peaks (t : tof) : Prop := t_data t <> None \/ t_events t <> None.
Definition possible (t : tof) (k : kind) : Prop :=
  match k with
  | Sum => True
  | Nominal => has_peaks t /\ exists l p, t_peaks t = Some l /\ In p l /\ nominal p
  | Additional => has_peaks t /\ exists l p, t_peaks t = Some l /\ In p l /\ ~ nominal p
  | EventList => t_events t <> None
  | Fib => exists l, t_images t = Some l /\ l <> []
  end.
Lemma can_possible : forall t k, can t k = true <-> possible t k.
Proof.
  intros t k. assert (BASE : forall f (P : peak -> Prop), (forall p, f p = true <-> P p) -> ((is_some (t_data t) || (is_some (t_events t) && is_some (t_peaks t))) && existsb f (table t) = true <-> has_peaks t /\ exists l p, t_peaks t = Some l /\ In p l /\ P p)).
  { intros f P F. unfold has_peaks, table. rewrite andb_true_iff, orb_true_iff, andb_true_iff, existsb_exists. split.
    - intros [A (p & I & G)]. destruct (t_peaks t) as [l|]; [|destruct I]. split; [destruct A as [A|[A _]]; [left|right]; intro C; rewrite C in A; discriminate A|]. exists l, p. split; [reflexivity|]. split; [exact I|apply F; exact G].
    - intros [A (l & p & -> & I & G)]. split; [destruct A as [A|A]; [left|right; split]; try reflexivity; [destruct (t_data t); [reflexivity|congruence]|destruct (t_events t); [reflexivity|congruence]]|]. exists p. split; [exact I|apply F; exact G]. }
  destruct k; cbn [can possible].
  - tauto.
  - apply BASE. apply nominal_spec.
  - apply BASE. intro p. rewrite negb_true_iff, <- not_true_iff_false, nominal_spec. reflexivity.
  - destruct (t_events t); cbn [is_some]; split; congruence.
  - destruct (t_images t) as [[|i l]|]; (split; [intro H|intros (m & M & N)]); try discriminate; try congruence; try reflexivity. eexists. split; [reflexivity|discriminate].
Qed.
Definition known (s : pystr) : Prop := s = str "all" \/ exists k, s = str (kind_name k).
Definition wanted (names : list pystr) (k : kind) : Prop := In (str "all") names \/ In (str (kind_name k)) names.
Lemma ask_spec : forall s, match ask s with All => s = str "all" | Name k => s = str (kind_name k) | Unknown => ~ known s end.
Proof.
  intro s. unfold ask. destruct (eqb_str s (str "all")) eqn:E; [apply eqb_str_spec; exact E|]. destruct (find _ kinds) as [k|] eqn:F; [apply find_some in F; apply eqb_str_spec; apply F|]. intros [->|[k ->]]; [rewrite eqb_str_refl in E; discriminate E|]. assert (K : In k kinds) by (destruct k; unfold kinds; cbn [In]; tauto). apply (find_none _ _ F) in K. cbv beta in K. rewrite eqb_str_refl in K. discriminate K.
Qed.
Lemma ask_name : forall k, ask (str (kind_name k)) = Name k.
Proof. destruct k; reflexivity. Qed.
Lemma wants_wanted : forall names k, wants (map ask names) k = true <-> wanted names k.
Proof.
  intros names k. unfold wants, wanted. rewrite existsb_exists. split.
  - intros (a & I & H). apply in_map_iff in I. destruct I as (s & <- & I). pose proof (ask_spec s) as A. destruct (ask s) as [j| |]; [|left; rewrite <- A; exact I|discriminate H]. right. assert (j = k) by (destruct j, k; cbn in H; congruence). subst. exact I.
  - intros [I|I]; [exists All; split; [apply in_map_iff; exists (str "all"); split; [reflexivity|exact I]|reflexivity]|]. exists (Name k). split; [apply in_map_iff; exists (str (kind_name k)); split; [apply ask_name|exact I]|destruct k; reflexivity].
Qed.
Lemma unknown_spec : forall names, existsb (fun a => match a with Unknown => true | _ => false end) (map ask names) = false <-> Forall known names.
Proof.
  intro names. rewrite Forall_forall. split.
  - intros H s I. pose proof (ask_spec s) as A. destruct (ask s) eqn:E; [right; eexists; exact A|left; exact A|]. exfalso. assert (existsb (fun a => match a with Unknown => true | _ => false end) (map ask names) = true) by (apply existsb_exists; exists Unknown; split; [rewrite <- E; apply in_map; exact I|reflexivity]). congruence.
  - intro H. apply not_true_iff_false. intro C. apply existsb_exists in C. destruct C as (a & I & F). apply in_map_iff in I. destruct I as (s & <- & I). pose proof (ask_spec s) as A. destruct (ask s); try discriminate F. apply A. apply H. exact I.
Qed.
Lemma all_spec : forall names, existsb (fun a => match a with All => true | _ => false end) (map ask names) = true <-> In (str "all") names.
Proof.
  intro names. rewrite existsb_exists. split.
  - intros (a & I & F). apply in_map_iff in I. destruct I as (s & <- & I). pose proof (ask_spec s) as A. destruct (ask s); try discriminate F. rewrite <- A. exact I.
  - intro I. exists All. split; [apply in_map_iff; exists (str "all"); split; [reflexivity|exact I]|reflexivity].
Qed.
(** A file that is read *)
Definition writes (t : tof) : Z := match t_writes t with Some n => n | None => 1 end.
Definition segments (t : tof) : Z := match t_segments t with Some n => n | None => 1 end.
Definition width (t : tof) (nx : Z) : Prop :=
  match t_data t with Some a => nth_error (a_shape a) 2 = Some nx | None => nx = match t_events t with Some ev => snd (e_shape ev) | None => segments t end end.
Definition depth_ok (t : tof) (depth : option (Z * Z)) (start stop : Z) : Prop := match depth with Some (a, b) => start = a /\ stop = b /\ 0 <= a < b /\ b <= writes t | None => start = 0 /\ stop = writes t end.
Definition mz_ok (mz : option (Q * Q)) : Prop := match mz with Some (a, b) => (a < b)%Q | None => True end.
Definition tofdaq (t : tof) : Prop := t_groups t = (true, true, true) /\ t_version t = true.
Lemma tofdaq_spec : forall t, is_tofwerk t = true <-> tofdaq t.
Proof. intro t. unfold is_tofwerk, tofdaq. destruct (t_groups t) as [[a b] c]. rewrite !andb_true_iff. split; [intros [[[-> ->] ->] ->]; split; reflexivity|intros [E ->]; injection E as -> -> ->; tauto]. Qed.
Theorem C117_selection : forall numba t names mz depth nx start stop, tofdaq t -> Forall known names -> width t nx -> depth_ok t depth start stop -> mz_ok mz -> (forall k, wanted names k -> ~ possible t k -> In (str "all") names) ->
  exists ks, (exists f, ks = filter f kinds) /\ (forall k, In k ks <-> wanted names k /\ possible t k) /\
    tof_reader numba t names mz depth = let! r := mapM (make numba t start stop mz (segments t) nx) ks in Ok (List.concat r).
Proof.
  intros numba t names mz depth nx start stop T K W D M P. exists (filter (fun k => wants (map ask names) k && can t k) kinds). split; [eexists; reflexivity|]. split.
  - intro k. rewrite filter_In, andb_true_iff, wants_wanted, can_possible. assert (In k kinds) by (destruct k; unfold kinds; cbn [In]; tauto). tauto.
  - unfold tof_reader. apply tofdaq_spec in T. rewrite T. cbn [negb]. apply unknown_spec in K. rewrite K. fold (writes t). fold (segments t).
    assert (WX : match t_data t with Some a => match nth_error (a_shape a) 2 with Some n => Ok n | None => Err IndexError end | None => Ok match t_events t with Some ev => snd (e_shape ev) | None => segments t end end = Ok nx). { unfold width in W. destruct (t_data t) as [a|]; [rewrite W; reflexivity|rewrite W; reflexivity]. }
    rewrite WX. cbn [bind]. assert (DX : match depth with Some (a, b) => if (a <? 0) || (writes t <? b) || (b <=? a) then Err ValueError else Ok (a, b) | None => Ok (0, writes t) end = Ok (start, stop)). { unfold depth_ok in D. destruct depth as [[a b]|]; [destruct D as (-> & -> & D1 & D2); replace ((a <? 0) || (writes t <? b) || (b <=? a)) with false by lia; reflexivity|destruct D as (-> & ->); reflexivity]. }
    rewrite DX. cbn [bind fst snd]. assert (MX : match mz with Some (a, b) => if Qle_bool b a then Err ValueError else Ok tt | None => Ok tt end = Ok tt). { unfold mz_ok in M. destruct mz as [[a b]|]; [|reflexivity]. replace (Qle_bool b a) with false; [reflexivity|]. symmetry. apply not_true_iff_false. intro C. apply Qle_bool_iff in C. apply (Qlt_irrefl a). eapply Qlt_le_trans; eassumption. }
    rewrite MX. cbn [bind]. match goal with |- (if ?b then _ else _) = _ => replace b with false end; [reflexivity|]. symmetry. apply not_true_iff_false. intro C. apply andb_true_iff in C. destruct C as [C1 C2]. apply existsb_exists in C2. destruct C2 as (k & _ & C2). apply andb_true_iff in C2. destruct C2 as [C2 C3]. apply wants_wanted in C2. assert (NP : ~ possible t k) by (rewrite <- can_possible; destruct (can t k); [discriminate C3|discriminate]). specialize (P k C2 NP). apply all_spec in P. rewrite P in C1. discriminate C1.
Qed.
(** The signals have the kinds asked for, in a fixed order *)
Theorem C117_kinds : forall numba t names depth l, tof_reader numba t names None depth = Ok l -> exists f, map s_kind l = filter f kinds /\ forall k, f k = true <-> wanted names k /\ possible t k.
Proof.
  intros numba t names depth l H. unfold tof_reader in H. destruct (negb (is_tofwerk t)); [discriminate H|]. destruct (existsb _ (map ask names)); [discriminate H|]. apply bind_ok in H. destruct H as (nx & _ & H). apply bind_ok in H. destruct H as (range & _ & H). cbn [bind] in H. destruct (_ && _); [discriminate H|]. apply bind_ok in H. destruct H as (r & R & H). injection H as <-.
  exists (fun k => wants (map ask names) k && can t k). split; [|intro k; rewrite andb_true_iff, wants_wanted, can_possible; tauto].
  assert (G : forall ks r, (forall k, In k ks -> can t k = true) -> mapM (make numba t (fst range) (snd range) None (segments t) nx) ks = Ok r -> map s_kind (List.concat r) = ks).
  { clear. induction ks as [|k ks IH]; intros r C R; cbn [mapM] in R; [injection R as <-; reflexivity|]. apply bind_ok in R. destruct R as (a & A & R). apply bind_ok in R. destruct R as (b & B & R). injection R as <-. cbn [List.concat]. rewrite map_app, (IH b); [|intros j J; apply C; right; exact J|exact B]. destruct (make_kind _ _ _ _ _ _ _ _ _ A) as [[_ N]|[[_ N]|(s & -> & <-)]]; [congruence|destruct N; apply C; left; reflexivity|reflexivity]. }
  apply (G _ r); [|exact R]. intros k K. apply filter_In in K. destruct K as [_ K]. apply andb_true_iff in K. tauto.
Qed.
Theorem C117_available : forall numba t depth l, tof_reader numba t [str "all"] None depth = Ok l -> available t = Ok (map (fun s => str (kind_name (s_kind s))) l).
Proof.
  intros numba t depth l H. assert (T : is_tofwerk t = true) by (unfold tof_reader in H; destruct (is_tofwerk t); [reflexivity|discriminate H]). destruct (C117_kinds numba t _ depth l H) as (f & F & P). rewrite <- (map_map s_kind (fun k => str (kind_name k))), F. assert (FC : forall k, f k = can t k). { intro k. assert (E : f k = true <-> can t k = true) by (rewrite P, can_possible; split; [tauto|intro Q; split; [left; left; reflexivity|exact Q]]). destruct (f k), (can t k); intuition congruence. }
  unfold kinds. cbn [filter]. rewrite !FC. unfold available. rewrite T. cbn [negb can]. assert (BASE : forall g : peak -> bool, ((is_some (t_data t) || (is_some (t_events t) && is_some (t_peaks t))) && is_some (t_peaks t)) && existsb g (table t) = (is_some (t_data t) || (is_some (t_events t) && is_some (t_peaks t))) && existsb g (table t)) by (intro g; unfold table; destruct (t_peaks t); cbn [is_some existsb]; rewrite ?andb_true_r, ?andb_false_r; reflexivity).
  rewrite !BASE. do 2 (destruct (_ && existsb _ _)); destruct (is_some (t_events t)); destruct (t_images t) as [[|i q]|]; reflexivity.
Qed.
(** Errors *)
Theorem C117_refused : forall numba t names mz depth,
  (~ tofdaq t -> tof_reader numba t names mz depth = Err IOError) /\
  (tofdaq t -> ~ Forall known names -> tof_reader numba t names mz depth = Err ValueError) /\
  (forall nx, tofdaq t -> width t nx ->
     (forall start stop, ~ depth_ok t depth start stop) \/ ~ mz_ok mz \/ (exists k, In (str (kind_name k)) names /\ ~ possible t k /\ ~ In (str "all") names) -> tof_reader numba t names mz depth = Err ValueError).
Proof.
  intros numba t names mz depth. split; [|split].
  - intro N. unfold tof_reader. destruct (is_tofwerk t) eqn:T; [apply tofdaq_spec in T; contradiction|reflexivity].
  - intros T N. unfold tof_reader. apply tofdaq_spec in T. rewrite T. cbn [negb]. destruct (existsb _ (map ask names)) eqn:E; [reflexivity|]. apply unknown_spec in E. contradiction.
  - intros nx T W H. unfold tof_reader. apply tofdaq_spec in T. rewrite T. cbn [negb]. destruct (existsb _ (map ask names)); [reflexivity|]. fold (writes t). fold (segments t).
    assert (WX : match t_data t with Some a => match nth_error (a_shape a) 2 with Some n => Ok n | None => Err IndexError end | None => Ok match t_events t with Some ev => snd (e_shape ev) | None => segments t end end = Ok nx). { unfold width in W. destruct (t_data t) as [a|]; [rewrite W; reflexivity|rewrite W; reflexivity]. }
    rewrite WX. cbn [bind]. match goal with |- bind ?X _ = _ => assert (DX : X = Err ValueError \/ exists r, X = Ok r /\ depth_ok t depth (fst r) (snd r)) end. { destruct depth as [[a b]|]; [|right; eexists; split; [reflexivity|split; reflexivity]]. destruct ((a <? 0) || (writes t <? b) || (b <=? a)) eqn:E; [left; reflexivity|right]. eexists. split; [reflexivity|]. cbn [depth_ok fst snd]. repeat split; lia. }
    destruct DX as [->|(r & -> & DR)]; [reflexivity|]. cbn [bind]. match goal with |- bind ?X _ = _ => assert (MX : X = Err ValueError \/ X = Ok tt /\ mz_ok mz) end. { destruct mz as [[a b]|]; [|right; split; [reflexivity|exact I]]. destruct (Qle_bool b a) eqn:E; [left; reflexivity|right]. split; [reflexivity|]. cbn [mz_ok]. apply Qnot_le_lt. intro C. apply Qle_bool_iff in C. congruence. }
    destruct MX as [->|[-> MR]]; [reflexivity|]. cbn [bind]. destruct H as [H|[H|(k & K & NP & NA)]]; [destruct (H _ _ DR)|contradiction|]. match goal with |- (if ?b then _ else _) = _ => replace b with true end; [reflexivity|]. symmetry. apply andb_true_iff. split; [apply negb_true_iff; apply not_true_iff_false; intro C; apply all_spec in C; contradiction|]. apply existsb_exists. exists k. split; [destruct k; unfold kinds; cbn [In]; tauto|]. apply andb_true_iff. split; [apply wants_wanted; right; exact K|]. apply negb_true_iff, not_true_iff_false. intro C. apply can_possible in C. contradiction.
Qed.
