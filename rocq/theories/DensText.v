(** Property C94: times, dates and rows of DENS heater logs. *)
From Coq Require Import QArith.
From Verif Require Import Base Text Bytes HierModel SfsModel RplModel RplProps RenModel QuadModel HamText SurQuantity LogModel.
Local Open Scope Z_scope.

(** * Specification *)
(** Digits of a number *)
Definition reads (s : pystr) (v : Z) : Prop := exists ds, ds <> [] /\ Forall (fun d => 0 <= d <= 9) ds /\ s = map (Z.add 48) ds /\ v = fold_left (fun a d => a * 10 + d) ds 0.
(** One or two digits, not above a limit *)
Definition small (s : pystr) (lo hi v : Z) : Prop := reads s v /\ zlen s <= 2 /\ lo <= v <= hi.
(** h:m:s.f in microseconds *)
Definition is_clock (s : pystr) (us : Z) : Prop :=
  exists hs ms ss fs h m sec f, s = hs ++ [58] ++ ms ++ [58] ++ ss ++ [46] ++ fs /\ small hs 0 23 h /\ small ms 0 59 m /\ small ss 0 59 sec /\ reads fs f /\ zlen fs <= 6 /\
    us = ((h * 60 + m) * 60 + sec) * 1000000 + f * 10 ^ (6 - zlen fs).
Definition leap (y : Z) : Prop := y mod 4 = 0 /\ (y mod 100 <> 0 \/ y mod 400 = 0).
(** The last day of a month *)
Definition last_day (y m d : Z) : Prop := (m = 2 /\ leap y /\ d = 29) \/ (m = 2 /\ ~ leap y /\ d = 28) \/ (In m [4; 6; 9; 11] /\ d = 30) \/ (In m [1; 3; 5; 7; 8; 10; 12] /\ d = 31).
Definition pair_of (s : pystr) (v : Z) : Prop := reads s v /\ zlen s = 2.
Definition blank_text (s : pystr) : Prop := Forall (fun c => is_space c = true) s.
(** d/m/'y h:mi with years from 1969 to 2068; a day below 10 can have a blank in front *)
Definition is_date (s date time : pystr) : Prop :=
  exists ds ms ys bs hs mis d m y h mi yy l dt mt ht mit yt, s = ds ++ [47] ++ ms ++ [47; 39] ++ ys ++ bs ++ hs ++ [58] ++ mis /\
    (small ds 1 31 d \/ exists c, ds = [32; c] /\ small [c] 1 31 d) /\ small ms 1 12 m /\ pair_of ys y /\ bs <> [] /\ blank_text bs /\ small hs 0 23 h /\ small mis 0 59 mi /\
    yy mod 100 = y /\ 1969 <= yy <= 2068 /\ last_day yy m l /\ d <= l /\
    reads yt yy /\ zlen yt = 4 /\ pair_of mt m /\ pair_of dt d /\ pair_of ht h /\ pair_of mit mi /\
    date = yt ++ [45] ++ mt ++ [45] ++ dt /\ time = ht ++ [58] ++ mit ++ str ":00".

(** * Numbers *)
Lemma reads_aux : forall ds acc, Forall (fun d => 0 <= d <= 9) ds -> undec_aux acc (map (Z.add 48) ds) = Some (fold_left (fun a d => a * 10 + d) ds acc).
Proof.
  induction ds as [|d ds IH]; intros acc H; [reflexivity|]. inversion H as [|? ? H1 H2]; subst. cbn [map undec_aux fold_left]. unfold is_digit. replace ((48 <=? 48 + d) && (48 + d <=? 57)) with true by lia. rewrite IH by exact H2. f_equal. f_equal. lia.
Qed.
Lemma aux_reads : forall s acc v, undec_aux acc s = Some v -> exists ds, Forall (fun d => 0 <= d <= 9) ds /\ s = map (Z.add 48) ds /\ v = fold_left (fun a d => a * 10 + d) ds acc.
Proof.
  induction s as [|c s IH]; intros acc v H; cbn [undec_aux] in H; [injection H as <-; exists []; repeat split; constructor|]. unfold is_digit in H. destruct ((48 <=? c) && (c <=? 57)) eqn:E; [|discriminate H]. destruct (IH _ _ H) as (ds & D & -> & V). exists (c - 48 :: ds). split; [constructor; [lia|exact D]|]. split; [cbn [map]; f_equal; lia|]. exact V.
Qed.
Lemma undec_reads : forall s v, undec s = Some v <-> reads s v.
Proof.
  intros s v. split.
  - intro H. destruct s as [|c s]; [discriminate H|]. destruct (aux_reads _ _ _ H) as (ds & D & E & V). exists ds. repeat split; [|exact D|exact E|exact V]. intros ->. discriminate E.
  - intros (ds & N & D & -> & ->). unfold undec. destruct ds as [|d ds]; [congruence|]. cbn [map]. change (48 + d :: map (Z.add 48) ds) with (map (Z.add 48) (d :: ds)). apply reads_aux. exact D.
Qed.
Lemma reads_digit : forall s v c, reads s v -> In c s -> 48 <= c <= 57.
Proof. intros s v c (ds & _ & D & -> & _) I. apply in_map_iff in I. destruct I as [d [<- I]]. rewrite Forall_forall in D. specialize (D d I). lia. Qed.
Lemma reads_not : forall s v c, reads s v -> ~ (48 <= c <= 57) -> ~ In c s.
Proof. intros s v c R N I. apply N. exact (reads_digit s v c R I). Qed.
Lemma zlen_nat : forall A (l : list A), zlen l = Z.of_nat (List.length l).
Proof. reflexivity. Qed.
Lemma numeral_small : forall s lo hi v, in_range lo hi (numeral s) = Some v <-> small s lo hi v.
Proof.
  intros s lo hi v. unfold small. rewrite <- undec_reads. unfold numeral. destruct s as [|a [|b [|c s]]]; cbn [in_range].
  - split; [discriminate|]. intros [H _]. discriminate H.
  - split; intro H.
    + destruct (undec [a]) as [z|]; [|discriminate H]. cbn [in_range] in H. destruct ((lo <=? z) && (z <=? hi)) eqn:E; [|discriminate H]. injection H as <-. repeat split; cbn; lia.
    + destruct H as [-> [_ H]]. cbn [in_range]. replace ((lo <=? v) && (v <=? hi)) with true by lia. reflexivity.
  - split; intro H.
    + destruct (undec [a; b]) as [z|]; [|discriminate H]. cbn [in_range] in H. destruct ((lo <=? z) && (z <=? hi)) eqn:E; [|discriminate H]. injection H as <-. repeat split; cbn; lia.
    + destruct H as [-> [_ H]]. cbn [in_range]. replace ((lo <=? v) && (v <=? hi)) with true by lia. reflexivity.
  - split; [discriminate|]. intros [_ [H _]]. unfold zlen in H. cbn [List.length] in H. lia.
Qed.
Lemma small_not : forall s lo hi v c, small s lo hi v -> ~ (48 <= c <= 57) -> ~ In c s.
Proof. intros s lo hi v c [R _]. exact (reads_not s v c R). Qed.
Lemma fraction_reads : forall s v, fraction s = Some v <-> exists f, reads s f /\ zlen s <= 6 /\ v = f * 10 ^ (6 - zlen s).
Proof.
  intros s v. unfold fraction. destruct (Nat.leb_spec (List.length s) 6) as [L|L].
  - destruct (undec s) as [f|] eqn:E; split.
    + intro H. injection H as <-. exists f. apply undec_reads in E. repeat split; [exact E|unfold zlen; lia].
    + intros (g & R & _ & ->). apply undec_reads in R. rewrite E in R. injection R as ->. reflexivity.
    + discriminate.
    + intros (g & R & _ & _). apply undec_reads in R. rewrite E in R. discriminate R.
  - split; [discriminate|]. intros (g & _ & K & _). unfold zlen in K. lia.
Qed.
Lemma split_nosep_parts : forall c s w, In w (split_char c s) -> ~ In c w.
Proof.
  intros c. induction s as [|x s IH]; intros w I; cbn [split_char] in I; [destruct I as [<- | []]; intros []|]. destruct (x =? c) eqn:E.
  - destruct I as [<- | I]; [intros []|apply IH; exact I].
  - destruct (split_char c s) as [|w0 ws] eqn:S; [destruct I as [<- | []]; intros [K|[]]; lia|]. destruct I as [<- | I]; [|apply IH; right; exact I]. intros [K|K]; [lia|]. apply (IH w0); [left; reflexivity|exact K].
Qed.
Theorem C94_clock : forall s us, clock s = Some us <-> is_clock s us.
Proof.
  intros s us. split.
  - intro H. unfold clock in H. destruct (split_char 58 s) as [|hs [|ms [|sf [|? ?]]]] eqn:S1; try discriminate H. destruct (split_char 46 sf) as [|ss [|fs [|? ?]]] eqn:S2; try discriminate H.
    destruct (in_range 0 23 (numeral hs)) as [h|] eqn:E1; [|discriminate H]. destruct (in_range 0 59 (numeral ms)) as [m|] eqn:E2; [|discriminate H]. destruct (in_range 0 59 (numeral ss)) as [sec|] eqn:E3; [|discriminate H]. destruct (fraction fs) as [f|] eqn:E4; [|discriminate H]. injection H as <-.
    apply numeral_small in E1. apply numeral_small in E2. apply numeral_small in E3. apply fraction_reads in E4. destruct E4 as (f0 & R & L & ->).
    exists hs, ms, ss, fs, h, m, sec, f0. split; [|split; [exact E1|split; [exact E2|split; [exact E3|split; [exact R|split; [exact L|ring]]]]]]. pose proof (join_split 58 s) as J. rewrite S1 in J. cbn [join_char] in J. pose proof (join_split 46 sf) as K. rewrite S2 in K. cbn [join_char] in K. rewrite <- J, <- K. reflexivity.
  - intros (hs & ms & ss & fs & h & m & sec & f & -> & H & M & S & F & L & ->). unfold clock. cbn [app]. rewrite split_char_app by (eapply small_not; [exact H|lia]). rewrite split_char_app by (eapply small_not; [exact M|lia]). rewrite split_char_nosep.
    + rewrite split_char_app by (eapply small_not; [exact S|lia]). rewrite split_char_nosep by (eapply reads_not; [exact F|lia]).
      rewrite (proj2 (numeral_small hs 0 23 h) H), (proj2 (numeral_small ms 0 59 m) M), (proj2 (numeral_small ss 0 59 sec) S), (proj2 (fraction_reads fs _)) by (exists f; repeat split; [exact F|exact L]). f_equal. lia.
    + rewrite in_app_iff. intros [K|[K|K]]; [revert K; eapply small_not; [exact S|lia]|lia|revert K; eapply reads_not; [exact F|lia]].
Qed.

(** * Dates *)
Lemma fold_app10 : forall ds d acc, fold_left (fun a d => a * 10 + d) (ds ++ [d]) acc = fold_left (fun a d => a * 10 + d) ds acc * 10 + d.
Proof. intros. rewrite fold_left_app. reflexivity. Qed.
Lemma digits_reads2 : forall v, 0 <= v <= 99 -> pair_of (digits 2 v) v.
Proof.
  intros v H. unfold digits. cbn [zseq rev app map]. change (10 ^ (0 + 1)) with 10. change (10 ^ 0) with 1. rewrite Z.div_1_r. split; [|reflexivity]. exists [v / 10 mod 10; v mod 10]. split; [discriminate|]. split; [repeat constructor; lia|]. split; [reflexivity|]. cbn [fold_left]. lia.
Qed.
Lemma digits_reads4 : forall v, 0 <= v <= 9999 -> reads (digits 4 v) v /\ zlen (digits 4 v) = 4.
Proof.
  intros v H. unfold digits. cbn [zseq rev app map]. change (10 ^ (0 + 1 + 1 + 1)) with 1000. change (10 ^ (0 + 1 + 1)) with 100. change (10 ^ (0 + 1)) with 10. change (10 ^ 0) with 1. rewrite Z.div_1_r. split; [|reflexivity]. exists [v / 1000 mod 10; v / 100 mod 10; v / 10 mod 10; v mod 10]. split; [discriminate|]. split; [repeat constructor; lia|]. split; [reflexivity|]. cbn [fold_left]. lia.
Qed.
(** texts of as many digits and the same number are equal *)
Lemma fold_inj : forall a b x y, List.length a = List.length b -> Forall (fun d => 0 <= d <= 9) a -> Forall (fun d => 0 <= d <= 9) b -> fold_left (fun a d => a * 10 + d) a x = fold_left (fun a d => a * 10 + d) b y -> a = b.
Proof.
  assert (G : forall a b x y, List.length a = List.length b -> Forall (fun d => 0 <= d <= 9) a -> Forall (fun d => 0 <= d <= 9) b -> fold_left (fun a d => a * 10 + d) a x = fold_left (fun a d => a * 10 + d) b y -> a = b /\ x = y).
  { induction a as [|d a IH]; intros b x y L A B E; destruct b as [|e b]; try discriminate L; [split; [reflexivity|exact E]|]. inversion A; subst. inversion B; subst. cbn [fold_left] in E. destruct (IH b _ _ (eq_add_S _ _ L) H2 H4 E) as [-> Q]. split; [f_equal|]; lia. }
  intros a b x y L A B E. exact (proj1 (G a b x y L A B E)).
Qed.
Lemma reads_same : forall s t v, reads s v -> reads t v -> zlen s = zlen t -> s = t.
Proof.
  intros s t v (a & _ & A & -> & V) (b & _ & B & -> & W) L. f_equal. rewrite !zlen_nat, !map_length in L. apply (fold_inj a b 0 0); [lia|exact A|exact B|congruence].
Qed.
Lemma month_last : forall y m, 1 <= m <= 12 -> last_day y m (month_days y m).
Proof.
  intros y m H. unfold month_days. assert (C : m = 1 \/ m = 2 \/ m = 3 \/ m = 4 \/ m = 5 \/ m = 6 \/ m = 7 \/ m = 8 \/ m = 9 \/ m = 10 \/ m = 11 \/ m = 12) by lia.
  unfold last_day. destruct C as [-> | [-> | C]]; [right; right; right; cbn; auto| |destruct C as [-> | [-> | [-> | [-> | [-> | [-> | [-> | [-> | [-> | ->]]]]]]]]]; cbn; auto 20].
  change (Z.to_nat (2 - 1)) with 1%nat. cbn [nth]. destruct (leap_year y) eqn:E; unfold leap_year in E; unfold leap; [left|right; left]; repeat split; lia.
Qed.
Lemma last_same : forall y m a b, last_day y m a -> last_day y m b -> a = b.
Proof. unfold last_day. cbn [In]. intros y m a b A B. intuition lia. Qed.
Lemma day_small : forall ds d, in_range 1 31 (match ds with [32; c] => undec [c] | _ => numeral ds end) = Some d <-> small ds 1 31 d \/ exists c, ds = [32; c] /\ small [c] 1 31 d.
Proof.
  intros ds d. assert (N : forall c, numeral [c] = undec [c]) by reflexivity.
  assert (B : forall c, small [32; c] 1 31 d -> False). { intros c [R _]. pose proof (reads_digit _ _ 32 R (or_introl eq_refl)). lia. }
  destruct ds as [|a [|b [|c r]]].
  - rewrite numeral_small. split; [auto|]. intros [H|[c [E _]]]; [exact H|discriminate E].
  - destruct (Z.eq_dec a 32) as [-> | A].
    + change (in_range 1 31 (numeral [32]) = Some d <-> small [32] 1 31 d \/ (exists c, [32] = [32; c] /\ small [c] 1 31 d)). rewrite numeral_small. split; [auto|]. intros [H|[c [E _]]]; [exact H|discriminate E].
    + assert (E : match [a] with [32; c] => undec [c] | _ => numeral [a] end = numeral [a]) by (destruct a as [|p|p]; try reflexivity; repeat (destruct p as [p|p|]; try reflexivity)). rewrite E, numeral_small. split; [auto|]. intros [H|[c [K _]]]; [exact H|discriminate K].
  - destruct (Z.eq_dec a 32) as [-> | A].
    + change (in_range 1 31 (numeral [b]) = Some d <-> small [32; b] 1 31 d \/ (exists c, [32; b] = [32; c] /\ small [c] 1 31 d)). rewrite numeral_small. split; [intro H; right; exists b; auto|]. intros [H|[c [E H]]]; [destruct (B b H)|injection E as <-; exact H].
    + assert (E : match [a; b] with [32; c] => undec [c] | _ => numeral [a; b] end = numeral [a; b]) by (destruct a as [|p|p]; try reflexivity; repeat (destruct p as [p|p|]; try reflexivity); contradiction A; reflexivity). rewrite E, numeral_small. split; [auto|]. intros [H|[c [K _]]]; [exact H|injection K as K _; contradiction].
  - assert (E : match a :: b :: c :: r with [32; c] => undec [c] | _ => numeral (a :: b :: c :: r) end = numeral (a :: b :: c :: r)) by (destruct a as [|p|p]; try reflexivity; repeat (destruct p as [p|p|]; try reflexivity)). rewrite E, numeral_small. split; [auto|]. intros [H|[x [K _]]]; [exact H|discriminate K].
Qed.
Lemma lstrip_split : forall s, exists b, blank_text b /\ s = b ++ lstrip s.
Proof.
  induction s as [|c s [b [B E]]]; [exists []; split; [constructor|reflexivity]|]. cbn [lstrip]. destruct (is_space c) eqn:S; [|exists []; split; [constructor|reflexivity]]. exists (c :: b). split; [constructor; assumption|]. cbn [app]. rewrite <- E. reflexivity.
Qed.
Lemma digit_no_space : forall c, 48 <= c <= 57 -> is_space c = false.
Proof. intros c H. unfold is_space. lia. Qed.
Lemma slashless : forall bs c, blank_text bs -> is_space c = false -> ~ In c bs.
Proof. intros bs c B N I. unfold blank_text in B. rewrite Forall_forall in B. rewrite (B c I) in N. discriminate N. Qed.
Theorem C94_date : forall s date time, dens_date s = Some (date, time) <-> is_date s date time.
Proof.
  intros s date time. split.
  - intro H. unfold dens_date in H. destruct (split_char 47 s) as [|ds [|ms [|x rest]]] eqn:S1; try discriminate H.
    destruct x as [|q x]; [discriminate H|]. destruct (Z.eq_dec q 39) as [-> | Q]; [|exfalso; clear - H Q; destruct q as [|p|p]; try discriminate H; repeat (destruct p as [p|p|]; try discriminate H); contradiction Q; reflexivity].
    destruct x as [|y1 [|y2 t]]; try discriminate H. destruct rest as [|? ?]; [|discriminate H]. destruct (split_char 58 (lstrip t)) as [|hs [|mis [|? ?]]] eqn:S2; try discriminate H.
    destruct (in_range 1 31 (match ds with [32; c] => undec [c] | _ => numeral ds end)) as [d|] eqn:E1; [|discriminate H]. destruct (in_range 1 12 (numeral ms)) as [m|] eqn:E2; [|discriminate H]. destruct (undec [y1; y2]) as [y|] eqn:E3; [|discriminate H]. destruct (in_range 0 23 (numeral hs)) as [h|] eqn:E4; [|discriminate H]. destruct (in_range 0 59 (numeral mis)) as [mi|] eqn:E5; [|discriminate H].
    destruct (match t with [] => false | c :: _ => is_space c end && (d <=? month_days (two_digit_year y) m)) eqn:E6; [|discriminate H]. injection H as <- <-.
    apply andb_true_iff in E6. destruct E6 as [T D]. apply day_small in E1. apply numeral_small in E2. apply undec_reads in E3. apply numeral_small in E4. apply numeral_small in E5.
    assert (Y : 0 <= y <= 99). { destruct E3 as (l & _ & F & K & ->). destruct l as [|a [|b [|? ?]]]; try discriminate K. cbn [fold_left]. inversion F as [|? ? F1 F2]; subst. inversion F2; subst. lia. }
    assert (YY : two_digit_year y mod 100 = y /\ 1969 <= two_digit_year y <= 2068) by (unfold two_digit_year; destruct (y <? 69) eqn:E; lia).
    destruct (lstrip_split t) as [bs [B TB]].
    assert (D1 : 1 <= d <= 31) by (destruct E1 as [[_ [_ K]]|[c [_ [_ [_ K]]]]]; exact K).
    destruct (digits_reads4 (two_digit_year y)) as [R4 L4]; [lia|].
    exists ds, ms, [y1; y2], bs, hs, mis, d, m, y, h, mi, (two_digit_year y), (month_days (two_digit_year y) m), (digits 2 d), (digits 2 m), (digits 2 h), (digits 2 mi), (digits 4 (two_digit_year y)).
    split.
    { pose proof (join_split 47 s) as J. rewrite S1 in J. cbn [join_char] in J. rewrite <- J. pose proof (join_split 58 (lstrip t)) as K. rewrite S2 in K. cbn [join_char] in K. rewrite TB, <- K. reflexivity. }
    repeat (split; [first [exact E1|exact E2|exact E4|exact E5|exact (conj E3 eq_refl)|exact B|exact (proj1 YY)|exact (proj2 YY)|exact R4|exact L4|apply digits_reads2; lia|idtac]|]); try reflexivity; try (apply digits_reads2; destruct E2 as [_ [_ ?]]; destruct E4 as [_ [_ ?]]; destruct E5 as [_ [_ ?]]; lia).
    + intros ->. cbn [app] in TB. rewrite TB in T. destruct (lstrip t) as [|c r] eqn:LT; [discriminate T|]. rewrite TB in LT. cbn [lstrip] in LT. rewrite T in LT. pose proof (lstrip_split r) as [b [_ K2]]. assert (K3 : List.length r = List.length (b ++ lstrip r)) by (rewrite <- K2; reflexivity). rewrite LT, app_length in K3. cbn [List.length] in K3. lia.
    + apply month_last. exact (proj2 (proj2 E2)).
    + lia.
  - intros (ds & ms & ys & bs & hs & mis & d & m & y & h & mi & yy & l & dt & mt & ht & mit & yt & -> & D & M & Y & BN & B & H & MI & Y1 & Y2 & L & DL & RY & LY & RM & RD & RH & RMI & -> & ->).
    destruct Y as [RYs LYs]. destruct ys as [|y1 [|y2 [|? ?]]]; try (unfold zlen in LYs; cbn [List.length] in LYs; lia).
    assert (N47 : forall c, 48 <= c <= 57 -> c <> 47 /\ c <> 58) by lia.
    assert (DN : ~ In 47 ds). { destruct D as [D|[c [-> D]]]; [eapply small_not; [exact D|lia]|]. intros [K|K]; [lia|]. revert K. eapply small_not; [exact D|lia]. }
    assert (HM : split_char 58 (lstrip (bs ++ hs ++ [58] ++ mis)) = [hs; mis]).
    { rewrite lstrip_spaces by exact B. destruct hs as [|c hs']; [destruct H as [(l0 & N0 & _ & E0 & _) _]; destruct l0; [congruence|discriminate E0]|]. cbn [app]. rewrite lstrip_id by (apply digit_no_space; apply (reads_digit (c :: hs') h); [exact (proj1 H)|left; reflexivity]). change (c :: hs' ++ 58 :: mis) with ((c :: hs') ++ 58 :: mis). rewrite split_char_app by (eapply small_not; [exact H|lia]). rewrite split_char_nosep by (eapply small_not; [exact MI|lia]). reflexivity. }
    unfold dens_date. assert (S1 : split_char 47 (ds ++ [47] ++ ms ++ [47; 39] ++ [y1; y2] ++ bs ++ hs ++ [58] ++ mis) = [ds; ms; 39 :: y1 :: y2 :: bs ++ hs ++ [58] ++ mis]).
    { cbn [app]. rewrite split_char_app by exact DN. rewrite split_char_app by (eapply small_not; [exact M|lia]). rewrite split_char_nosep; [reflexivity|]. intros [K|[K|[K|K]]]; [lia| | |].
      - pose proof (reads_digit _ _ y1 RYs (or_introl eq_refl)). lia.
      - pose proof (reads_digit _ _ y2 RYs (or_intror (or_introl eq_refl))). lia.
      - rewrite !in_app_iff in K. destruct K as [K|[K|[K|K]]]; [revert K; apply slashless; [exact B|reflexivity]|revert K; eapply small_not; [exact H|lia]|lia|revert K; eapply small_not; [exact MI|lia]]. }
    rewrite S1, HM, (proj2 (day_small ds d) D), (proj2 (numeral_small ms 1 12 m) M), (proj2 (undec_reads [y1; y2] y) RYs), (proj2 (numeral_small hs 0 23 h) H), (proj2 (numeral_small mis 0 59 mi) MI).
    assert (YY : two_digit_year y = yy) by (unfold two_digit_year; destruct (y <? 69) eqn:E; lia). rewrite YY. cbv zeta. rewrite (last_same yy m _ _ (month_last yy m (proj2 (proj2 M))) L).
    assert (T : match bs ++ hs ++ [58] ++ mis with [] => false | c :: _ => is_space c end = true) by (destruct bs as [|c bs']; [congruence|]; inversion B; subst; assumption). rewrite T. replace (d <=? l) with true by lia. cbn [andb].
    assert (P : forall t v, 0 <= v <= 99 -> pair_of t v -> digits 2 v = t). { intros t v V [R K]. destruct (digits_reads2 v V) as [R2 K2]. apply (reads_same _ _ v R2 R). lia. }
    assert (D1 : 1 <= d <= 31) by (destruct D as [[_ [_ K]]|[c [_ [_ [_ K]]]]]; exact K). destruct M as [_ [_ M]]. destruct H as [_ [_ H]]. destruct MI as [_ [_ MI]].
    destruct (digits_reads4 yy) as [R4 L4]; [lia|]. rewrite (reads_same _ _ yy R4 RY) by lia. rewrite (P mt m), (P dt d), (P ht h), (P mit mi) by (first [assumption|lia]). reflexivity.
Qed.
(** * Examples *)
Example C94_clock_demo : clock (str "23:59:58.25") = Some 86398250000 /\ clock (str "24:00:00.0") = None /\ clock (str "1:2:60.0") = None /\ clock (str "12:30") = None.
Proof. repeat split; vm_compute; reflexivity. Qed.
Example C94_date_demo : dens_date (str " 6/11/'15 10:27") = Some (str "2015-11-06", str "10:27:00") /\ dens_date (str "29/2/'15 10:27") = None /\ dens_date (str "29/2/'16 9:7") = Some (str "2016-02-29", str "09:07:00") /\ dens_date (str "1/1/'70 0:0") = Some (str "1970-01-01", str "00:00:00").
Proof. repeat split; vm_compute; reflexivity. Qed.
Print Assumptions C94_clock.
Print Assumptions C94_date.
