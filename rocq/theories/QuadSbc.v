(** Property C86: Quadstar SBC files and the dates of Quadstar files. *)
From Coq Require Import QArith.
From Verif Require Import Base Text Bytes SfsModel SfsProps BcfUnpack SurFloat RenModel RenBlocks RenData QuadModel QuadSac.
Local Open Scope Z_scope.

(** * Specification: cycles fill the end of the file *)
Definition masses (b : list Z) : Z := at_ b 203 2 + 1.
Definition stride (b : list Z) : Z := 13 + 8 * masses b.
Definition cycle_pos (b : list Z) (i : Z) : Z := zlen b - (steps b - i) * stride b.
Definition cycle_time (b : list Z) (i : Z) : Z := at_ b (cycle_pos b i) 4.
Definition mass_word (b : list Z) (i j : Z) : Z := at_ b (cycle_pos b i + 13 + 8 * j) 4.
Definition intensity (b : list Z) (i j : Z) : Z := at_ b (cycle_pos b i + 13 + 8 * j + 4) 4.
Definition clock_ok (uniform : bool) (n : Z) (t : Z -> Z) (a : option time_axis) : Prop :=
  if n =? 1 then a = None
  else exists x, a = Some x /\ x_size x = n /\
    if uniform then exists q, x_scaling x = Step 0 q /\ (t 0 < t (n - 1) -> (q * inject_Z (n - 1) == inject_Z (t (n - 1)%Z - t 0%Z))%Q) /\ (t (n - 1) <= t 0 -> (q == 1)%Q)
    else exists l, x_scaling x = Points l /\ Forall2 Qeq l (map (fun i => inject_Z (t i - t 0)) (zseq 0 (Z.to_nat n))).
Definition bar_graph (uniform : bool) (b : list Z) (s : signal) : Prop :=
  s_shape s = (if steps b =? 1 then [masses b] else [steps b; masses b]) /\
  s_data s = flat_map (fun i => map (intensity b i) (zseq 0 (Z.to_nat (masses b)))) (zseq 0 (Z.to_nat (steps b))) /\
  clock_ok uniform (steps b) (cycle_time b) (s_time s) /\ s_notes s = None /\ s_quantity s = str "Intensity" /\
  m_name (s_mass s) = str "Mass-to-charge ratio" /\ m_units (s_mass s) = str "m/z" /\ m_size (s_mass s) = masses b /\ m_index (s_mass s) = (if steps b =? 1 then 0 else 1) /\
  m_offset (s_mass s) = mass_word b 0 0 /\ (masses b = 1 -> m_scale (s_mass s) = Ok 1%Q) /\
  forall p q, 1 < masses b -> val32 (mass_word b 0 0) = Ok p -> val32 (mass_word b 0 (masses b - 1)) = Ok q -> exists c, m_scale (s_mass s) = Ok c /\ (p + c * inject_Z (masses b - 1) == q)%Q.
Definition sbc_ok (b : list Z) : Prop := Forall (fun x => 0 <= x < 256) b /\ 0 < steps b /\ 256 + steps b * stride b <= zlen b.

(** * Proof *)
Lemma records_chars : forall b p n w v, 0 <= p -> 0 <= n -> 0 < w -> v = n * w -> records (Z.to_nat n) (Z.to_nat w) (chars b p v) = map (fun i => chars b (p + w * i) w) (zseq 0 (Z.to_nat n)).
Proof.
  intros b p n w v P N W ->. apply list_same. intro i. destruct (Nat.ltb i (Z.to_nat n)) eqn:L.
  - apply Nat.ltb_lt in L. rewrite nth_records by exact L. rewrite nth_error_map. rewrite (nth_error_nth' (zseq 0 (Z.to_nat n)) 0) by (rewrite zseq_length; exact L). cbn [option_map]. rewrite nth_zseq by exact L. f_equal. pose proof (chars_in b p (n * w) (Z.of_nat i * w) w P ltac:(nia) ltac:(nia)) as C. unfold slice_at in C. replace (Z.to_nat (Z.of_nat i * w)) with (i * Z.to_nat w)%nat in C by nia. rewrite C. f_equal. lia.
  - apply Nat.ltb_ge in L. rewrite (proj2 (nth_error_None _ _)) by (rewrite records_length; exact L). symmetry. apply nth_error_None. rewrite map_length, zseq_length. exact L.
Qed.
Lemma other_chars : forall b p m s, (s < 2)%nat -> 0 <= m -> every_other s (map (fun i => chars b (p + 4 * i) 4) (zseq 0 (Z.to_nat (2 * m)))) = map (fun j => at_ b (p + 8 * j + 4 * Z.of_nat s) 4) (zseq 0 (Z.to_nat m)).
Proof.
  intros b p m s S M. unfold every_other. rewrite map_length, zseq_length. assert (E : ((Z.to_nat (2 * m) + 1 - s) / 2)%nat = Z.to_nat m).
  { replace (Z.to_nat (2 * m)) with (Z.to_nat m * 2)%nat by lia. assert (s = 0 \/ s = 1)%nat as [-> | ->] by lia.
    - rewrite Nat.sub_0_r. rewrite Nat.div_add_l by lia. change (1 / 2)%nat with 0%nat. lia.
    - rewrite Nat.add_sub. apply Nat.div_mul. lia. }
  rewrite E. apply list_same. intro j. destruct (Nat.ltb j (Z.to_nat m)) eqn:L.
  - apply Nat.ltb_lt in L. rewrite !nth_error_map. rewrite (nth_error_nth' (seq 0 (Z.to_nat m)) 0%nat) by (rewrite seq_length; exact L). rewrite (nth_error_nth' (zseq 0 (Z.to_nat m)) 0) by (rewrite zseq_length; exact L). cbn [option_map]. rewrite seq_nth by exact L. rewrite nth_zseq by exact L. f_equal.
    rewrite (nth_indep _ [] (chars b (p + 4 * 0) 4)) by (rewrite map_length, zseq_length; lia). rewrite (map_nth (fun i => chars b (p + 4 * i) 4)). rewrite nth_zseq by lia. unfold at_, chars. do 3 f_equal. lia.
  - apply Nat.ltb_ge in L. rewrite (proj2 (nth_error_None _ _)) by (rewrite map_length, seq_length; exact L). symmetry. apply nth_error_None. rewrite map_length, zseq_length. exact L.
Qed.
Lemma skip_chars : forall b s p w, 0 <= s -> 0 <= p -> slice_at (skipz s b) p w = chars b (s + p) w.
Proof. intros b s p w S P. unfold slice_at, slice, chars. rewrite skipz_skipn, skipn_skipn. f_equal. f_equal. lia. Qed.
Lemma clock : forall uniform n t, 0 < n -> clock_ok uniform n t (time_axis_of uniform (map (fun s => s * 10000) (map t (zseq 0 (Z.to_nat n))))).
Proof.
  intros uniform n t S0. unfold clock_ok. destruct (n =? 1) eqn:S1; [apply Z.eqb_eq in S1; subst n; reflexivity|]. apply Z.eqb_neq in S1. rewrite map_map.
  destruct (Z.to_nat n) as [|[|m]] eqn:N; [lia|lia|]. set (tick := fun x => t x * 10000). set (ts := map tick (zseq 0 (S (S m)))). change (map (fun x : Z => t x * 10000) (zseq 0 (S (S m)))) with ts.
  assert (TS : exists t1 r, ts = tick 0 :: t1 :: r) by (eexists _, _; reflexivity). destruct TS as [t1 [r TS]].
  assert (LT : last ts (tick 0) = tick (n - 1)). { unfold ts. rewrite last_map, last_zseq by congruence. f_equal. lia. }
  assert (LEN : zlen ts = n) by (unfold zlen, ts; rewrite map_length, zseq_length; lia).
  unfold time_axis_of. rewrite TS. rewrite <- TS. eexists. split; [reflexivity|]. cbn [x_size x_scaling]. split; [exact LEN|]. destruct uniform.
  - eexists. split; [reflexivity|]. set (rel := map (fun t => t - tick 0) ts). assert (SD : sumZ (diffs rel) = tick (n - 1) - tick 0 /\ zlen (diffs rel) = n - 1).
    { unfold rel. rewrite TS. cbn [map]. destruct (sum_diffs (t1 - tick 0 :: map (fun t => t - tick 0) r) (tick 0 - tick 0)) as [D1 D2]. unfold zlen. rewrite D1, D2. split.
      - rewrite <- (map_cons (fun t => t - tick 0) t1 r). rewrite (last_map _ _ (fun t => t - tick 0)). rewrite TS, tail_default in LT. rewrite LT. lia.
      - rewrite <- LEN, TS. unfold zlen. cbn [List.length]. rewrite map_length. lia. }
    destruct SD as [SD1 SD2]. unfold mean. rewrite SD1, SD2. unfold tick. assert (P : inject_Z (n - 1) = inject_Z (Z.pos (Z.to_pos (n - 1)))) by (rewrite Z2Pos.id by lia; reflexivity). rewrite P. generalize (Z.to_pos (n - 1)). intro d. generalize (t (n - 1)). intro u. generalize (t 0). intro v.
    split; intro H.
    + destruct (Qle_bool _ 0) eqn:B.
      * apply Qle_bool_iff in B. unfold Qle, Qmult in B. cbn [Qnum Qden] in B. lia.
      * unfold Qmult, Qeq, inject_Z. cbn [Qnum Qden]. lia.
    + replace (Qle_bool _ 0) with true; [reflexivity|]. symmetry. apply Qle_bool_iff. unfold Qle, Qmult. cbn [Qnum Qden]. lia.
  - eexists. split; [reflexivity|]. unfold ts. rewrite !map_map. generalize (zseq 0 (S (S m))). intro l. induction l as [|i l IH]; [constructor|]. cbn [map]. constructor; [|exact IH]. unfold seconds, tick, Qeq, inject_Z. cbn [Qnum Qden]. lia.
Qed.
Lemma map_zseq_S : forall A (f : Z -> A) n, 0 < n -> map f (zseq 0 (Z.to_nat n)) = f 0 :: map f (zseq 1 (Z.to_nat (n - 1))).
Proof. intros A f n N. replace (Z.to_nat n) with (S (Z.to_nat (n - 1))) by lia. reflexivity. Qed.

Theorem C86_sbc : forall uniform name b, sbc_ok b -> endswith (str ".sbc") (map lower name) = true -> exists s, file_reader uniform false name b = Ok [s] /\ bar_graph uniform b s.
Proof.
  intros uniform name b [F [S0 L]] NM. assert (M : 1 <= masses b). { unfold masses. pose proof (at_range b 203 2 F). lia. }
  assert (ST : 0 < stride b) by (unfold stride; lia). assert (PL : 0 < steps b * stride b) by nia.
  unfold file_reader. rewrite read_general_at by lia. cbn [bind]. rewrite NM. unfold read_sbc. cbn [g_steps]. rewrite unpack_at by lia. cbn [bind]. fold (masses b). replace (masses b * 8 + 13) with (stride b) by (unfold stride; lia). set (start := zlen b - steps b * stride b).
  replace ((start <? 256) || (zlen b <=? start)) with false by (unfold start; lia).
  assert (CP : forall i, cycle_pos b i = start + i * stride b) by (intro i; unfold cycle_pos, start; lia).
  assert (PAIR : forall i k, (k < 2)%nat -> 0 <= i -> every_other k (records (Z.to_nat (2 * masses b)) 4 (slice_at (skipz start b) (i * stride b + 13) (masses b * 8))) = map (fun j => at_ b (cycle_pos b i + 13 + 8 * j + 4 * Z.of_nat k) 4) (zseq 0 (Z.to_nat (masses b)))).
  { intros i k K I. rewrite skip_chars by (unfold start; nia). change 4%nat with (Z.to_nat 4). rewrite records_chars by (unfold start; nia). rewrite other_chars by lia. apply map_ext. intro j. f_equal. rewrite CP. lia. }
  rewrite (mapM_map _ _ _ (cycle_time b)).
  2:{ intros i I. apply in_zseq in I. unfold unpack. assert (LD : zlen (skipz start b) = steps b * stride b). { unfold zlen. rewrite skipz_skipn, skipn_length. unfold start, zlen in *. lia. } rewrite LD.
      replace (i * stride b <? 0) with false by nia. assert (X : stride b <= steps b * stride b - i * stride b) by nia. replace (steps b * stride b - i * stride b <? 4) with false by (unfold stride in X at 1; lia). f_equal. unfold cycle_time, at_. rewrite skip_chars by (unfold start; nia). rewrite CP. reflexivity. }
  cbn [bind]. eexists. split; [reflexivity|]. unfold bar_graph. cbn [s_shape s_data s_time s_notes s_quantity s_mass m_name m_units m_size m_index m_offset m_scale].
  assert (LAB : every_other 0 (records (Z.to_nat (2 * masses b)) 4 (slice_at (skipz start b) (0 * stride b + 13) (masses b * 8))) = map (mass_word b 0) (zseq 0 (Z.to_nat (masses b)))).
  { rewrite PAIR by lia. apply map_ext. intro j. unfold mass_word. f_equal. lia. }
  rewrite LAB. split; [reflexivity|]. split.
  { rewrite flat_map_concat_map. f_equal. apply map_ext_in. intros i I. apply in_zseq in I. rewrite PAIR by lia. apply map_ext. intro j. unfold intensity. f_equal. }
  split; [apply clock; exact S0|]. do 6 (split; [reflexivity|]). split; [rewrite map_zseq_S by lia; reflexivity|]. split; [intros ->; reflexivity|]. intros p q M1 P Q. replace (1 <? masses b) with true by lia.
  assert (HD : hd 0 (map (mass_word b 0) (zseq 0 (Z.to_nat (masses b)))) = mass_word b 0 0) by (rewrite map_zseq_S by lia; reflexivity). rewrite HD, P. cbn [bind].
  assert (LS : last (map (mass_word b 0) (zseq 0 (Z.to_nat (masses b)))) 0 = mass_word b 0 (masses b - 1)). { rewrite map_zseq_S by lia. rewrite tail_default. rewrite last_map. rewrite last_zseq by lia. f_equal. lia. }
  rewrite LS, Q. cbn [bind]. eexists. split; [reflexivity|]. field. intro E. unfold Qeq, inject_Z in E. cbn [Qnum Qden] in E. lia.
Qed.
(** A file with no cycle, or too short for its cycles *)
Theorem C86_geometry : forall uniform name b, Forall (fun x => 0 <= x < 256) b -> endswith (str ".sbc") (map lower name) = true -> 205 <= zlen b -> ~ sbc_ok b -> file_reader uniform false name b = Err ValueError.
Proof.
  intros uniform name b F NM L H. unfold file_reader. rewrite read_general_at by lia. cbn [bind]. rewrite NM. unfold read_sbc. cbn [g_steps]. rewrite unpack_at by lia. cbn [bind]. fold (masses b). replace (masses b * 8 + 13) with (stride b) by (unfold stride; lia).
  assert (M : 1 <= masses b). { unfold masses. pose proof (at_range b 203 2 F). lia. } assert (ST : 0 < stride b) by (unfold stride; lia).
  destruct ((zlen b - steps b * stride b <? 256) || (zlen b <=? zlen b - steps b * stride b)) eqn:E; [reflexivity|]. exfalso. apply H. split; [exact F|]. split; [nia|lia].
Qed.
(** The name decides, without regard to the case of its letters; nothing is read lazily *)
Theorem C86_lazy : forall uniform name b, file_reader uniform true name b = Err NotImplementedError.
Proof. reflexivity. Qed.
(** Dates *)
Definition two (n : Z) : pystr := [48 + n / 10; 48 + n mod 10].
Definition four (n : Z) : pystr := [48 + n / 1000; 48 + n / 100 mod 10; 48 + n / 10 mod 10; 48 + n mod 10].
Definition leap (y : Z) : bool := (y mod 4 =? 0) && (negb (y mod 100 =? 0) || (y mod 400 =? 0)).
Definition days_in (y m : Z) : Z := if m =? 2 then (if leap y then 29 else 28) else if (m =? 4) || (m =? 6) || (m =? 9) || (m =? 11) then 30 else 31.
Definition date_ok (b : list Z) : Prop :=
  1 <= at_ b 12 1 <= 12 /\ 1 <= at_ b 11 1 <= days_in (1900 + at_ b 13 1) (at_ b 12 1) /\ at_ b 10 1 <= 23 /\ at_ b 9 1 <= 59 /\ at_ b 8 1 <= 59.
Definition date_of (b : list Z) : pystr * pystr := (four (1900 + at_ b 13 1) ++ str "-" ++ two (at_ b 12 1) ++ str "-" ++ two (at_ b 11 1), two (at_ b 10 1) ++ str ":" ++ two (at_ b 9 1) ++ str ":" ++ two (at_ b 8 1)).
Definition head_of (b : list Z) : general :=
  {| g_second := at_ b 8 1; g_minute := at_ b 9 1; g_hour := at_ b 10 1; g_day := at_ b 11 1; g_month := at_ b 12 1; g_year := at_ b 13 1; g_steps := steps b; g_traces := traces b; g_length := step_length b |}.
Lemma digits2 : forall n, 0 <= n < 100 -> digits 2 n = two n.
Proof.
  assert (C : forallb (fun n => if list_eq_dec Z.eq_dec (digits 2 n) (two n) then true else false) (zseq 0 100) = true) by (vm_compute; reflexivity).
  intros n N. rewrite forallb_forall in C. specialize (C n ltac:(apply in_zseq; lia)). destruct (list_eq_dec _ _ _) in C; [assumption|discriminate C].
Qed.
Lemma digits4 : forall n, 1900 <= n < 2156 -> digits 4 n = four n.
Proof.
  assert (C : forallb (fun n => if list_eq_dec Z.eq_dec (digits 4 n) (four n) then true else false) (zseq 1900 256) = true) by (vm_compute; reflexivity).
  intros n N. rewrite forallb_forall in C. specialize (C n ltac:(apply in_zseq; lia)). destruct (list_eq_dec _ _ _) in C; [assumption|discriminate C].
Qed.
Lemma month_ok : forall y m, 1900 <= y < 2156 -> 1 <= m <= 12 -> month_days y m = days_in y m.
Proof.
  assert (C : forallb (fun y => forallb (fun m => month_days y m =? days_in y m) (zseq 1 12)) (zseq 1900 256) = true) by (vm_compute; reflexivity).
  intros y m Y M. rewrite forallb_forall in C. specialize (C y ltac:(apply in_zseq; lia)). rewrite forallb_forall in C. specialize (C m ltac:(apply in_zseq; lia)). lia.
Qed.
Lemma date_head : forall b, Forall (fun x => 0 <= x < 256) b -> (date_ok b -> date_of_header (head_of b) = Some (date_of b)) /\ (~ date_ok b -> date_of_header (head_of b) = None).
Proof.
  intros b F. assert (R : forall p, 0 <= at_ b p 1 < 256) by (intro p; apply (at_range b p 1 F)). pose proof (R 8). pose proof (R 9). pose proof (R 10). pose proof (R 11). pose proof (R 12). pose proof (R 13).
  unfold date_of_header, date_ok, date_of, head_of. cbn [g_second g_minute g_hour g_day g_month g_year]. destruct ((1 <=? at_ b 12 1) && (at_ b 12 1 <=? 12)) eqn:M.
  - rewrite month_ok by lia. assert (D31 : days_in (1900 + at_ b 13 1) (at_ b 12 1) <= 31) by (unfold days_in; repeat destruct (_ || _); destruct (_ =? _); try destruct (leap _); lia). cbn [andb]. split; intro H5.
    + replace ((1 <=? at_ b 11 1) && (at_ b 11 1 <=? days_in (1900 + at_ b 13 1) (at_ b 12 1)) && (at_ b 10 1 <? 24) && (at_ b 9 1 <? 60) && (at_ b 8 1 <? 60)) with true by lia. rewrite digits4 by lia. rewrite !digits2 by lia. reflexivity.
    + match goal with |- (if ?c then _ else _) = _ => destruct c eqn:E; [exfalso; apply H5; lia|reflexivity] end.
  - cbn [andb]. split; intro H5; [lia|reflexivity].
Qed.
Theorem C86_date : forall uniform is_lazy name b l s, Forall (fun x => 0 <= x < 256) b -> file_reader uniform is_lazy name b = Ok l -> In s l -> (date_ok b -> s_date s = Some (date_of b)) /\ (~ date_ok b -> s_date s = None).
Proof.
  intros uniform is_lazy name b l s F H I. destruct (date_head b F) as [D1 D2]. enough (E : s_date s = date_of_header (head_of b)) by (rewrite E; split; assumption).
  unfold file_reader in H. destruct is_lazy; [discriminate H|]. destruct (110 <=? zlen b) eqn:L.
  2:{ unfold read_general, frombuffer in H. replace (zlen b <? 0) with false in H by (unfold zlen; lia). change (1 <? 0) with false in H. cbn [orb] in H. replace (0 <? 0) with false in H by lia. cbn [orb] in H. replace (zlen b - 0 <? 1 * 110) with true in H by lia. discriminate H. }
  rewrite read_general_at in H by lia. cbn [bind] in H. fold (head_of b) in H. destruct (endswith _ _).
  - unfold read_sbc in H. destruct (unpack 2 b 203); [|discriminate H]. cbn [bind] in H. destruct (_ || _) in H; [discriminate H|]. destruct (mapM _ _) in H; [|discriminate H]. cbn [bind] in H. injection H as <-. destruct I as [<- | []]. reflexivity.
  - unfold read_sac in H. destruct (read_traces _ _) as [ts|] in H; [|discriminate H]. cbn [bind] in H. destruct (filter _ ts) as [|first rest]; [discriminate H|]. destruct (unpack 4 b 194) in H; [|discriminate H]. destruct (unpack 2 b 198) in H; [|discriminate H]. cbn [bind] in H. destruct (mapM _ _) as [[|[t0 rows0] st]|] in H; [discriminate H| |discriminate H]. cbn [bind] in H. injection H as <-. apply in_map_iff in I. destruct I as [[k i] [<- _]]. reflexivity.
Qed.

(** Example: three cycles of two masses after a header of 260 bytes *)
Definition demo_cycle (t m1 i1 m2 i2 : Z) : list Z := le 4 t ++ repeat 0 4 ++ [251] ++ repeat 0 4 ++ le 4 m1 ++ le 4 i1 ++ le 4 m2 ++ le 4 i2.
Definition demo_sbc : list Z := le 2 0 ++ le 4 0 ++ [0; 0; 30; 15; 25; 29; 2; 124] ++ repeat 0 86 ++ le 4 3 ++ repeat 0 99 ++ le 2 1 ++ repeat 0 55 ++
  demo_cycle 5 (127 * 2 ^ 23) 11 (130 * 2 ^ 23) 12 ++ demo_cycle 7 0 21 0 22 ++ demo_cycle 15 0 31 0 32.
Example C86_demo_ok : sbc_ok demo_sbc.
Proof.
  split; [|split; vm_compute; congruence]. apply Forall_forall. assert (C : forallb (fun x => (0 <=? x) && (x <? 256)) demo_sbc = true) by (vm_compute; reflexivity). rewrite forallb_forall in C. intros x X. apply C in X. lia.
Qed.
(** masses 1 and 8; 25 hours are no time *)
Example C86_demo : exists s, file_reader true false (str "A.SbC") demo_sbc = Ok [s] /\ s_shape s = [3; 2] /\ s_data s = [11; 12; 21; 22; 31; 32] /\ s_date s = None /\ m_offset (s_mass s) = 127 * 2 ^ 23 /\
  match m_scale (s_mass s) with Ok q => Qeq_bool q 7 | Err _ => false end = true /\ match s_time s with Some {| x_size := 3; x_scaling := Step o g |} => Qeq_bool o 0 && Qeq_bool g 5 | _ => false end = true.
Proof. eexists. vm_compute. repeat split; reflexivity. Qed.
Example C86_demo_short : ~ sbc_ok (firstn 333 demo_sbc) /\ 205 <= zlen (firstn 333 demo_sbc).
Proof. split; [intros [_ [_ H]]; vm_compute in H; congruence|vm_compute; congruence]. Qed.
Example C86_demo_date : date_ok demo_sac /\ ~ date_ok demo_sbc.
Proof. split; [vm_compute; repeat split; congruence|]. intros [_ [_ [H _]]]. vm_compute in H. congruence. Qed.

Print Assumptions C86_sbc.
Print Assumptions C86_geometry.
Print Assumptions C86_lazy.
Print Assumptions C86_date.
