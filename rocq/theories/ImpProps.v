(** Property C96: names, valves, units and metadata of Impulse logs. *)
From Coq Require Import QArith.
From Verif Require Import Base Text Bytes HierModel HierProps SfsModel RplModel RplProps RenModel QuadModel HamText SurQuantity LogModel DensText DensFile LogText LogTable.
Local Open Scope Z_scope.

(** * Specification *)
(** What becomes of the characters of a name; the degree sign before C goes *)
Definition letter (c : Z) : pystr := if c =? 32 then [95] else if c =? 35 then [78; 111] else if (c =? 40) || (c =? 41) then [] else if c =? 47 then [95] else if c =? 37 then str "Perc" else [c].
Fixpoint plain_name (s : pystr) : pystr :=
  match s with
  | 176 :: ((67 :: _) as s') => plain_name s'
  | c :: s' => letter c ++ plain_name s'
  | [] => []
  end.
(** The positions of three valves *)
Definition valves (s : pystr) (a b c : Z) : Prop := exists ta tb tc, s = ta ++ [59] ++ tb ++ [59] ++ tc /\ padded ta (str_int a) /\ padded tb (str_int b) /\ padded tc (str_int c).

Definition in_32_bits (n : Z) : Prop := - 2147483648 <= n <= 2147483647.

(** * Names *)
Definition swap (c : Z) (r : pystr) (x : Z) : pystr := if x =? c then r else [x].
Lemma replace_char : forall c r s n, (List.length s <= n)%nat -> replace_sub n [c] r s = flat_map (swap c r) s.
Proof.
  intros c r. induction s as [|x s IH]; intros n N; [destruct n; reflexivity|]. cbn [List.length] in N. destruct n as [|n]; [lia|]. cbn [replace_sub flat_map]. change (startswith [c] (x :: s)) with ((c =? x) && true). change (skipn (List.length [c]) (x :: s)) with s. rewrite andb_true_r, IH by lia. destruct (Z.eqb_spec c x) as [-> | N2]; [unfold swap at 2; rewrite Z.eqb_refl; reflexivity|]. unfold swap at 2. destruct (Z.eqb_spec x c) as [E | _]; [symmetry in E; contradiction|reflexivity].
Qed.
Lemma flat_flat : forall (f g : Z -> pystr) s, flat_map g (flat_map f s) = flat_map (fun x => flat_map g (f x)) s.
Proof. intros f g s. induction s as [|x s IH]; [reflexivity|]. cbn [flat_map]. rewrite flat_map_app, IH. reflexivity. Qed.
Fixpoint no_degree (s : pystr) : pystr := match s with 176 :: ((67 :: _) as s') => no_degree s' | c :: s' => c :: no_degree s' | [] => [] end.
Lemma no_degree_step : forall c s, ~ (c = 176 /\ exists r, s = 67 :: r) -> no_degree (c :: s) = c :: no_degree s.
Proof.
  intros c s N. cbn [no_degree]. destruct (Z.eq_dec c 176) as [-> | C]; [|destruct c as [|p|p]; try reflexivity; repeat (destruct p as [p|p|]; try reflexivity); contradiction C; reflexivity].
  destruct s as [|x s]; [reflexivity|]. destruct (Z.eq_dec x 67) as [-> | X]; [exfalso; apply N; split; [reflexivity|exists s; reflexivity]|]. destruct x as [|p|p]; try reflexivity; repeat (destruct p as [p|p|]; try reflexivity); contradiction X; reflexivity.
Qed.
Lemma plain_step : forall c s, ~ (c = 176 /\ exists r, s = 67 :: r) -> plain_name (c :: s) = letter c ++ plain_name s.
Proof.
  intros c s N. cbn [plain_name]. destruct (Z.eq_dec c 176) as [-> | C]; [|destruct c as [|p|p]; try reflexivity; repeat (destruct p as [p|p|]; try reflexivity); contradiction C; reflexivity].
  destruct s as [|x s]; [reflexivity|]. destruct (Z.eq_dec x 67) as [-> | X]; [exfalso; apply N; split; [reflexivity|exists s; reflexivity]|]. destruct x as [|p|p]; try reflexivity; repeat (destruct p as [p|p|]; try reflexivity); contradiction X; reflexivity.
Qed.
Lemma degree_case : forall c (s : pystr), (c = 176 /\ exists r, s = 67 :: r) \/ ~ (c = 176 /\ exists r, s = 67 :: r).
Proof.
  intros c s. destruct (Z.eq_dec c 176) as [-> | C]; [|right; intros [K _]; contradiction]. destruct s as [|x s]; [right; intros [_ [r K]]; discriminate K|]. destruct (Z.eq_dec x 67) as [-> | X]; [left; split; [reflexivity|exists s; reflexivity]|]. right. intros [_ [r K]]. injection K as K _. contradiction.
Qed.
Lemma replace_degree : forall s n, (List.length s <= n)%nat -> replace_sub n [176; 67] (str "C") s = no_degree s.
Proof.
  assert (G : forall k s n, (List.length s <= k)%nat -> (List.length s <= n)%nat -> replace_sub n [176; 67] (str "C") s = no_degree s).
  { induction k as [|k IH]; intros s n K N; [destruct s; [destruct n; reflexivity|cbn [List.length] in K; lia]|]. destruct s as [|c s]; [destruct n; reflexivity|]. cbn [List.length] in K, N. destruct n as [|n]; [lia|]. destruct (degree_case c s) as [[-> [r ->]]|D].
    - cbn [replace_sub]. change (startswith [176; 67] (176 :: 67 :: r)) with true. cbv iota. change (skipn (List.length [176; 67]) (176 :: 67 :: r)) with r. change (no_degree (176 :: 67 :: r)) with (67 :: no_degree r). rewrite IH by (cbn [List.length] in *; lia). reflexivity.
    - rewrite no_degree_step by exact D. rewrite replace_step; [rewrite IH by lia; reflexivity|]. cbn [startswith]. destruct (176 =? c) eqn:E; [|reflexivity]. cbn [andb]. destruct s as [|x s]; [reflexivity|]. destruct (67 =? x) eqn:F; [|reflexivity]. exfalso. apply D. split; [lia|]. exists s. f_equal. lia. }
  intros s n N. exact (G _ s n (le_n _) N).
Qed.
Lemma degree_under : forall s, no_degree (map under s) = map under (no_degree s).
Proof.
  assert (G : forall k s, (List.length s <= k)%nat -> no_degree (map under s) = map under (no_degree s)).
  { induction k as [|k IH]; intros s K; [destruct s; [reflexivity|cbn [List.length] in K; lia]|]. destruct s as [|c s]; [reflexivity|]. cbn [List.length] in K. destruct (degree_case c s) as [[-> [r ->]]|D].
    - change (no_degree (map under (176 :: 67 :: r))) with (no_degree (map under (67 :: r))). change (no_degree (176 :: 67 :: r)) with (no_degree (67 :: r)). apply IH. lia.
    - rewrite no_degree_step by exact D. cbn [map]. rewrite no_degree_step; [rewrite IH by lia; reflexivity|]. intros [U [r E]]. apply D. unfold under in U. destruct (c =? 32) eqn:C; [lia|]. split; [exact U|]. destruct s as [|x s]; [discriminate E|]. injection E as E _. unfold under in E. destruct (x =? 32) eqn:X; [lia|]. exists s. f_equal. exact E. }
  intro s. exact (G _ s (le_n _)).
Qed.
Theorem C96_name : forall s, impulse_name s = plain_name s.
Proof.
  intro s. unfold impulse_name. rewrite replace_under, replace_degree by lia. rewrite degree_under.
  unfold replace. change (str "#") with [35]. change (str "(") with [40]. change (str ")") with [41]. change (str "/") with [47]. change (str "%") with [37]. rewrite !replace_char by lia. rewrite !flat_flat.
  assert (M : forall l, map under l = flat_map (fun c => [under c]) l) by (induction l as [|c l IH]; [reflexivity|cbn [map flat_map app]; rewrite IH; reflexivity]). rewrite M, flat_flat.
  assert (P : forall s, plain_name s = flat_map letter (no_degree s)).
  { assert (G : forall k s, (List.length s <= k)%nat -> plain_name s = flat_map letter (no_degree s)).
    { induction k as [|k IH]; intros s0 K; [destruct s0; [reflexivity|cbn [List.length] in K; lia]|]. destruct s0 as [|c s0]; [reflexivity|]. cbn [List.length] in K. destruct (degree_case c s0) as [[-> [r ->]]|D].
      - change (plain_name (176 :: 67 :: r)) with (plain_name (67 :: r)). change (no_degree (176 :: 67 :: r)) with (no_degree (67 :: r)). apply IH. lia.
      - rewrite no_degree_step, plain_step by exact D. cbn [flat_map]. rewrite IH by lia. reflexivity. }
    intro s0. exact (G _ s0 (le_n _)). }
  rewrite P. apply flat_map_ext. intro c. unfold letter, under, swap.
  destruct (Z.eqb_spec c 32) as [-> | N1]; [reflexivity|]. destruct (Z.eqb_spec c 35) as [-> | N2]; [reflexivity|]. destruct (Z.eqb_spec c 40) as [-> | N3]; [reflexivity|]. destruct (Z.eqb_spec c 41) as [-> | N4]; [reflexivity|]. destruct (Z.eqb_spec c 47) as [-> | N5]; [reflexivity|]. destruct (Z.eqb_spec c 37) as [-> | N6]; [reflexivity|].
  assert (E : forall x, x <> c -> (c =? x) = false) by (intros; lia). repeat (cbn [flat_map app orb]; rewrite ?(E 35), ?(E 40), ?(E 41), ?(E 47), ?(E 37) by lia). reflexivity.
Qed.
(** * Valves *)
Lemma undec_bound : forall s acc v, 0 <= acc -> undec_aux acc s = Some v -> 0 <= v < (acc + 1) * 10 ^ zlen s.
Proof.
  induction s as [|c s IH]; intros acc v A H; cbn [undec_aux] in H; [injection H as <-; unfold zlen; cbn [List.length]; change (10 ^ Z.of_nat 0) with 1; lia|]. unfold is_digit in H. destruct ((48 <=? c) && (c <=? 57)) eqn:D; [|discriminate H]. apply IH in H; [|lia]. destruct H as [B1 B2]. split; [exact B1|]. unfold zlen in *. cbn [List.length]. rewrite Nat2Z.inj_succ, Z.pow_succ_r by lia. assert (P : 0 < 10 ^ Z.of_nat (List.length s)) by (apply Z.pow_pos_nonneg; lia). nia.
Qed.
Lemma dec_below : forall n, 0 <= n -> n < 10 ^ zlen (dec n).
Proof. intros n N. pose proof (undec_dec n N) as U. unfold undec in U. destruct (dec n) as [|c s] eqn:E; [discriminate U|]. rewrite <- E in *. destruct (undec_bound _ 0 n (Z.le_refl 0) U) as [_ B]. lia. Qed.
Lemma dec_aux_short : forall f n k, 0 <= n -> n < 10 ^ Z.of_nat k -> (1 <= k)%nat -> (List.length (dec_aux f n) <= k)%nat.
Proof.
  induction f as [|f IH]; intros n k N B K; [cbn; lia|]. cbn [dec_aux]. destruct (n <? 10) eqn:E; [cbn [List.length]; lia|]. rewrite app_length. cbn [List.length]. destruct k as [|[|k]]; [lia|change (10 ^ Z.of_nat 1) with 10 in B; lia|]. rewrite Nat2Z.inj_succ, Z.pow_succ_r in B by lia. specialize (IH (n / 10) (S k) ltac:(lia) ltac:(lia) ltac:(lia)). lia.
Qed.
Lemma str_int_short : forall n k, Z.abs n < 10 ^ Z.of_nat k -> (1 <= k)%nat -> (List.length (str_int n) <= S k)%nat.
Proof.
  intros n k B K. unfold str_int. destruct (n <? 0) eqn:E; cbn [List.length]; [apply le_n_S|apply le_S]; unfold dec; apply dec_aux_short; lia.
Qed.
Lemma str_int_below : forall n, Z.abs n < 10 ^ zlen (str_int n) /\ 1 <= zlen (str_int n).
Proof.
  intro n. unfold str_int. assert (NE : forall m, 0 <= m -> 1 <= zlen (dec m)) by (intros m M; pose proof (dec_ne m M); unfold zlen; destruct (dec m); [congruence|cbn [List.length]; lia]). destruct (n <? 0) eqn:E.
  - pose proof (dec_below (- n) ltac:(lia)) as B. pose proof (NE (- n) ltac:(lia)) as L. unfold zlen in *. cbn [List.length]. rewrite Nat2Z.inj_succ, Z.pow_succ_r by lia. lia.
  - pose proof (dec_below n ltac:(lia)) as B. pose proof (NE n ltac:(lia)). lia.
Qed.
Definition code (a b c : Z) : Z := 100 * (a + 2) + 10 * (b + 2) + (c + 2).
Lemma code_fits : forall a b c, (List.length (str_int (code a b c)) <= List.length (str_int a) + List.length (str_int b) + List.length (str_int c) + 2)%nat.
Proof.
  intros a b c. destruct (str_int_below a) as [A LA]. destruct (str_int_below b) as [B LB]. destruct (str_int_below c) as [C LC]. unfold zlen in *.
  set (la := List.length (str_int a)) in *. set (lb := List.length (str_int b)) in *. set (lc := List.length (str_int c)) in *. replace (la + lb + lc + 2)%nat with (S (la + lb + lc + 1)) by lia. apply str_int_short; [|lia].
  replace (Z.of_nat (la + lb + lc + 1)) with (Z.of_nat la + Z.of_nat lb + Z.of_nat lc + 1) by lia. rewrite !Z.pow_add_r by lia. change (10 ^ 1) with 10.
  assert (PA : 10 <= 10 ^ Z.of_nat la) by (change 10 with (10 ^ 1) at 1; apply Z.pow_le_mono_r; lia). assert (PB : 10 <= 10 ^ Z.of_nat lb) by (change 10 with (10 ^ 1) at 1; apply Z.pow_le_mono_r; lia). assert (PC : 10 <= 10 ^ Z.of_nat lc) by (change 10 with (10 ^ 1) at 1; apply Z.pow_le_mono_r; lia).
  set (x := 10 ^ Z.of_nat la) in *. set (y := 10 ^ Z.of_nat lb) in *. set (z := 10 ^ Z.of_nat lc) in *. unfold code. clearbody x y z.
  assert (XY : 100 <= x * y) by nia. assert (YZ : 100 <= y * z) by nia. assert (XZ : 100 <= x * z) by nia. assert (T : 100 * x <= x * y * z) by nia. assert (T2 : 100 * y <= x * y * z) by nia. assert (T3 : 100 * z <= x * y * z) by nia. lia.
Qed.
Lemma str_int_no : forall n c, ~ (48 <= c <= 57) -> c <> 45 -> ~ In c (str_int n).
Proof.
  intros n c N M. assert (D : forall m, 0 <= m -> ~ In c (dec m)). { intros m H I. pose proof (dec_digits m H) as F. rewrite Forall_forall in F. specialize (F c I). unfold is_digit in F. lia. }
  unfold str_int. destruct (n <? 0) eqn:E; [intros [K|K]; [lia|exact (D (- n) ltac:(lia) K)]|apply D; lia].
Qed.
Lemma str_int_trimmed : forall n, trimmed (str_int n) /\ str_int n <> [].
Proof.
  intro n. assert (F : Forall (fun c => is_space c = false) (str_int n)). { rewrite Forall_forall. intros c C. destruct (is_space c) eqn:S; [|reflexivity]. exfalso. revert C. apply str_int_no; [intro K; rewrite (digit_no_space c K) in S; discriminate S|]. intros ->. discriminate S. }
  split; [apply nonspace_trimmed; exact F|]. unfold str_int. destruct (n <? 0) eqn:E; [discriminate|apply dec_ne; lia].
Qed.
Lemma parse_padded : forall s n, padded s (str_int n) -> parse_int s = Ok n.
Proof.
  intros s n P. destruct (str_int_trimmed n) as [T N]. pose proof (strip_inner s (str_int n) T N P) as S. rewrite <- (parse_int_str_int n). unfold parse_int. rewrite S, (strip_trimmed _ T). reflexivity.
Qed.
Lemma padded_no : forall s n c, padded s (str_int n) -> is_space c = false -> ~ (48 <= c <= 57) -> c <> 45 -> ~ In c s.
Proof.
  intros s n c (a & b & -> & A & B) S N M. rewrite !in_app_iff. intros [K|[K|K]]; [revert K; apply slashless; assumption|revert K; apply str_int_no; assumption|revert K; apply slashless; assumption].
Qed.
(** The number of three positions is not cut: it is never longer than the text *)
Theorem C96_valves : forall s a b c width, valves s a b c -> (List.length s <= width)%nat -> in_32_bits (100 * (a + 2) + 10 * (b + 2) + (c + 2)) -> mix_valve width s = Ok (100 * (a + 2) + 10 * (b + 2) + (c + 2)).
Proof.
  intros s a b c width (ta & tb & tc & -> & A & B & C) W [I1 I2]. unfold mix_valve. cbn [app]. rewrite split_char_app by (eapply padded_no; [exact A|reflexivity|lia|lia]). rewrite split_char_app by (eapply padded_no; [exact B|reflexivity|lia|lia]). rewrite split_char_nosep by (eapply padded_no; [exact C|reflexivity|lia|lia]).
  cbn [nth_cell nth_error bind]. rewrite (parse_padded _ _ A). cbn [bind]. rewrite (parse_padded _ _ B). cbn [bind]. rewrite (parse_padded _ _ C). cbn [bind]. rewrite firstn_all2; [replace ((a + 2) * 100 + (b + 2) * 10 + (c + 2)) with (100 * (a + 2) + 10 * (b + 2) + (c + 2)) by lia; rewrite parse_int_str_int; cbn [bind]; replace (_ && _) with true by (change (2 ^ 31) with 2147483648; lia); reflexivity|].
  pose proof (code_fits a b c) as F. unfold code in F. replace ((a + 2) * 100 + (b + 2) * 10 + (c + 2)) with (100 * (a + 2) + 10 * (b + 2) + (c + 2)) by lia.
  assert (LP : forall s n, padded s (str_int n) -> (List.length (str_int n) <= List.length s)%nat) by (intros s n (x & y & -> & _); rewrite !app_length; lia). apply LP in A. apply LP in B. apply LP in C. rewrite !app_length in W. cbn [List.length] in W. rewrite ?app_length in W. cbn [List.length] in W. lia.
Qed.
(** More than 32 bits are refused *)
Theorem C96_wide : forall s a b c width, valves s a b c -> (List.length s <= width)%nat -> ~ in_32_bits (100 * (a + 2) + 10 * (b + 2) + (c + 2)) -> mix_valve width s = Err OverflowError.
Proof.
  intros s a b c width (ta & tb & tc & -> & A & B & C) W I. unfold in_32_bits in I. unfold mix_valve. cbn [app]. rewrite split_char_app by (eapply padded_no; [exact A|reflexivity|lia|lia]). rewrite split_char_app by (eapply padded_no; [exact B|reflexivity|lia|lia]). rewrite split_char_nosep by (eapply padded_no; [exact C|reflexivity|lia|lia]).
  cbn [nth_cell nth_error bind]. rewrite (parse_padded _ _ A). cbn [bind]. rewrite (parse_padded _ _ B). cbn [bind]. rewrite (parse_padded _ _ C). cbn [bind]. rewrite firstn_all2; [replace ((a + 2) * 100 + (b + 2) * 10 + (c + 2)) with (100 * (a + 2) + 10 * (b + 2) + (c + 2)) by lia; rewrite parse_int_str_int; cbn [bind]; replace (_ && _) with false by (change (2 ^ 31) with 2147483648; lia); reflexivity|].
  pose proof (code_fits a b c) as F. unfold code in F. replace ((a + 2) * 100 + (b + 2) * 10 + (c + 2)) with (100 * (a + 2) + 10 * (b + 2) + (c + 2)) by lia.
  assert (LP : forall s n, padded s (str_int n) -> (List.length (str_int n) <= List.length s)%nat) by (intros s n (x & y & -> & _); rewrite !app_length; lia). apply LP in A. apply LP in B. apply LP in C. rewrite !app_length in W. cbn [List.length] in W. rewrite ?app_length in W. cbn [List.length] in W. lia.
Qed.
Definition position (a : Z) : Prop := -2 <= a <= 7.
Theorem C96_distinct : forall a b c a' b' c', position a -> position b -> position c -> position a' -> position b' -> position c' -> 100 * (a + 2) + 10 * (b + 2) + (c + 2) = 100 * (a' + 2) + 10 * (b' + 2) + (c' + 2) -> (a, b, c) = (a', b', c').
Proof. unfold position. intros. assert (a = a' /\ b = b' /\ c = c') as (-> & -> & ->) by lia. reflexivity. Qed.
Theorem C96_collision_refuted : forall width, (5 <= width)%nat -> mix_valve width (str "0;8;0") = mix_valve width (str "1;-2;0").
Proof.
  intros width W. assert (P : forall n, padded (str_int n) (str_int n)) by (intro n; exists [], []; rewrite app_nil_r; repeat split; constructor).
  rewrite (C96_valves (str "0;8;0") 0 8 0 width); [|exists (str_int 0), (str_int 8), (str_int 0); auto|cbn [str List.length]; exact W|unfold in_32_bits; lia].
  destruct (Nat.eq_dec width 5) as [-> | N]; [vm_compute; reflexivity|]. rewrite (C96_valves (str "1;-2;0") 1 (-2) 0 width); [reflexivity|exists (str_int 1), (str_int (-2)), (str_int 0); auto|change (List.length (str "1;-2;0")) with 6%nat; lia|unfold in_32_bits; lia].
Qed.
(** * Units *)
Lemma split_last : forall a w, ~ In 32 w -> last_cell (split_char 32 (a ++ 32 :: w)) = w /\ 1 < zlen (split_char 32 (a ++ 32 :: w)).
Proof.
  intros a w N. unfold last_cell. induction a as [|c a [IH1 IH2]]; cbn [app split_char].
  - rewrite Z.eqb_refl, split_char_nosep by exact N. split; [reflexivity|unfold zlen; cbn; lia].
  - destruct (split_char 32 (a ++ 32 :: w)) as [|x [|y l]] eqn:E; [destruct (split_char_ne _ _ E)|unfold zlen in IH2; cbn in IH2; lia|]. destruct (c =? 32); (split; [exact IH1|unfold zlen in *; cbn [List.length] in *; lia]).
Qed.
Definition no_parens (s : pystr) : pystr := filter (fun c => negb ((c =? 40) || (c =? 41))) s.
Theorem C96_units : forall q s, trimmed s -> s <> [] -> padded q s ->
  (forall a u, s = a ++ 32 :: 40 :: u ++ [41] -> ~ In 32 u -> quantity_units q = no_parens u) /\
  (~ In 32 s -> quantity_units q = []) /\ (forall a c w, s = a ++ 32 :: c :: w -> ~ In 32 (c :: w) -> c <> 40 \/ last (c :: w) 0 <> 41 -> quantity_units q = []).
Proof.
  intros q s T N P. unfold quantity_units. rewrite (strip_inner q s T N P). cbv zeta. split; [|split].
  - intros a u -> NU. assert (NW : ~ In 32 (40 :: u ++ [41])) by (intros [K|K]; [lia|]; apply in_app_or in K; destruct K as [K|[K|[]]]; [contradiction|lia]). destruct (split_last a (40 :: u ++ [41]) NW) as [E L]. rewrite E. replace (1 <? _) with true by lia. unfold begins_with, ends_with. rewrite Z.eqb_refl. assert (R : rev (40 :: u ++ [41]) = 41 :: rev (40 :: u)) by (change (40 :: u ++ [41]) with ((40 :: u) ++ [41]); rewrite rev_app_distr; reflexivity). rewrite R, Z.eqb_refl. cbn [andb filter Z.eqb Pos.eqb orb negb]. rewrite filter_app. cbn [filter Z.eqb Pos.eqb orb negb]. apply app_nil_r.
  - intro NS. rewrite split_char_nosep by exact NS. reflexivity.
  - intros a c w -> NW D. destruct (split_last a (c :: w) NW) as [E L]. rewrite E. replace (1 <? _) with true by lia. cbn [andb begins_with]. destruct D as [D|D]; [replace (c =? 40) with false by lia; reflexivity|]. assert (X : ends_with 41 (c :: w) = false). { unfold ends_with. destruct (exists_last (l := c :: w)) as [i [z Z]]; [discriminate|]. rewrite Z in D |- *. rewrite last_last in D. rewrite rev_app_distr. cbn [rev app]. lia. } rewrite X, andb_false_r. reflexivity.
Qed.
(** * Metadata *)
Definition entry (row : list pystr) (k v : pystr) : Prop := exists a b more, row = a :: b :: more /\ a <> str "Live notes" /\ k = map under a /\ v = strip b.
Definition latest (ps : list (pystr * pystr)) (k v : pystr) : Prop := exists a b, ps = a ++ (k, v) :: b /\ ~ In k (map fst b).
Lemma rows_entries : forall rows ps d rest, Forall2 (fun r p => entry r (fst p) (snd p)) rows ps -> metadata_rows None d (rows ++ rest) = metadata_rows None (fold_left (fun d p => put (fst p) (snd p) d) ps d) rest.
Proof.
  intros rows ps d rest F. revert d. induction F as [|r [k v] rows ps E F IH]; intro d; [reflexivity|]. cbn [fst snd] in E. destruct E as (a & b & more & -> & N & -> & ->). cbn [app metadata_rows nth_cell nth_error bind fst snd fold_left]. replace (eqb_str a (str "Live notes")) with false by (symmetry; apply eqb_str_neq; exact N). rewrite replace_under. apply IH.
Qed.
Lemma rows_notes : forall rows firsts n d, Forall2 (fun (r : list pystr) a => exists more, r = a :: more) rows firsts -> metadata_rows (Some n) d rows = Ok (d, n ++ firsts).
Proof.
  intros rows firsts n d F. revert n. induction F as [|r a rows firsts [more ->] F IH]; intro n; [rewrite app_nil_r; reflexivity|]. cbn [metadata_rows nth_cell nth_error bind]. rewrite IH, <- app_assoc. reflexivity.
Qed.
Lemma puts_latest : forall ps d k, (forall v, latest ps k v -> lookup k (fold_left (fun d p => put (fst p) (snd p) d) ps d) = Some v) /\ (~ In k (map fst ps) -> lookup k (fold_left (fun (d : list (pystr * pystr)) p => put (fst p) (snd p) d) ps d) = lookup k d).
Proof.
  intros ps d k. assert (N : forall ps d, ~ In k (map fst ps) -> lookup k (fold_left (fun (d : list (pystr * pystr)) p => put (fst p) (snd p) d) ps d) = lookup k d).
  { induction ps0 as [|[k0 v0] ps0 IH]; intros d0 H; [reflexivity|]. cbn [fold_left fst snd map In] in *. rewrite IH by tauto. rewrite lookup_put. replace (eqb_str k k0) with false; [reflexivity|]. symmetry. apply eqb_str_neq. intros ->. tauto. }
  split; [|apply N]. intros v (a & b & -> & NB). rewrite fold_left_app. cbn [fold_left fst snd]. rewrite N by exact NB. rewrite lookup_put, eqb_str_refl. reflexivity.
Qed.
(** Rows of names and values, and the first cells of notes after the row of the live notes *)
Theorem C96_metadata : forall rows ps note more nrows firsts, Forall2 (fun r p => entry r (fst p) (snd p)) rows ps -> Forall2 (fun (r : list pystr) a => exists more, r = a :: more) nrows firsts ->
  exists d, metadata_rows None [] rows = Ok (d, []) /\ metadata_rows None [] (rows ++ (str "Live notes" :: note :: more) :: nrows) = Ok (d, strip note :: firsts) /\ forall k, (forall v, latest ps k v -> lookup k d = Some v) /\ (~ In k (map fst ps) -> lookup k d = None).
Proof.
  intros rows ps note more nrows firsts F G. exists (fold_left (fun d p => put (fst p) (snd p) d) ps []). split; [|split].
  - rewrite <- (app_nil_r rows). rewrite (rows_entries rows ps [] [] F). reflexivity.
  - rewrite (rows_entries rows ps [] _ F). cbn [metadata_rows nth_cell nth_error bind]. rewrite eqb_str_refl. rewrite (rows_notes nrows firsts [strip note] _ G). reflexivity.
  - intro k. destruct (puts_latest ps [] k) as [A B]. split; [exact A|exact B].
Qed.
(** An empty row is an error *)
Theorem C96_empty_row_refuted : forall rows ps rest, Forall2 (fun r p => entry r (fst p) (snd p)) rows ps -> metadata_rows None [] (rows ++ csv_row [] :: rest) = Err IndexError.
Proof. intros rows ps rest F. rewrite (rows_entries rows ps [] _ F). reflexivity. Qed.
(** Commas cut the notes *)
Theorem C96_notes_refuted : metadata_rows None [] (map csv_row [str "Gas1, H2"; str "Live notes, a, b"; str "c, d"]) = Ok ([(str "Gas1", str "H2")], [str "a"; str "c"]).
Proof. vm_compute. reflexivity. Qed.
