(** Property C81: blocks and header of Renishaw files. *)
From Coq Require Import QArith.
From Verif Require Import Base Text Bytes Utf8 SfsModel SfsProps BcfUnpack HierModel SurFloat SurQuantity RenModel.
Local Open Scope Z_scope.

(** * Specification *)
(** A block: four characters, a number, the size and the contents *)
Record blk := { b_name : list Z; b_uid : Z; b_body : list Z }.
Definition block_head (name : list Z) (uid size : Z) : list Z := name ++ le 4 uid ++ le 8 size.
Definition block_bytes (b : blk) : list Z := block_head (b_name b) (b_uid b) (16 + zlen (b_body b)) ++ b_body b.
Definition file_of (bs : list blk) : list Z := List.concat (map block_bytes bs).
Definition name_ok (name : list Z) : Prop := List.length name = 4%nat /\ Forall (fun c => 0 < c < 128) name.
Definition blk_ok (b : blk) : Prop := name_ok (b_name b) /\ 0 <= b_uid b < 2 ^ 32 /\ zlen (b_body b) < 2 ^ 62.
Definition key_of (b : blk) : pystr := filter (fun c => negb (c =? 32)) (b_name b) ++ str "_" ++ str_int (b_uid b).
(** Positions and sizes of blocks from [pos] on *)
Fixpoint table_of (pos : Z) (bs : list blk) : list (pystr * (Z * Z)) :=
  match bs with [] => [] | b :: bs' => (key_of b, (pos + 16, 16 + zlen (b_body b))) :: table_of (pos + 16 + zlen (b_body b)) bs' end.
(** The number at a position *)
Definition word_at (f : list Z) (p w : Z) : Z := le_val (slice (Z.to_nat p) (Z.to_nat w) f).
Definition bytes_at (f : list Z) (p n : Z) : list Z := slice (Z.to_nat p) (Z.to_nat n) f.
Definition no_zeros (s : pystr) : pystr := filter (fun c => negb (c =? 0)) s.

(** * Reading at a position *)
Lemma skipz_0 : forall A (l : list A), skipz 0 l = l.
Proof. intros. rewrite skipz_skipn. reflexivity. Qed.
Lemma zlen_skipz : forall A p (f : list A), 0 <= p <= zlen f -> zlen (skipz p f) = zlen f - p.
Proof. intros A p f H. rewrite skipz_skipn. unfold zlen in *. rewrite skipn_length. lia. Qed.
Lemma skipz_skipz : forall A p q (f : list A), 0 <= p -> 0 <= q -> skipz q (skipz p f) = skipz (p + q) f.
Proof. intros. rewrite !skipz_skipn, skipn_skipn. f_equal. lia. Qed.
Lemma list_same : forall A (a b : list A), (forall i, nth_error a i = nth_error b i) -> a = b.
Proof.
  induction a as [|x a IH]; intros [|y b] H; [reflexivity|specialize (H O); discriminate H|specialize (H O); discriminate H|]. pose proof (H O) as H0. injection H0 as ->. f_equal. apply IH. intro i. exact (H (S i)).
Qed.
Lemma words_read : forall w n p f, 0 < w -> 0 <= n -> 0 <= p -> p + n * w <= zlen f -> read_words w n (skipz p f) = (map (fun i => word_at f (p + i * w) w) (zseq 0 (Z.to_nat n)), skipz (p + n * w) f).
Proof.
  intros w n p f Hw Hn Hp H. unfold read_words. rewrite zlen_skipz by (clear - Hw Hn Hp H; nia). assert (E : n <= (zlen f - p) / w) by (apply Z.div_le_lower_bound; nia). replace (n <? 0) with false by lia. replace (0 <=? n) with true by lia. replace (n <=? (zlen f - p) / w) with true by lia. cbn [andb].
  rewrite Z.min_l by exact E. f_equal; [|rewrite skipz_skipz by nia; reflexivity]. apply list_same. intro i. destruct (Nat.ltb i (Z.to_nat n)) eqn:L.
  - apply Nat.ltb_lt in L. rewrite nth_error_map, nth_records by exact L. cbn [option_map]. rewrite nth_error_map. rewrite (nth_error_nth' (zseq 0 (Z.to_nat n)) 0) by (rewrite zseq_length; exact L). cbn [option_map]. rewrite nth_zseq by exact L. unfold word_at. do 2 f_equal. unfold slice. rewrite skipz_skipn, skipn_skipn. f_equal. f_equal.
    rewrite Z.add_0_l, Z2Nat.inj_add, Z2Nat.inj_mul by lia. rewrite Nat2Z.id. reflexivity.
  - apply Nat.ltb_ge in L. rewrite (proj2 (nth_error_None _ _)) by (rewrite map_length, records_length; exact L). symmetry. apply nth_error_None. rewrite map_length, zseq_length. exact L.
Qed.
Lemma word_read : forall w p f, 0 < w -> 0 <= p -> p + w <= zlen f -> read_word w (skipz p f) = Ok (word_at f p w, skipz (p + w) f).
Proof. intros w p f Hw Hp H. unfold read_word. rewrite words_read by lia. change (Z.to_nat 1) with 1%nat. cbn [zseq map]. rewrite Z.mul_1_l. replace (p + 0 * w) with p by lia. reflexivity. Qed.
Lemma u64_read : forall p f, 0 <= p -> p + 8 <= zlen f -> read_u64 (skipz p f) = Ok (signed 8 (word_at f p 8), skipz (p + 8) f).
Proof. intros p f Hp H. unfold read_u64. rewrite word_read by lia. reflexivity. Qed.
Lemma each_read : forall w n p f, 0 < w -> 0 <= p -> p + Z.of_nat n * w <= zlen f -> read_each w n (skipz p f) = Ok (map (fun i => word_at f (p + i * w) w) (zseq 0 n), skipz (p + Z.of_nat n * w) f).
Proof.
  intros w n. induction n as [|n IH]; intros p f Hw Hp H; [cbn; rewrite Z.add_0_r; reflexivity|]. rewrite Nat2Z.inj_succ in *. cbn [read_each]. rewrite word_read by (clear - Hw Hp H; nia). cbn [bind]. rewrite IH by (clear - Hw Hp H; nia). cbn [bind fst snd]. cbn [zseq map]. f_equal.
  replace (p + w + Z.of_nat n * w) with (p + Z.succ (Z.of_nat n) * w) by ring. f_equal. rewrite Z.mul_0_l, Z.add_0_r. f_equal. clear. change (0 + 1) with 1. assert (E : forall n a, zseq (1 + a) n = map (Z.add 1) (zseq a n)) by (clear; induction n as [|n IH]; intro a; [reflexivity|]; cbn [zseq map]; rewrite <- Z.add_assoc, IH; reflexivity).
  change (zseq 1 n) with (zseq (1 + 0) n). rewrite E, map_map. apply map_ext. intro i. f_equal. ring.
Qed.
Lemma utf8_read : forall n p f s, 0 <= n -> 0 <= p -> utf8_decode (bytes_at f p n) = Ok s -> read_utf8 n (skipz p f) = Ok (no_zeros s, skipz (p + n) f).
Proof.
  intros n p f s Hn Hp H. unfold read_utf8. replace (n <? -1) with false by lia. replace (n <? 0) with false by lia. rewrite firstz_firstn, skipz_skipn. unfold bytes_at, slice in H. rewrite H. cbn [bind]. rewrite skipz_skipn, skipz_skipn, skipn_skipn, <- Z2Nat.inj_add by lia. reflexivity.
Qed.
Lemma skipz_app : forall A (a b : list A), skipz (zlen a) (a ++ b) = b.
Proof. intros. rewrite skipz_skipn. unfold zlen. rewrite Nat2Z.id. apply skipn_app_exact. reflexivity. Qed.
Lemma word_front : forall n x r, 0 <= x < 256 ^ Z.of_nat n -> (n <> 0)%nat -> read_word (Z.of_nat n) (le n x ++ r) = Ok (x, r).
Proof.
  intros n x r H N. pose proof (word_read (Z.of_nat n) 0 (le n x ++ r) ltac:(lia) ltac:(lia) ltac:(rewrite zlen_app; unfold zlen; rewrite le_length; lia)) as E. rewrite skipz_0 in E. rewrite E. f_equal. f_equal.
  - unfold word_at. rewrite Nat2Z.id. rewrite slice_here by apply le_length. apply le_val_small. exact H.
  - rewrite Z.add_0_l. rewrite skipz_skipn, Nat2Z.id. apply skipn_app_exact. apply le_length.
Qed.
Lemma u64_front : forall x r, 0 <= x < 2 ^ 63 -> read_u64 (le 8 x ++ r) = Ok (x, r).
Proof. intros x r H. unfold read_u64. change 8 with (Z.of_nat 8) at 1. rewrite (word_front 8 x r) by (try discriminate; change (256 ^ Z.of_nat 8) with (2 ^ 64); lia). cbn [bind fst snd]. unfold signed. change (8 * Z.of_nat 8 - 1) with 63. destruct (x <? 2 ^ 63) eqn:E; [reflexivity|lia]. Qed.
Lemma name_decode : forall name, name_ok name -> utf8_decode name = Ok name /\ no_zeros name = name.
Proof.
  intros name [_ H]. split; [apply utf8_ascii_decode; eapply Forall_impl; [|exact H]; cbv beta; lia|]. unfold no_zeros. induction H as [|c l Hc H IH]; [reflexivity|]. cbn [filter]. replace (c =? 0) with false by lia. cbn [negb]. rewrite IH. reflexivity.
Qed.
Lemma utf8_front : forall name r, name_ok name -> read_utf8 4 (name ++ r) = Ok (name, r).
Proof.
  intros name r H. destruct (name_decode name H) as [D N]. destruct H as [L _]. rewrite <- (skipz_0 _ (name ++ r)) at 1. rewrite (utf8_read 4 0 (name ++ r) name) by (try lia; unfold bytes_at; rewrite slice_here by exact L; exact D). rewrite N. f_equal. f_equal. rewrite skipz_skipn. apply skipn_app_exact. exact L.
Qed.
Lemma head_read : forall a name uid size r, name_ok name -> 0 <= uid < 2 ^ 32 -> 0 <= size < 2 ^ 63 -> read_block (zlen a) (a ++ block_head name uid size ++ r) = Ok (name, uid, size).
Proof.
  intros a name uid size r HN HU HS. unfold read_block. pose proof (zlen_nonneg _ a) as P. replace (zlen a <? 0) with false by lia. rewrite skipz_app. unfold block_head. rewrite <- !app_assoc. rewrite utf8_front by exact HN. cbn [bind]. change 4 with (Z.of_nat 4) at 1. rewrite (word_front 4 uid) by (try discriminate; exact HU). cbn [bind]. rewrite u64_front by exact HS. reflexivity.
Qed.
Lemma head_length : forall name uid size, name_ok name -> zlen (block_head name uid size) = 16.
Proof. intros name uid size [L _]. unfold block_head, zlen. rewrite !app_length, !le_length, L. reflexivity. Qed.
Lemma block_length : forall b, blk_ok b -> zlen (block_bytes b) = 16 + zlen (b_body b).
Proof. intros b (N & _). unfold block_bytes. rewrite zlen_app, head_length by exact N. reflexivity. Qed.
Lemma nodup_front : forall A (a b : list A), NoDup (a ++ b) -> NoDup a.
Proof. intros A a b. induction a as [|x a IH]; intro H; [constructor|]. cbn [app] in H. inversion H as [|? ? N H']; subst. constructor; [intro K; apply N; apply in_or_app; left; exact K|exact (IH H')]. Qed.
Lemma put_fresh : forall A k (v : A) l, ~ In k (map fst l) -> put k v l = l ++ [(k, v)].
Proof. intros A k v l. induction l as [|[k' v'] l IH]; intro H; [reflexivity|]. cbn [put]. destruct (eqb_str k k') eqn:E; [exfalso; apply H; left; apply eqb_str_spec in E; cbn; congruence|]. cbn [app]. rewrite IH by (intro K; apply H; right; exact K). reflexivity. Qed.

(** * Locating blocks *)
(** What is left when the blocks [bs] have been read *)
Lemma locate_step : forall bs fuel first a info r, Forall blk_ok bs -> NoDup (map fst info ++ map key_of bs) ->
  locate_blocks (List.length bs + fuel) first (zlen a) info (a ++ file_of bs ++ r) =
  locate_blocks fuel (first && match bs with [] => true | _ => false end) (zlen (a ++ file_of bs)) (info ++ table_of (zlen a) bs) (a ++ file_of bs ++ r).
Proof.
  induction bs as [|b bs IH]; intros fuel first a info r H ND.
  - cbn [List.length Nat.add file_of map List.concat app table_of]. rewrite !app_nil_r, andb_true_r. reflexivity.
  - inversion H as [|? ? Hb Hs]; subst. pose proof Hb as (HN & HU & HL). pose proof (zlen_nonneg _ (b_body b)) as P. cbn [List.length Nat.add locate_blocks]. change (file_of (b :: bs)) with (block_bytes b ++ file_of bs). rewrite <- !app_assoc.
    replace (zlen (a ++ block_bytes b ++ file_of bs ++ r) <=? zlen a) with false by (rewrite zlen_app, zlen_app, block_length by exact Hb; pose proof (zlen_nonneg _ (file_of bs ++ r)); lia).
    unfold block_bytes at 1. rewrite <- app_assoc. rewrite head_read by (try assumption; lia). cbn [map] in ND. rewrite put_fresh by (apply NoDup_remove_2 in ND; intro K; apply ND; apply in_or_app; left; exact K).
    replace (zlen a + (16 + zlen (b_body b))) with (zlen (a ++ block_bytes b)) by (rewrite zlen_app, block_length by exact Hb; reflexivity).
    replace (a ++ block_bytes b ++ file_of bs ++ r) with ((a ++ block_bytes b) ++ file_of bs ++ r) by (rewrite <- app_assoc; reflexivity).
    rewrite IH; [|exact Hs|rewrite map_app, <- app_assoc; exact ND]. rewrite andb_false_r. cbn [andb]. rewrite <- !app_assoc. cbn [app table_of]. unfold block_key. fold (key_of b).
    replace (zlen a + 16 + zlen (b_body b)) with (zlen (a ++ block_bytes b)) by (rewrite zlen_app, block_length by exact Hb; lia). reflexivity.
Qed.
Lemma file_length : forall bs, Forall blk_ok bs -> (List.length bs <= List.length (file_of bs))%nat.
Proof. induction 1 as [|b bs Hb H IH]; [reflexivity|]. change (file_of (b :: bs)) with (block_bytes b ++ file_of bs). rewrite app_length. cbn [List.length]. pose proof (block_length b Hb) as L. pose proof (zlen_nonneg _ (b_body b)). unfold zlen in *. lia. Qed.
Lemma locate_all : forall bs r, Forall blk_ok bs -> NoDup (map key_of bs) -> exists fuel, locate_blocks (S (List.length (file_of bs ++ r))) true 0 [] (file_of bs ++ r) =
  locate_blocks (S fuel) (match bs with [] => true | _ => false end) (zlen (file_of bs)) (table_of 0 bs) (file_of bs ++ r).
Proof.
  intros bs r H ND. pose proof (file_length bs H) as L. exists (List.length (file_of bs ++ r) - List.length bs)%nat. replace (S (List.length (file_of bs ++ r))) with (List.length bs + S (List.length (file_of bs ++ r) - List.length bs))%nat by (rewrite app_length; lia).
  pose proof (locate_step bs (S (List.length (file_of bs ++ r) - List.length bs)) true [] [] r H ND) as E. cbn [app] in E. change (zlen (@nil Z)) with 0 in E. rewrite E. cbn [andb]. destruct bs; reflexivity.
Qed.
Definition locate (f : list Z) : res (list (pystr * block)) := locate_blocks (S (List.length f)) true 0 [] f.
(** Every block is found at its place *)
Theorem C81_blocks : forall bs, Forall blk_ok bs -> NoDup (map key_of bs) -> locate (file_of bs) = Ok (table_of 0 bs).
Proof.
  intros bs H ND. unfold locate. destruct (locate_all bs [] H ND) as [fuel E]. rewrite app_nil_r in E. rewrite E. cbn [locate_blocks]. rewrite Z.leb_refl. reflexivity.
Qed.
(** The contents of a block are at the position found *)
Theorem C81_contents : forall bs, Forall blk_ok bs -> forall b, In b bs -> NoDup (map key_of bs) -> exists pos size, lookup (key_of b) (table_of 0 bs) = Some (pos, size) /\ size = 16 + zlen (b_body b) /\ bytes_at (file_of bs) pos (size - 16) = b_body b /\ 0 <= pos /\ pos + zlen (b_body b) <= zlen (file_of bs).
Proof.
  intros bs H. assert (G : forall b a r, In b bs -> NoDup (map key_of bs) -> exists pos size, lookup (key_of b) (table_of (zlen a) bs) = Some (pos, size) /\ size = 16 + zlen (b_body b) /\ bytes_at (a ++ file_of bs ++ r) pos (size - 16) = b_body b /\ 0 <= pos /\ pos + zlen (b_body b) <= zlen (a ++ file_of bs)).
  { induction H as [|c bs Hc H IH]; intros b a r I ND; [destruct I|]. cbn [map] in ND. inversion ND as [|? ? NI ND']; subst. change (file_of (c :: bs)) with (block_bytes c ++ file_of bs). cbn [table_of lookup]. pose proof (zlen_nonneg _ a) as Pa. pose proof (zlen_nonneg _ (b_body b)) as Pb. destruct I as [-> | I].
    - rewrite eqb_str_refl. eexists _, _. split; [reflexivity|]. split; [reflexivity|]. split; [|split; [lia|rewrite !zlen_app, block_length by exact Hc; pose proof (zlen_nonneg _ (file_of bs)); lia]].
      unfold bytes_at, block_bytes. replace (a ++ ((block_head (b_name b) (b_uid b) (16 + zlen (b_body b)) ++ b_body b) ++ file_of bs) ++ r) with ((a ++ block_head (b_name b) (b_uid b) (16 + zlen (b_body b))) ++ b_body b ++ file_of bs ++ r) by (rewrite <- !app_assoc; reflexivity).
      apply slice_app; [|unfold zlen; lia]. destruct Hc as (N & _). pose proof (head_length (b_name b) (b_uid b) (16 + zlen (b_body b)) N) as L. rewrite app_length. unfold zlen in *. lia.
    - replace (eqb_str (key_of b) (key_of c)) with false by (symmetry; apply eqb_str_neq; intro K; apply NI; rewrite <- K; apply in_map; exact I).
      replace (zlen a + 16 + zlen (b_body c)) with (zlen (a ++ block_bytes c)) by (rewrite zlen_app, block_length by exact Hc; lia). destruct (IH b (a ++ block_bytes c) r I ND') as (pos & size & E1 & E2 & E3 & E4 & E5). exists pos, size. rewrite <- !app_assoc in *. repeat split; assumption. }
  intros b I ND. destruct (G b [] [] I ND) as (pos & size & E1 & E2 & E3 & E4 & E5). cbn [app] in *. rewrite app_nil_r in E3. exists pos, size. repeat split; assumption.
Qed.
(** Bytes after the last block that are not text are left alone *)
Theorem C81_tail : forall bs r, Forall blk_ok bs -> NoDup (map key_of bs) -> bs <> [] -> utf8_decode (firstn 4 r) = Err UnicodeError -> r <> [] -> locate (file_of bs ++ r) = Ok (table_of 0 bs).
Proof.
  intros bs r H ND NE D NR. unfold locate. destruct (locate_all bs r H ND) as [fuel E]. rewrite E. cbn [locate_blocks]. replace (zlen (file_of bs ++ r) <=? zlen (file_of bs)) with false by (rewrite zlen_app; destruct r; [contradiction|]; unfold zlen; cbn [List.length]; lia).
  unfold read_block. pose proof (zlen_nonneg _ (file_of bs)). replace (zlen (file_of bs) <? 0) with false by lia. rewrite skipz_app. unfold read_utf8. cbn [Z.ltb Z.compare]. rewrite firstz_firstn. change (Z.to_nat 4) with 4%nat. rewrite D. cbn [bind]. destruct bs; [contradiction|reflexivity].
Qed.
(** The last block may be cut *)
Theorem C81_cut : forall bs name uid size part, Forall blk_ok bs -> name_ok name -> 0 <= uid < 2 ^ 32 -> 16 + zlen part <= size < 2 ^ 63 ->
  let key := filter (fun c => negb (c =? 32)) name ++ str "_" ++ str_int uid in NoDup (map key_of bs ++ [key]) ->
  locate (file_of bs ++ block_head name uid size ++ part) = Ok (table_of 0 bs ++ [(key, (zlen (file_of bs) + 16, size))]).
Proof.
  intros bs name uid size part H HN HU HS key ND. unfold locate. pose proof (zlen_nonneg _ part) as Pp. pose proof (zlen_nonneg _ (file_of bs)) as Pf.
  pose proof (file_length bs H) as L. set (r := block_head name uid size ++ part). assert (Lr : zlen r = 16 + zlen part) by (unfold r; rewrite zlen_app, head_length by exact HN; reflexivity).
  replace (S (List.length (file_of bs ++ r))) with (List.length bs + S (S (List.length (file_of bs ++ r) - List.length bs - 1)))%nat by (rewrite app_length; unfold zlen in Lr; lia).
  pose proof (locate_step bs (S (S (List.length (file_of bs ++ r) - List.length bs - 1))) true [] [] r H ltac:(cbn [map app]; apply NoDup_remove_1 in ND; rewrite app_nil_r in ND; exact ND)) as E. cbn [app] in E. change (zlen (@nil Z)) with 0 in E. rewrite E. clear E. cbn [locate_blocks].
  replace (zlen (file_of bs ++ r) <=? zlen (file_of bs)) with false by (rewrite zlen_app; lia). unfold r at 1. rewrite head_read by (try assumption; lia).
  replace (zlen (file_of bs ++ r) <=? zlen (file_of bs) + size) with true by (rewrite zlen_app; lia). rewrite put_fresh; [reflexivity|]. apply NoDup_remove_2 in ND. rewrite app_nil_r in ND. intro K. apply ND. unfold block_key in K. fold key in K. clear - K. revert K. generalize 0. induction bs as [|b bs IH]; intros p K; [destruct K|]. cbn [table_of map fst] in K. destruct K as [K|K]; [left; exact K|right; exact (IH _ K)].
Qed.
(** A block of size 0: the search never ends *)
Theorem C81_zero : forall fuel bs name uid part, Forall blk_ok bs -> name_ok name -> 0 <= uid < 2 ^ 32 -> NoDup (map key_of bs) ->
  locate_blocks fuel true 0 [] (file_of bs ++ block_head name uid 0 ++ part) = Err OutOfFuel.
Proof.
  intros fuel bs name uid part H HN HU ND. assert (G : forall fuel first info, locate_blocks fuel first (zlen (file_of bs)) info (file_of bs ++ block_head name uid 0 ++ part) = Err OutOfFuel).
  { clear fuel. induction fuel as [|fuel IH]; intros first info; [reflexivity|]. cbn [locate_blocks]. replace (zlen (file_of bs ++ block_head name uid 0 ++ part) <=? zlen (file_of bs)) with false by (rewrite !zlen_app, head_length by exact HN; pose proof (zlen_nonneg _ part); lia).
    rewrite head_read by (try assumption; lia). rewrite Z.add_0_r. apply IH. }
  destruct (Nat.leb (List.length bs) fuel) eqn:E.
  - apply Nat.leb_le in E. replace fuel with (List.length bs + (fuel - List.length bs))%nat by lia. pose proof (locate_step bs (fuel - List.length bs) true [] [] (block_head name uid 0 ++ part) H ND) as S. cbn [app] in S. change (zlen (@nil Z)) with 0 in S. rewrite S. apply G.
  - apply Nat.leb_gt in E. assert (S : exists cs ds, bs = cs ++ ds /\ List.length cs = fuel) by (exists (firstn fuel bs), (skipn fuel bs); split; [symmetry; apply firstn_skipn|rewrite firstn_length; lia]). destruct S as (cs & ds & -> & <-). unfold file_of. rewrite map_app, concat_app, <- app_assoc. fold (file_of cs). fold (file_of ds). rewrite map_app in ND.
    apply Forall_app in H. destruct H as [H _]. pose proof (locate_step cs 0 true [] [] (file_of ds ++ block_head name uid 0 ++ part) H (nodup_front _ _ _ ND)) as S. rewrite Nat.add_0_r in S. cbn [app] in S. change (zlen (@nil Z)) with 0 in S. rewrite S. reflexivity.
Qed.
(** A few zeros at the end are an error, though a warning is intended *)
Theorem C81_zeros_refuted : forall bs k, Forall blk_ok bs -> NoDup (map key_of bs) -> (0 < k < 16)%nat -> locate (file_of bs ++ repeat 0 k) = Err IndexError.
Proof.
  intros bs k H ND Hk. unfold locate. destruct (locate_all bs (repeat 0 k) H ND) as [fuel E]. rewrite E. cbn [locate_blocks]. replace (zlen (file_of bs ++ repeat 0 k) <=? zlen (file_of bs)) with false by (rewrite zlen_app; unfold zlen; rewrite repeat_length; lia).
  unfold read_block. pose proof (zlen_nonneg _ (file_of bs)). replace (zlen (file_of bs) <? 0) with false by lia. rewrite skipz_app. assert (K : exists j, k = S j /\ (j < 15)%nat) by (exists (pred k); lia). destruct K as (j & -> & Hj).
  do 15 (destruct j as [|j]; [reflexivity|]). lia.
Qed.

(** * The header *)
Definition date_of (f : list Z) (p : Z) : res pystr := windows_time (signed 8 (word_at f p 8)).
Theorem C81_header : forall (info : list (pystr * block)) f p size app user title t0 t1, lookup (str "WDF1_1") info = Some (p, size) -> 0 <= p -> p + 384 <= zlen f ->
  utf8_decode (bytes_at f (p + 80) 24) = Ok app -> utf8_decode (bytes_at f (p + 192) 32) = Ok user -> utf8_decode (bytes_at f (p + 224) 160) = Ok title ->
  date_of f (p + 120) = Ok t0 -> date_of f (p + 128) = Ok t1 -> word_at f (p + 44) 4 = word_at f (p + 72) 4 ->
  parse_header info f = Ok {| h_flags := signed 8 (word_at f p 8); h_uuid := [word_at f (p + 8) 4; word_at f (p + 12) 4; word_at f (p + 16) 4; word_at f (p + 20) 4]; h_tracks := word_at f (p + 36) 4; h_status := word_at f (p + 40) 4;
    h_points := word_at f (p + 44) 4; h_capacity := signed 8 (word_at f (p + 48) 8); h_spectra := signed 8 (word_at f (p + 56) 8); h_accumulations := word_at f (p + 64) 4; h_ylist := word_at f (p + 68) 4; h_xlist := word_at f (p + 72) 4;
    h_origins := word_at f (p + 76) 4; h_app := no_zeros app; h_version := [word_at f (p + 104) 2; word_at f (p + 106) 2; word_at f (p + 108) 2; word_at f (p + 110) 2]; h_scan := word_at f (p + 112) 4;
    h_type := match word_at f (p + 116) 4 with 0 => Unspecified | 1 => Single | 2 => Series | 3 => Mapping | _ => UnknownType end;
    h_start := t0; h_end := t1; h_unit := word_at f (p + 136) 4; h_laser := word_at f (p + 140) 4; h_user := no_zeros user; h_title := no_zeros title |}.
Proof.
  intros info f p size app user title t0 t1 HB Hp HL HA HU HT H0 H1 HX. unfold parse_header, find_block. rewrite HB. rewrite u64_read by lia. cbn [bind].
  rewrite each_read by lia. cbn [bind]. rewrite <- Z.add_assoc. cbn [Z.add Pos.add Z.of_nat Pos.of_succ_nat Pos.succ Z.mul Pos.mul]. rewrite words_read by lia. cbn [snd]. rewrite <- Z.add_assoc. cbn [Z.add Pos.add Z.mul Pos.mul Pos.succ Pos.add_carry].
  repeat (first [rewrite word_read by lia | rewrite u64_read by lia]; cbn [bind]; rewrite <- Z.add_assoc; cbn [Z.add Pos.add Pos.succ Pos.add_carry]).
  rewrite (utf8_read 24 (p + 80) f app ltac:(lia) ltac:(lia) HA). cbn [bind]. rewrite <- Z.add_assoc. cbn [Z.add Pos.add Pos.succ Pos.add_carry]. rewrite each_read by lia. cbn [bind]. rewrite <- Z.add_assoc. cbn [Z.add Pos.add Pos.succ Pos.add_carry Z.of_nat Pos.of_succ_nat Z.mul Pos.mul].
  repeat (first [rewrite word_read by lia | rewrite u64_read by lia]; cbn [bind]; rewrite <- Z.add_assoc; cbn [Z.add Pos.add Pos.succ Pos.add_carry]). unfold date_of in H0, H1. rewrite H0. cbn [bind]. rewrite H1. cbn [bind].
  repeat (first [rewrite word_read by lia | rewrite u64_read by lia]; cbn [bind]; rewrite <- Z.add_assoc; cbn [Z.add Pos.add Pos.succ Pos.add_carry]). rewrite words_read by lia. cbn [snd]. change (6 * 8) with 48. replace (p + 144 + 48) with (p + 192) by lia.
  rewrite (utf8_read 32 (p + 192) f user ltac:(lia) ltac:(lia) HU). cbn [bind]. replace (p + 192 + 32) with (p + 224) by lia. rewrite (utf8_read 160 (p + 224) f title ltac:(lia) ltac:(lia) HT). cbn [bind]. rewrite HX, Z.eqb_refl.
  cbn [zseq map]. rewrite <- !Z.add_assoc. cbn [Z.add Pos.add Pos.succ Pos.add_carry Z.mul Pos.mul].
  assert (M : measurement_of (word_at f (p + 116) 4) = match word_at f (p + 116) 4 with 0 => Unspecified | 1 => Single | 2 => Series | 3 => Mapping | _ => UnknownType end).
  { unfold measurement_of. destruct (word_at f (p + 116) 4) as [|q|q]; try reflexivity. destruct q as [[q|q|]|[q|q|]|]; reflexivity. }
  rewrite M. reflexivity.
Qed.
Print Assumptions C81_blocks.
Print Assumptions C81_contents.
Print Assumptions C81_tail.
Print Assumptions C81_cut.
Print Assumptions C81_zero.
Print Assumptions C81_zeros_refuted.
Print Assumptions C81_header.
