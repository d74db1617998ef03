(** Properties C73 and C74: data in several compressed streams, and items of a series. *)
From Coq Require Import QArith.
From Verif Require Import Base Text Bytes RowMajor SfsModel SfsProps BcfUnpack SurFloat SurModel SurFile.
Local Open Scope Z_scope.

Lemma piece_concat : forall (data : list Z) L, 0 <= L -> forall k a, 0 <= a ->
  List.concat (map (fun i => firstz L (skipz (i * L) data)) (zseq a k)) = firstz (Z.of_nat k * L) (skipz (a * L) data).
Proof.
  intros data L HL. induction k as [|k IH]; intros a Ha; [rewrite firstz_firstn; reflexivity|]. cbn [zseq map List.concat]. rewrite IH by lia. rewrite !firstz_firstn, !skipz_skipn.
  replace (Z.to_nat (Z.of_nat (S k) * L)) with (Z.to_nat L + Z.to_nat (Z.of_nat k * L))%nat by nia. replace (Z.to_nat ((a + 1) * L)) with (Z.to_nat (a * L) + Z.to_nat L)%nat by nia.
  rewrite <- skipn_skipn. set (x := Z.to_nat L). set (y := Z.to_nat (Z.of_nat k * L)). set (l := skipn (Z.to_nat (a * L)) data). clearbody x y l. clear.
  revert l. induction x as [|x IH]; intros [|b l]; cbn [firstn skipn app Nat.add]; rewrite ?firstn_nil; try reflexivity. f_equal. apply IH.
Qed.
Lemma concat_le : forall w (ps : list (list Z)), List.concat (map (fun p => List.concat (map (le w) p)) ps) = List.concat (map (le w) (List.concat ps)).
Proof. intros w ps. induction ps as [|p ps IH]; [reflexivity|]. cbn [map List.concat]. rewrite map_app, concat_app, IH. reflexivity. Qed.
Lemma concat_le_len : forall w (p : list Z), zlen (List.concat (map (le w) p)) = zlen p * Z.of_nat w.
Proof. intros w p. induction p as [|x p IH]; [reflexivity|]. cbn [map List.concat]. rewrite zlen_app, IH. unfold zlen. rewrite le_length. cbn [List.length]. lia. Qed.

(** Points compressed in one to eight streams are read back *)
Theorem C73_streams : forall zip unzip h n w (data rest : list Z), (forall b, unzip (zip b) = Ok b) -> signature h = true -> 1 <= n <= 8 -> zlen data * Z.of_nat w < 2 ^ 32 ->
  (forall b, zlen b <= zlen data * Z.of_nat w -> zlen (zip b) < 2 ^ 32) ->
  exists out, compress_data zip n w data = Ok out /\ read_raw unzip h (out ++ rest) = Ok (List.concat (map (le w) data), rest).
Proof.
  intros zip unzip h n w data rest HU HS Hn Hd Hz. unfold compress_data. replace ((n <=? 0) || (8 <? n)) with false by lia. cbv zeta.
  set (L := if zlen data mod n =? 0 then zlen data / n else zlen data / n + 1). pose proof (zlen_nonneg _ data) as D0.
  assert (HL : 0 <= L /\ zlen data <= n * L) by (unfold L; destruct (zlen data mod n =? 0) eqn:E; nia). clearbody L. destruct HL as [HL0 HL].
  set (pieces := map (fun i => firstz L (skipz (i * L) data)) (zseq 0 (Z.to_nat n))).
  assert (EP : List.concat pieces = data).
  { unfold pieces. rewrite (piece_concat data L HL0 (Z.to_nat n) 0 ltac:(lia)). rewrite Z2Nat.id by lia. rewrite firstz_firstn. replace (skipz (0 * L) data) with data by (rewrite skipz_skipn; reflexivity). apply firstn_all2. unfold zlen in *. lia. }
  assert (NP : List.length pieces = Z.to_nat n) by (unfold pieces; rewrite map_length, zseq_length; reflexivity).
  assert (BP : Forall (fun p => zlen p <= zlen data) pieces).
  { apply Forall_forall. intros p Hp. rewrite <- EP. clear - Hp. induction pieces as [|q ps IH]; [destruct Hp|]. cbn [List.concat]. rewrite zlen_app. pose proof (zlen_nonneg _ q). pose proof (zlen_nonneg _ (List.concat ps)). destruct Hp as [->|Hp]; [lia|specialize (IH Hp); lia]. }
  clearbody pieces.
  set (raws := map (fun p => List.concat (map (le w) p)) pieces). set (zips := map (fun p => zip (List.concat (map (le w) p))) pieces).
  assert (HM : mapM (fun pz : list Z * list Z => let (p, z) := pz in let! a := set_int 0 (2 ^ 32) 4 (zlen p * Z.of_nat w) in let! b := set_int 0 (2 ^ 32) 4 (zlen z) in Ok (a ++ b)) (combine pieces zips)
    = Ok (map (fun p => le 4 (zlen (fst p)) ++ le 4 (zlen (snd p))) (combine raws zips))).
  { unfold raws, zips. clear - BP Hd Hz D0. induction BP as [|p ps Hp BP IH]; [reflexivity|]. cbn [map combine mapM fst snd]. rewrite concat_le_len. pose proof (zlen_nonneg _ p).
    assert (P : zlen p * Z.of_nat w <= zlen data * Z.of_nat w) by nia. specialize (Hz (List.concat (map (le w) p))). rewrite concat_le_len in Hz. specialize (Hz P). unfold set_int at 1 2.
    replace ((0 <=? zlen p * Z.of_nat w) && (zlen p * Z.of_nat w <? 2 ^ 32)) with true by (symmetry; apply andb_true_intro; split; [apply Z.leb_le; nia|apply Z.ltb_lt; lia]).
    pose proof (zlen_nonneg _ (zip (List.concat (map (le w) p)))). replace ((0 <=? zlen (zip (List.concat (map (le w) p)))) && (zlen (zip (List.concat (map (le w) p))) <? 2 ^ 32)) with true by lia.
    cbn [bind]. rewrite IH. reflexivity. }
  rewrite HM. cbn [bind]. eexists. split; [reflexivity|]. unfold read_raw. rewrite HS. rewrite <- !app_assoc. rewrite take_app by apply le_length. cbn [bind]. rewrite le_val_small by (cbn; lia).
  assert (NZ : List.length zips = Z.to_nat n) by (unfold zips; rewrite map_length; exact NP). rewrite <- NZ. rewrite stream_sizes_ok.
  - cbn [bind]. rewrite (unzip_streams_ok unzip raws zips rest); [|unfold raws, zips; clear - HU; induction pieces; constructor; [apply HU|assumption]]. unfold raws. rewrite concat_le, EP. reflexivity.
  - unfold raws, zips. rewrite !map_length. reflexivity.
  - unfold zips. apply Forall_forall. intros z Hin. apply in_map_iff in Hin. destruct Hin as [p [<- Hp]]. apply Hz. rewrite concat_le_len. pose proof (proj1 (Forall_forall _ _) BP p Hp). cbv beta in *. nia.
Qed.
Example C73_streams_example : exists out, compress_data (fun b => 7 :: b) 3 2 [1; 2; 3; 4; 5; 6; 7] = Ok out /\ zlen out = 4 + 3 * 8 + 17.
Proof. eexists. split; [vm_compute; reflexivity|reflexivity]. Qed.

(** Item [t] of a series along any axis: its points are those with index [t] *)
Theorem C74_along : forall A (d : A) before n after (l : list A) t b c, 0 <= prodZ before -> 0 <= n -> 0 <= prodZ after -> zlen l = prodZ before * n * prodZ after ->
  0 <= t < n -> 0 <= b < prodZ before -> 0 <= c < prodZ after ->
  nth (Z.to_nat (b * prodZ after + c)) (nth (Z.to_nat t) (along (List.length before) (before ++ n :: after) l) []) d = nth (Z.to_nat ((b * n + t) * prodZ after + c)) l d.
Proof.
  intros A d before n after l t b c HB Hn HA Hl Ht Hb Hc. unfold along. rewrite firstn_app, Nat.sub_diag, firstn_all, firstn_O, app_nil_r. rewrite app_nth2, Nat.sub_diag by lia. cbn [nth].
  replace (skipn (S (List.length before)) (before ++ n :: after)) with after by (rewrite skipn_app, skipn_all2 by lia; replace (S (List.length before) - List.length before)%nat with 1%nat by lia; reflexivity).
  set (B := prodZ before) in *. set (C := prodZ after) in *. clearbody B C.
  rewrite (nth_indep _ [] (List.concat (map (fun a => slice ((a * Z.to_nat n + 0) * Z.to_nat C) (Z.to_nat C) l) (seq 0 (Z.to_nat B))))) by (rewrite map_length, seq_length; lia).
  rewrite (map_nth (fun t => List.concat (map (fun a => slice ((a * Z.to_nat n + t) * Z.to_nat C) (Z.to_nat C) l) (seq 0 (Z.to_nat B))))), seq_nth by lia. cbn [Nat.add].
  set (k := Z.to_nat C). set (m := Z.to_nat n). set (s := Z.to_nat t). set (q := Z.to_nat B).
  assert (HL : List.length l = (q * m * k)%nat) by (unfold zlen in Hl; unfold q, m, k; nia).
  assert (G : forall q' a x y, (a + q' <= q)%nat -> (x < q')%nat -> (y < k)%nat ->
    nth (x * k + y) (List.concat (map (fun a => slice ((a * m + s) * k) k l) (seq a q'))) d = nth (((a + x) * m + s) * k + y) l d).
  { assert (Hs : (s < m)%nat) by (unfold s, m; lia). induction q' as [|q' IH]; intros a x y Ha Hx Hy; [lia|]. cbn [seq map List.concat].
    assert (SL : List.length (slice ((a * m + s) * k) k l) = k).
    { apply slice_length. rewrite HL. assert (a * m + s + 1 <= q * m)%nat by nia. nia. }
    destruct x as [|x].
    - rewrite app_nth1 by lia. unfold slice. cbn [Nat.mul Nat.add]. rewrite Nat.add_0_r. clear - Hy. set (p := ((a * m + s) * k)%nat). clearbody p.
      rewrite <- (firstn_skipn p l) at 2. destruct (Nat.le_gt_cases (List.length l) p) as [E|E].
      + rewrite (skipn_all2 l E). rewrite firstn_nil, app_nil_r. rewrite (firstn_all2 l E). destruct y; symmetry; apply nth_overflow; lia.
      + rewrite app_nth2 by (rewrite firstn_length; lia). rewrite firstn_length. replace (p + y - Nat.min p (List.length l))%nat with y by lia. rewrite <- (firstn_skipn k (skipn p l)) at 2.
        destruct (Nat.lt_ge_cases y (List.length (firstn k (skipn p l)))) as [F|F]; [rewrite app_nth1 by exact F; reflexivity|]. rewrite firstn_length in F. rewrite (nth_overflow (firstn k _)) by (rewrite firstn_length; exact F). rewrite app_nth2 by (rewrite firstn_length; exact F).
        symmetry. apply nth_overflow. rewrite skipn_length. lia.
    - rewrite app_nth2 by (rewrite SL; nia). rewrite SL. replace (S x * k + y - k)%nat with (x * k + y)%nat by nia. rewrite IH by lia. f_equal. f_equal. f_equal. f_equal. lia. }
  specialize (G q 0%nat (Z.to_nat b) (Z.to_nat c) ltac:(lia) ltac:(unfold q; lia) ltac:(unfold k; lia)).
  replace (Z.to_nat (b * C + c)) with (Z.to_nat b * k + Z.to_nat c)%nat by (unfold k; nia). rewrite G. f_equal. unfold k, m, s. clear - Ht Hb Hc Hn HA. rewrite Z2Nat.inj_add, Z2Nat.inj_mul, Z2Nat.inj_add, Z2Nat.inj_mul by nia. reflexivity.
Qed.
Example C74_along_example : along 1 [2; 3; 2] [0; 1; 2; 3; 4; 5; 6; 7; 8; 9; 10; 11] = [[0; 1; 6; 7]; [2; 3; 8; 9]; [4; 5; 10; 11]].
Proof. vm_compute. reflexivity. Qed.
Print Assumptions C73_streams.
Print Assumptions C74_along.
