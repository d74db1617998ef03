(** Lemmas on the SEMPER model. *)
From Verif Require Import Base Text Bytes Utf8 DistModel SemperModel.

Lemma read16_words : forall w, forallb in16 w = true -> read16 (flat_map (le 2) w) = w.
Proof.
  induction w as [|x w IH]; intros H; [reflexivity|]. cbn [forallb] in H. apply andb_prop in H. destruct H as [H1 H2].
  change (read16 (flat_map (le 2) (x :: w))) with (signed 2 (x mod 256 + 256 * (x / 256 mod 256)) :: read16 (flat_map (le 2) w)).
  rewrite IH by exact H2. f_equal.
  replace (x mod 256 + 256 * (x / 256 mod 256)) with (x mod 256 ^ Z.of_nat 2) by (change (256 ^ Z.of_nat 2) with (256 * 256); lia).
  apply signed_mod; [lia|]. unfold in16 in H1. change (2 ^ (8 * Z.of_nat 2 - 1)) with 32768. lia.
Qed.

Lemma words16_ok : forall w, forallb in16 w = true -> words16 w = Ok (flat_map (le 2) w).
Proof. intros w H. unfold words16. rewrite H. reflexivity. Qed.

Lemma words_length : forall w, List.length (flat_map (le 2) w) = (2 * List.length w)%nat.
Proof. induction w as [|x w IH]; [reflexivity|]. change (flat_map (le 2) (x :: w)) with (le 2 x ++ flat_map (le 2) w). rewrite app_length, le_length, IH. cbn [List.length]. lia. Qed.

Lemma take_app : forall a b n, Z.of_nat (List.length a) = n -> take n (a ++ b) = Ok (a, b).
Proof.
  intros a b n <-. unfold take. rewrite app_length.
  replace (Z.of_nat (List.length a + List.length b) <? Z.of_nat (List.length a)) with false by lia.
  rewrite Nat2Z.id, firstn_app_exact, skipn_app_exact by reflexivity. reflexivity.
Qed.

Lemma rd4_le : forall x l, -2147483648 <= x < 2147483648 -> rd4 (le 4 x ++ l) = Ok (x, l).
Proof.
  intros x l H. unfold rd4. rewrite take_app by (rewrite le_length; reflexivity). cbn [bind].
  rewrite le_val_le. rewrite signed_mod; [reflexivity|lia|]. exact H.
Qed.

Lemma split_fields_words : forall dt (g : string * nat -> list Z) rest,
  Forall (fun p => List.length (g p) = snd p) dt ->
  split_fields dt (flat_map g dt ++ rest) = map (fun p => (fst p, g p)) dt.
Proof.
  induction dt as [|[k n] dt IH]; intros g rest H; [reflexivity|]. inversion H as [|? ? H1 H2]; subst.
  cbn [flat_map split_fields map fst]. cbn [snd] in H1. rewrite <- app_assoc.
  rewrite firstn_app_exact, skipn_app_exact by exact H1. rewrite IH by exact H2. reflexivity.
Qed.

Lemma split_label : forall fs,
  Forall (fun p : string * nat => List.length (match field (fst p) fs with Some w => w | None => repeat 0 (snd p) end) = snd p) label_dtypes ->
  split_fields label_dtypes (label_words fs) =
  map (fun p => (fst p, match field (fst p) fs with Some w => w | None => repeat 0 (snd p) end)) label_dtypes.
Proof.
  intros fs W. rewrite <- (app_nil_r (label_words fs)). exact (split_fields_words label_dtypes _ [] W).
Qed.

Lemma unpack_le : forall x, 0 <= x < 4294967296 -> unpack_f (le 4 x) = Ok x.
Proof.
  intros x H. unfold unpack_f.
  assert (B : forallb (fun c => (0 <=? c) && (c <? 256)) (le 4 x) = true).
  { apply forallb_forall. intros c Hc. assert (K := le_bytes 4 x). unfold bytes in K. rewrite Forall_forall in K. specialize (K c Hc). unfold is_byte in K. lia. }
  rewrite B. rewrite le_val_small by (change (256 ^ Z.of_nat 4) with 4294967296; exact H). reflexivity.
Qed.

Lemma bytes_in16 : forall n x, forallb in16 (le n x) = true.
Proof.
  intros n x. apply forallb_forall. intros c Hc. assert (K := le_bytes n x). unfold bytes in K. rewrite Forall_forall in K.
  specialize (K c Hc). unfold is_byte in K. unfold in16. lia.
Qed.

Definition word_char (c : Z) : Prop := 0 <= c < 32768.

Lemma chars_in16 : forall s, Forall word_char s -> forallb in16 s = true.
Proof.
  intros s H. apply forallb_forall. intros c Hc. rewrite Forall_forall in H. specialize (H c Hc). unfold word_char in H. unfold in16. lia.
Qed.
Lemma chars_ok : forall s, Forall word_char s -> chars s = Ok s.
Proof.
  intros s H. unfold chars. replace (forallb (fun c => 0 <=? c) s) with true; [reflexivity|]. symmetry.
  apply forallb_forall. intros c Hc. rewrite Forall_forall in H. specialize (H c Hc). unfold word_char in H. lia.
Qed.
Lemma zeros_word : forall n, Forall word_char (repeat 0 n).
Proof. induction n as [|n IH]; constructor; [unfold word_char; lia|exact IH]. Qed.

Lemma put_text_ok : forall n s, (List.length s <= n)%nat -> put_text n s = Ok (s ++ repeat 0 (n - List.length s)).
Proof. intros n s H. unfold put_text. replace (List.length s <=? n)%nat with true by lia. reflexivity. Qed.
Lemma upto_text : forall (s r : list Z), upto (Z.of_nat (List.length s)) (s ++ r) = s.
Proof.
  intros s r. unfold upto. replace (Z.of_nat (List.length s) <? 0) with false by lia. rewrite Nat2Z.id. apply firstn_app_exact. reflexivity.
Qed.
Lemma filter_nonzero : forall s n, Forall (fun c => c <> 0) s -> filter (fun x => negb (x =? 0)) (s ++ repeat 0 n) = s.
Proof.
  induction s as [|c s IH]; intros n H.
  - cbn [app]. induction n as [|n IH]; [reflexivity|]. cbn [repeat filter]. cbn. exact IH.
  - inversion H as [|? ? H1 H2]; subst. cbn [app filter]. replace (c =? 0) with false by lia. cbn [negb]. rewrite IH by exact H2. reflexivity.
Qed.

Lemma dim_digits : forall x, 0 <= x < 32768 -> 65536 * (x / 65536) + wrap16 (256 * (x mod 65536 / 256)) + x mod 65536 mod 256 = x.
Proof.
  intros x H. replace (x / 65536) with 0 by lia. replace (x mod 65536) with x by lia.
  unfold wrap16. replace (256 * (x / 256) mod 65536) with (256 * (x / 256)) by lia.
  unfold signed. change (2 ^ (8 * Z.of_nat 2 - 1)) with 32768. replace (256 * (x / 256) <? 32768) with true by lia. lia.
Qed.

(** Conditions under which a SemperFormat object can be written and read back. *)
Record sem_ok (s : sem) (y m d h mi sec : Z) (isz : Z) : Prop := {
  ok_nl : 1 <= nlay s < 32768; ok_nr : 1 <= nrow s < 32768; ok_nc : 1 <= ncol s < 32768;
  ok_icc : 0 <= iccoln s < 32768; ok_icr : 0 <= icrown s < 32768; ok_icl : 0 <= iclayn s < 32768;
  ok_iform : itemsize (iform s) = Some isz;
  ok_class : 0 <= iclass s < 32768;
  ok_title : exists t, title s = Some t /\ ascii t /\ (List.length t <= 144)%nat;
  ok_off : exists a b c, offsets s = [a; b; c] /\ 0 <= a < 2 ^ 32 /\ 0 <= b < 2 ^ 32 /\ 0 <= c < 2 ^ 32;
  ok_scl : exists a b c, scales s = [a; b; c] /\ 0 <= a < 2 ^ 32 /\ 0 <= b < 2 ^ 32 /\ 0 <= c < 2 ^ 32;
  ok_unit : let u := unit_text (nth 0 (units s) None) in Forall word_char u /\ Forall (fun c => c <> 0) u /\ (List.length u <= 4)%nat;
  ok_date : date_words (date s) = Ok [y - 1900; m; d; h; mi; sec];
  ok_dates : 0 <= y < 32768 /\ 0 <= m < 32768 /\ 0 <= d < 32768 /\ 0 <= h < 32768 /\ 0 <= mi < 32768 /\ 0 <= sec < 32768;
  ok_range : Forall word_char (range s) /\ (List.length (range s) <= 27)%nat;
  ok_elems : Forall (fun e => List.length e = Z.to_nat isz) (elems s);
  ok_count : Z.of_nat (List.length (elems s)) = nlay s * nrow s * ncol s }.

Definition label_of (s : sem) (y m d h mi sec : Z) : label :=
  let u := unit_text (nth 0 (units s) None) in
  mkLabel (ncol s) (nrow s) (nlay s) (iccoln s) (icrown s) (iclayn s) (iclass s) (iform s)
    [y; m; d; h; mi; sec] (RText (range s)) (Some (offsets s, scales s))
    (match title s with Some t => t | None => [] end) [u; u; u].

Lemma wrap16_id : forall x, -32768 <= x < 32768 -> wrap16 x = x.
Proof. intros x H. unfold wrap16. change 65536 with (256 ^ Z.of_nat 2). apply signed_mod; [lia|exact H]. Qed.

Lemma forallb_app' : forall A (f : A -> bool) a b, forallb f a = true -> forallb f b = true -> forallb f (a ++ b) = true.
Proof. intros. rewrite forallb_app. rewrite H, H0. reflexivity. Qed.

Lemma ascii_word : forall t, ascii t -> Forall word_char t.
Proof. intros t H. eapply Forall_impl; [|exact H]. intros c Hc. cbv beta in Hc. unfold word_char. lia. Qed.

Lemma label_round_trip : forall s y m d h mi sec isz, sem_ok s y m d h mi sec isz ->
  exists fs, label_fields s = Ok fs /\ forallb in16 (label_words fs) = true
    /\ List.length (label_words fs) = 256%nat
    /\ decode_label (label_words fs) = Ok (label_of s y m d h mi sec).
Proof.
  intros s y m d h mi sec isz [Hnl Hnr Hnc Hcc Hcr Hcl Hif Hic [t [Ht [Hta Htl]]] Ho Hs Hu Hd Hds Hr _ _].
  destruct Ho as [o1 [o2 [o3 [Eo [Ho1 [Ho2 Ho3]]]]]]. destruct Hs as [c1 [c2 [c3 [Es [Hs1 [Hs2 Hs3]]]]]].
  destruct Hu as [Hu1 [Hu2 Hu3]]. destruct Hr as [Hr1 Hr2].
  unfold label_fields, label_of. rewrite Hd. cbn [bind]. rewrite put_text_ok by exact Hr2. cbn [bind]. rewrite Ht.
  rewrite put_text_ok by exact Htl. cbn [bind]. rewrite put_text_ok by exact Hu3. cbn [bind].
  set (u := unit_text (nth 0 (units s) None)) in *. rewrite Eo, Es. cbn [nth].
  eexists. split; [reflexivity|]. 
  match goal with |- context [label_words ?l] => set (fs := l) end.
  assert (Hiform : in16 (iform s) = true).
  { unfold itemsize in Hif. unfold in16. destruct (iform s) as [|p|p]; [reflexivity| |discriminate].
    destruct p as [[|[]|]|[[]|[]|]|]; try discriminate; reflexivity. }
  assert (W : Forall (fun p : string * nat => List.length (match field (fst p) fs with Some w => w | None => repeat 0 (snd p) end) = snd p) label_dtypes).
  { unfold label_dtypes, fs. repeat constructor; cbn [fst snd field String.eqb Ascii.eqb Bool.eqb];
      rewrite ?app_length, ?repeat_length, ?le_length; try reflexivity; clear - Htl Hu3 Hr2; lia. }
  assert (B : forallb in16 (label_words fs) = true).
  { clear W. unfold label_words, label_dtypes, fs. cbn [flat_map fst snd field String.eqb Ascii.eqb Bool.eqb].
    repeat apply forallb_app'; try reflexivity; try apply bytes_in16;
      try (apply chars_in16; assumption); try (apply chars_in16; apply zeros_word);
      try (apply chars_in16; apply ascii_word; assumption);
      cbn [digits256 forallb]; rewrite ?Bool.andb_true_r; unfold in16; try (clear - Hds; lia).
    all: try (clear - Hnl Hnr Hnc Hcc Hcr Hcl Hic Hr2 Htl; lia).
    exact Hiform. }
  split; [exact B|]. split.
  {
    assert (Hsum : forall dt (g : string * nat -> list Z), Forall (fun p => List.length (g p) = snd p) dt ->
        List.length (flat_map g dt) = fold_right (fun p a => (snd p + a)%nat) 0%nat dt).
    { clear. induction 1 as [|p dt Hp _ IH]; [reflexivity|]. cbn [flat_map fold_right]. rewrite app_length, IH, Hp. reflexivity. }
    exact (Hsum _ _ W). }
  unfold decode_label.
  rewrite (split_label fs W). clear W B.
  unfold fs, label_dtypes. cbn [map fst snd field String.eqb Ascii.eqb Bool.eqb]. clear fs.
  unfold dim_of, unit_of, float_of, get. cbn [field String.eqb Ascii.eqb Bool.eqb bind].
  rewrite (chars_ok (str "Semper")) by (unfold word_char; repeat constructor; lia). cbn [bind].
  rewrite eqb_str_refl. cbn [negb bind nth digits256].
  rewrite !dim_digits by (clear - Hnl Hnr Hnc Hcc Hcr Hcl; lia). cbn [bind].
  replace (Z.of_nat (List.length (range s)) =? 255) with false by (clear - Hr2; lia). cbn [bind].
  rewrite upto_text. rewrite (chars_ok (range s)) by exact Hr1. cbn [bind].
  change (2 ^ 32) with 4294967296 in *.
  rewrite (unpack_le o1), (unpack_le o2), (unpack_le o3), (unpack_le c1), (unpack_le c2), (unpack_le c3), (unpack_le 0) by (assumption || lia).
  cbn [bind]. rewrite upto_text. rewrite (chars_ok t) by (apply ascii_word; exact Hta). cbn [bind].
  rewrite (chars_ok (u ++ _)) by (apply Forall_app; split; [exact Hu1|apply zeros_word]). cbn [bind].
  rewrite filter_nonzero by exact Hu2. cbn [Z.eqb Pos.eqb]. 
  rewrite wrap16_id by (clear - Hds; lia). replace (y - 1900 + 1900) with y by lia. reflexivity.
Qed.

(** Rows: with [pad] extra bytes (fewer than an element... or one more element of padding). *)
Lemma upto_all : forall A (l : list A) n, Z.of_nat (List.length l) = n -> upto n l = l.
Proof. intros A l n <-. unfold upto. replace (Z.of_nat (List.length l) <? 0) with false by lia. rewrite Nat2Z.id. apply firstn_all. Qed.

Lemma upto_app : forall A (l r : list A) n, Z.of_nat (List.length l) = n -> upto n (l ++ r) = l.
Proof. intros A l r n <-. unfold upto. replace (Z.of_nat (List.length l) <? 0) with false by lia. rewrite Nat2Z.id. apply firstn_app_exact. reflexivity. Qed.

Lemma read_rows_ok : forall isz nc rows rest, 0 < isz -> 0 <= nc -> isz * nc < 2147483648 ->
  Forall (fun row => Z.of_nat (List.length row) = nc /\ Forall (fun e => List.length e = Z.to_nat isz) row) rows ->
  read_rows (List.length rows) nc isz (flat_map (row_record isz nc) rows ++ rest) = Ok (rows, rest).
Proof.
  intros isz nc rows rest Hi Hn Hb H. induction H as [|row rows [H1 H2] _ IH]; [reflexivity|].
  cbn [List.length read_rows flat_map]. unfold row_record at 1. rewrite <- !app_assoc.
  assert (P : 0 <= isz * nc) by (apply Z.mul_nonneg_nonneg; lia).
  rewrite rd4_le by lia. cbn [bind].
  replace (isz * nc / isz) with nc by (rewrite Z.mul_comm; symmetry; apply Z.div_mul; lia).
  replace (nc <? 0) with false by lia.
  rewrite take_app.
  2:{ rewrite (concat_length_const _ _ _ H2). rewrite Nat2Z.inj_mul, H1, Z2Nat.id by lia. reflexivity. }
  cbn [bind].
  replace (records (Z.to_nat nc) (Z.to_nat isz) (List.concat row)) with row.
  2:{ rewrite <- H1, Nat2Z.id. rewrite <- (app_nil_r (List.concat row)). symmetry. apply records_concat. exact H2. }
  rewrite upto_all by exact H1. rewrite H1, Z.eqb_refl. cbn [bind].
  rewrite rd4_le by lia. cbn [bind]. rewrite Z.eqb_refl. cbn [negb].
  rewrite IH. reflexivity.
Qed.

Lemma save_load : forall s y m d h mi sec isz, sem_ok s y m d h mi sec isz ->
  exists file, save s = Ok file /\ load file = Ok (mkLoaded [nlay s; nrow s; ncol s]
      (records (Z.to_nat (nlay s * nrow s)) (Z.to_nat (ncol s)) (elems s)) (iform s)
      (match title s with Some t => t | None => [] end) (offsets s) (scales s)
      (let u := Some (unit_text (nth 0 (units s) None)) in [u; u; u])
      (Some (label_of s y m d h mi sec))).
Proof.
  intros s y m d h mi sec isz OK. destruct (label_round_trip _ _ _ _ _ _ _ _ OK) as [fs [F1 [F2 [F3 F4]]]].
  destruct OK as [Hnl Hnr Hnc Hcc Hcr Hcl Hif Hic [t [Ht [Hta Htl]]] _ _ _ _ _ _ He Hcount].
  assert (Hiform : in16 (iform s) = true /\ 0 < isz <= 8).
  { unfold itemsize in Hif. unfold in16. destruct (iform s) as [|p|p]; [injection Hif as <-; split; [reflexivity|lia]| |discriminate].
    destruct p as [[|[]|]|[[]|[]|]|]; try discriminate; injection Hif as <-; split; (reflexivity||lia). }
  destruct Hiform as [Hi16 Hisz].
  unfold save. rewrite Ht, Hif.
  set (n := Z.of_nat (List.length t)). assert (Hn : 0 <= n <= 144) by (unfold n; lia).
  assert (HW : forallb in16 [ncol s; nrow s; nlay s; iclass s; iform s; 2 * 10000 + 1000 + n] = true).
  { cbn [forallb]. rewrite Hi16. unfold in16. clear - Hnl Hnr Hnc Hic Hn. lia. }
  rewrite words16_ok by exact HW. cbn [bind]. rewrite utf8_ascii by exact Hta. cbn [bind]. rewrite F1. cbn [bind].
  rewrite words16_ok by exact F2. cbn [bind]. eexists. split; [reflexivity|].
  unfold load. rewrite rd4_le by lia. cbn [bind]. change (12 / 2) with 6. cbn [Z.leb Z.eqb Z.compare Pos.compare Pos.compare_cont Pos.eqb orb negb].
  rewrite take_app by (rewrite words_length; reflexivity). cbn [bind]. rewrite rd4_le by lia. cbn [bind].
  cbn [Z.eqb Pos.eqb negb]. rewrite read16_words by exact HW. rewrite Hif.
  replace ((2 * 10000 + 1000 + n) mod 10000 / 1000) with 1 by lia.
  replace ((2 * 10000 + 1000 + n) mod 10000 mod 1000) with n by lia.
  set (rows := records (Z.to_nat (nlay s * nrow s)) (Z.to_nat (ncol s)) (elems s)).
  match goal with |- context [bind (if 0 <? n then _ else _) _] => idtac end.
  assert (T : forall rest, (if 0 <? n
     then let! (a, r1) := rd4 ((if 0 <? n then le 4 n ++ t ++ le 4 n else []) ++ rest) in
          if negb (a =? n) then Err OtherError
          else let! (b, r2) := take n r1 in
               let! t' := utf8_decode b in
               let! (c, r3) := rd4 r2 in
               if negb (c =? n) then Err OtherError else Ok (t', r3)
     else Ok ([], (if 0 <? n then le 4 n ++ t ++ le 4 n else []) ++ rest)) = Ok (t, rest)).
  { intros rest. destruct (0 <? n) eqn:E.
    - rewrite <- !app_assoc. rewrite rd4_le by lia. cbn [bind]. rewrite Z.eqb_refl. cbn [negb].
      rewrite take_app by reflexivity. cbn [bind]. rewrite utf8_ascii_decode by exact Hta. cbn [bind].
      rewrite rd4_le by lia. cbn [bind]. rewrite Z.eqb_refl. reflexivity.
    - cbn [app]. destruct t; [reflexivity|]. unfold n in E. cbn [List.length] in E. lia. }
  rewrite T. clear T. cbn [bind Z.eqb]. unfold read_label. rewrite rd4_le by lia.
  rewrite take_app by (rewrite words_length, F3; reflexivity). rewrite read16_words by exact F2. rewrite F4.
  rewrite rd4_le by lia. rewrite Z.eqb_refl. cbn [l_nlay l_nrow l_ncol l_coords label_of l_units map].
  replace ((nlay s <? 0) || (nrow s <? 0) || (ncol s <? 0)) with false by lia.
  assert (PR : 0 <= nlay s * nrow s) by (apply Z.mul_nonneg_nonneg; lia).
  assert (R : read_rows (List.length rows) (ncol s) isz (flat_map (row_record isz (ncol s)) rows ++ []) = Ok (rows, [])).
  { apply read_rows_ok; [lia|lia| |].
    - apply Z.le_lt_trans with (8 * 32767); [apply Z.mul_le_mono_nonneg; lia|lia].
    - assert (L : (Z.to_nat (nlay s * nrow s) * Z.to_nat (ncol s) <= List.length (elems s))%nat).
      { apply Nat2Z.inj_le. rewrite Nat2Z.inj_mul, !Z2Nat.id by lia. lia. }
      apply Forall_forall. intros row Hrow. split.
      + assert (K := records_each _ _ _ _ L). rewrite Forall_forall in K. rewrite (K row Hrow). lia.
      + assert (K := records_flat _ _ _ _ L). apply Forall_forall. intros e Hin.
        assert (J : In e (List.concat rows)) by (apply in_concat; exists row; split; assumption).
        unfold rows in J. rewrite K in J. rewrite Forall_forall in He. apply He.
        rewrite <- (firstn_skipn (Z.to_nat (nlay s * nrow s) * Z.to_nat (ncol s)) (elems s)). apply in_or_app. left. exact J. }
  rewrite app_nil_r in R. unfold rows at 1 in R. rewrite records_length in R. rewrite R. cbn [bind].
  reflexivity.
Qed.
