(** C25, C26, C47: SEMPER UNF files. *)
From Verif Require Import Base Text Bytes Utf8 DistModel SemperModel SemperProof.

(** Specification side.  A signal of one to three dimensions whose title is ASCII and whose
    time stamp is an ISO date and time, the time with or without a fraction. *)
Definition pad3 {A} (d : A) (l : list A) : list A := repeat d (3 - List.length l) ++ l.
Definition pad3r {A} (d : A) (l : list A) : list A := l ++ repeat d (3 - List.length l).
Definition one_f32 : Z := 1065353216.   (* 1.0 as a float32 *)
Definition zero_f32 : Z := 0.

Definition bits32 (x : Z) : Prop := 0 <= x < 2 ^ 32.
Definition short_unit (u : option pystr) : Prop :=
  match u with None => True | Some s => Forall (fun c => 0 < c < 32768) s /\ (List.length s <= 4)%nat end.

Record good_signal (g : ssig) (t : pystr) (isz : Z) (y m d h mi sec : Z) : Prop := {
  g_dims : (1 <= List.length (s_shape g) <= 3)%nat;
  g_sizes : Forall (fun n => 1 <= n <= 32767) (s_shape g);
  g_axes : List.length (s_axes g) = List.length (s_shape g);
  g_bits : Forall (fun a => bits32 (a_scale a) /\ bits32 (a_offset a)) (s_axes g);
  g_unit : forall a, nth_error (s_axes g) 0 = Some a -> short_unit (a_units a);
  g_type : exists f, s_iform g = Some f /\ itemsize f = Some isz;
  g_title : s_title g = Some t /\ ascii t /\ (List.length t <= 144)%nat;
  g_when : valid_datetime y m d h mi sec = true /\ 1000 <= y;
  g_date : s_date g = Some (iso_date y m d);
  g_time : exists frac, s_time g = Some (iso_time h mi sec ++ frac) /\ (frac = [] \/ exists r, frac = 46 :: r);
  g_range : Forall (fun c => 0 <= c < 32768) (s_range g) /\ (List.length (s_range g) <= 27)%nat;
  g_elems : Forall (fun e => List.length e = Z.to_nat isz) (s_elems g);
  g_count : Z.of_nat (List.length (s_elems g)) = fold_right Z.mul 1 (s_shape g) }.

(** ** The date *)
Lemma two_digits : forall n, 0 <= n < 100 -> Forall (fun c => is_digit c = true) (two n).
Proof. intros n H. unfold two. repeat constructor; unfold is_digit; lia. Qed.
Lemma four_digits : forall n, 0 <= n < 10000 -> Forall (fun c => is_digit c = true) (four n).
Proof. intros n H. unfold four. repeat constructor; unfold is_digit; lia. Qed.
Lemma parse_two : forall n, 0 <= n < 100 -> parse_int (two n) = Ok n.
Proof.
  intros n H. rewrite (parse_int_undec (two n)).
  - unfold two, undec. cbn [undec_aux]. replace (is_digit (48 + n / 10)) with true by (unfold is_digit; lia).
    replace (is_digit (48 + n mod 10)) with true by (unfold is_digit; lia). cbv iota. f_equal. lia.
  - apply digits_trimmed. apply two_digits. exact H.
  - discriminate.
  - unfold two. cbn [nth_error]. intros c E. assert (c = 48 + n / 10) as -> by congruence. unfold is_digit. lia.
Qed.
Lemma parse_four : forall n, 0 <= n < 10000 -> parse_int (four n) = Ok n.
Proof.
  intros n H. rewrite (parse_int_undec (four n)).
  - unfold four, undec. cbn [undec_aux]. replace (is_digit (48 + n / 1000)) with true by (unfold is_digit; lia).
    replace (is_digit (48 + n / 100 mod 10)) with true by (unfold is_digit; lia).
    replace (is_digit (48 + n / 10 mod 10)) with true by (unfold is_digit; lia).
    replace (is_digit (48 + n mod 10)) with true by (unfold is_digit; lia). cbv iota. f_equal. lia.
  - apply digits_trimmed. apply four_digits. exact H.
  - discriminate.
  - unfold four. cbn [nth_error]. intros c E. assert (c = 48 + n / 1000) as -> by congruence. unfold is_digit. lia.
Qed.
Lemma digits_no : forall s c, Forall (fun c => is_digit c = true) s -> is_digit c = false -> ~ In c s.
Proof. intros s c H F K. rewrite Forall_forall in H. specialize (H c K). congruence. Qed.

Lemma month_days_range : forall y m, month_days y m <= 31.
Proof.
  intros y m. unfold month_days. destruct m as [|p|p]; try lia.
  destruct p as [[[p|p|]|[p|p|]|]|[[p|p|]|[p|p|]|]|]; try lia; try (destruct p; lia); destruct (leap y); lia.
Qed.
Lemma valid_ranges : forall y m d h mi s, valid_datetime y m d h mi s = true ->
  1 <= y <= 9999 /\ 1 <= m <= 12 /\ 1 <= d <= 31 /\ 0 <= h < 24 /\ 0 <= mi < 60 /\ 0 <= s < 60.
Proof.
  intros y m d h mi s H. assert (K := month_days_range y m). unfold valid_datetime in H.
  generalize dependent (month_days y m). intros k H K. lia.
Qed.

Lemma date_words_iso : forall y m d h mi s, valid_datetime y m d h mi s = true ->
  date_words (iso_date y m d ++ [32] ++ iso_time h mi s) = Ok [y - 1900; m; d; h; mi; s].
Proof.
  intros y m d h mi s V. apply valid_ranges in V. destruct V as [Hy [Hm [Hd [Hh [Hmi Hs]]]]].
  assert (Dy : Forall (fun c => is_digit c = true) (four y)) by (apply four_digits; lia).
  assert (Dm : Forall (fun c => is_digit c = true) (two m)) by (apply two_digits; lia).
  assert (Dd : Forall (fun c => is_digit c = true) (two d)) by (apply two_digits; lia).
  assert (Dh : Forall (fun c => is_digit c = true) (two h)) by (apply two_digits; lia).
  assert (Di : Forall (fun c => is_digit c = true) (two mi)) by (apply two_digits; lia).
  assert (Ds : Forall (fun c => is_digit c = true) (two s)) by (apply two_digits; lia).
  unfold date_words. change ([32] ++ iso_time h mi s) with (32 :: iso_time h mi s). rewrite (split_char_app 32 (iso_date y m d) (iso_time h mi s)).
  2:{ unfold iso_date. rewrite !in_app_iff. cbn [In]. intros [K|[[K|[]]|[K|[[K|[]]|K]]]]; try discriminate; revert K; apply digits_no; auto. }
  rewrite split_char_nosep.
  2:{ unfold iso_time. rewrite !in_app_iff. cbn [In]. intros [K|[[K|[]]|[K|[[K|[]]|K]]]]; try discriminate; revert K; apply digits_no; auto. }
  unfold iso_date, iso_time. cbn [app].
  rewrite (split_char_app 45 (four y) (two m ++ 45 :: two d)) by (apply digits_no; auto).
  rewrite (split_char_app 45 (two m) (two d)) by (apply digits_no; auto). rewrite (split_char_nosep 45 (two d)) by (apply digits_no; auto).
  rewrite (split_char_app 58 (two h) (two mi ++ 58 :: two s)) by (apply digits_no; auto).
  rewrite (split_char_app 58 (two mi) (two s)) by (apply digits_no; auto). rewrite (split_char_nosep 58 (two s)) by (apply digits_no; auto).
  unfold ints_of. cbn [fold_right bind]. rewrite !parse_two by lia. cbn [bind]. rewrite parse_four by lia. reflexivity.
Qed.

Lemma split_head : forall c a b, ~ In c a -> hd [] (split_char c (a ++ c :: b)) = a.
Proof. intros. rewrite split_char_app by assumption. reflexivity. Qed.

Lemma date_of_signal : forall y m d h mi s frac, valid_datetime y m d h mi s = true -> (frac = [] \/ exists r, frac = 46 :: r) ->
  hd [] (split_char 46 (iso_date y m d ++ [32] ++ iso_time h mi s ++ frac)) = iso_date y m d ++ [32] ++ iso_time h mi s.
Proof.
  intros y m d h mi s frac V F. apply valid_ranges in V. destruct V as [Hy [Hm [Hd [Hh [Hmi Hs]]]]].
  assert (N : ~ In 46 (iso_date y m d ++ [32] ++ iso_time h mi s)).
  { unfold iso_date, iso_time. rewrite !in_app_iff. cbn [In].
    intros [[K|[[K|[]]|[K|[[K|[]]|K]]]]|[[K|[]]|[K|[[K|[]]|[K|[[K|[]]|K]]]]]]; try discriminate; revert K; apply digits_no;
      try apply four_digits; try apply two_digits; auto; lia. }
  destruct F as [->|[r ->]].
  - rewrite app_nil_r. rewrite split_char_nosep by exact N. reflexivity.
  - rewrite (app_assoc [32]). rewrite app_assoc. apply split_head. exact N.
Qed.

(** ** From the signal to the object *)
Lemma fill_defaults_spec : forall A (d : A) l, (List.length l <= 3)%nat -> fill_defaults 3 l d = pad3r d l.
Proof.
  intros A d l H. destruct l as [|a [|b [|c [|e l]]]]; try reflexivity. cbn in H. lia.
Qed.

Definition sigdim (g : ssig) : nat := List.length (filter (fun a => negb (a_navigate a)) (s_axes g)).
Definition class_of (n : nat) : Z := match n with 1%nat => 4 | 2%nat => 1 | _ => 6 end.

Lemma from_signal_ok : forall g t isz y m d h mi sec, good_signal g t isz y m d h mi sec ->
  exists s f, from_signal g = Ok s /\ sem_ok s y m d h mi sec isz /\ s_iform g = Some f
    /\ [nlay s; nrow s; ncol s] = pad3 1 (s_shape g) /\ elems s = s_elems g /\ iform s = f /\ title s = Some t
    /\ offsets s = pad3r zero_f32 (map a_offset (s_axes g)) /\ scales s = pad3r one_f32 (map a_scale (s_axes g))
    /\ unit_text (nth 0 (units s) None) = match s_axes g with a :: _ => unit_text (a_units a) | [] => [] end
    /\ iclass s = class_of (sigdim g)
    /\ iccoln s = ncol s / 2 + 1 /\ icrown s = nrow s / 2 + 1 /\ iclayn s = nlay s / 2 + 1 /\ range s = s_range g.
Proof.
  intros g t isz y m d h mi sec [Hdim Hsz Hax Hb Hu [f [Hf Hi]] [Ht [Hta Htl]] [Hv Hy] Hd [fr [Htm Hfr]] Hr He Hc].
  unfold from_signal. replace (3 <? Z.of_nat (List.length (s_shape g))) with false by lia.
  rewrite Hax, Nat.eqb_refl. cbn [negb]. rewrite Hf, Hd, Htm. rewrite date_of_signal by assumption.
  rewrite !fill_defaults_spec by (rewrite map_length; lia).
  fold (sigdim g). fold (class_of (sigdim g)). change 1065353216 with one_f32.
  eexists. exists f. split; [reflexivity|].
  assert (V := valid_ranges _ _ _ _ _ _ Hv).
  assert (SH : exists a b c, pad3 1 (s_shape g) = [a; b; c] /\ 1 <= a <= 32767 /\ 1 <= b <= 32767 /\ 1 <= c <= 32767
            /\ fold_right Z.mul 1 (s_shape g) = a * b * c).
  { unfold pad3. destruct (s_shape g) as [|a [|b [|c [|e l]]]]; cbn in Hdim; try lia;
      repeat (match goal with H : Forall _ (_ :: _) |- _ => inversion H; clear H; subst end);
      cbn [List.length Nat.sub repeat app fold_right]; do 3 eexists; (split; [reflexivity|]); repeat split; try lia. }
  destruct SH as [a [b [c [SH [Ha [Hbb [Hcc HP]]]]]]]. unfold pad3 in SH |- *. rewrite SH. cbn [nth].
  assert (CL : 0 <= class_of (sigdim g) < 32768) by (unfold class_of; destruct (sigdim g) as [|[|[|?]]]; lia).
  assert (BS : forall (pr : axis -> Z) dflt, 0 <= dflt < 2 ^ 32 -> (forall x, In x (s_axes g) -> 0 <= pr x < 2 ^ 32) ->
     exists p q r, pad3r dflt (map pr (s_axes g)) = [p; q; r] /\ 0 <= p < 2 ^ 32 /\ 0 <= q < 2 ^ 32 /\ 0 <= r < 2 ^ 32).
  { intros pr dflt Hdf Hpr. unfold pad3r. rewrite <- Hax in Hdim. 
    destruct (s_axes g) as [|x [|x0 [|x1 [|x2 l]]]]; cbn [List.length] in Hdim; try lia;
      cbn [map List.length Nat.sub repeat app]; do 3 eexists; (split; [reflexivity|]); repeat split;
        try (apply Hpr; cbn [In]; tauto); apply Hdf. }
  rewrite Forall_forall in Hb.
  split.
  { constructor; cbn [nlay nrow ncol iccoln icrown iclayn iform iclass title offsets scales units date range elems].
    - lia. - lia. - lia. - lia. - lia. - lia. - exact Hi. - exact CL.
    - exists t. auto.
    - apply BS; [unfold zero_f32; lia|]. intros x Hx. apply (Hb x Hx).
    - apply BS; [unfold one_f32; lia|]. intros x Hx. apply (Hb x Hx).
    - cbn zeta. destruct (s_axes g) as [|x l]; [cbn in Hax; lia|]. cbn [map pad3r app nth].
      specialize (Hu x eq_refl). unfold short_unit in Hu. unfold unit_text. destruct (a_units x) as [u|].
      + destruct Hu as [Hu1 Hu2]. repeat split; [| |exact Hu2]; eapply Forall_impl; try exact Hu1; intros z Hz; cbv beta in Hz; unfold word_char; lia.
      + repeat split; [constructor|constructor|cbn; lia].
    - apply date_words_iso. exact Hv.
    - clear - V. lia.
    - exact Hr.
    - exact He.
    - rewrite Hc, HP. reflexivity. }
  cbn [nlay nrow ncol iccoln icrown iclayn iform iclass title offsets scales units range elems].
  repeat (split; [try reflexivity; try exact Hf; try exact Ht|]); try reflexivity.
  destruct (s_axes g) as [|x l]; [cbn in Hax; lia|]. reflexivity.
Qed.

(** ** C25 *)
Theorem C25_label_round_trip : forall g t isz y m d h mi sec, good_signal g t isz y m d h mi sec ->
  exists file f lb, semper_write g = Ok file /\ load file = Ok f
    /\ f_shape f = pad3 1 (s_shape g) /\ f_title f = t
    /\ f_offsets f = pad3r zero_f32 (map a_offset (s_axes g)) /\ f_scales f = pad3r one_f32 (map a_scale (s_axes g))
    /\ f_label f = Some lb
    /\ [l_nlay lb; l_nrow lb; l_ncol lb] = pad3 1 (s_shape g)
    /\ [l_iclayn lb; l_icrown lb; l_iccoln lb] = map (fun n => n / 2 + 1) (pad3 1 (s_shape g))
    /\ l_title lb = t /\ l_date lb = [y; m; d; h; mi; sec] /\ l_range lb = RText (s_range g)
    /\ l_iclass lb = class_of (sigdim g) /\ Some (l_iform lb) = s_iform g.
Proof.
  intros g t isz y m d h mi sec G. destruct (from_signal_ok _ _ _ _ _ _ _ _ _ G) as [s [f [E [OK H]]]].
  destruct (save_load _ _ _ _ _ _ _ _ OK) as [file [S1 S2]].
  destruct H as [H1 [H2 [H3 [H4 [H5 [H6 [H7 [H8 [H9 [H10 [H11 [H12 H13]]]]]]]]]]]].
  exists file. eexists. eexists. unfold semper_write. rewrite E. cbn [bind]. split; [exact S1|]. split; [exact S2|].
  cbn [f_shape f_title f_offsets f_scales f_label label_of]. rewrite H5.
  split; [exact H2|]. split; [reflexivity|]. split; [exact H6|]. split; [exact H7|]. split; [reflexivity|].
  cbn [l_nlay l_nrow l_ncol l_iclayn l_icrown l_iccoln l_title l_date l_range l_iclass l_iform label_of].
  rewrite H5, H10, H11, H12, H13, H9, H1, H4. rewrite <- H2. repeat split; reflexivity.
Qed.

(** The file byte for byte, after the description in the comment of the reader
    (/repo/rsciio/semper/_api.py lines 29-66): words of the label at their places. *)
Definition hi_lo (x : Z) : list Z := [x / 256; x mod 256].
Definition padded (n : nat) (s : pystr) : list Z := s ++ repeat 0 (n - List.length s).
Definition label_layout (nl nr nc cls frm : Z) (y m d h mi sec : Z) (rg t u : pystr) (off scl : list Z) : list Z :=
  str "Semper" ++ hi_lo nc ++ hi_lo nr ++ hi_lo nl ++ hi_lo (nc / 2 + 1) ++ hi_lo (nr / 2 + 1) ++ hi_lo (nl / 2 + 1)
  ++ [cls; frm; 0] ++ [y - 1900; m; d; h; mi; sec] ++ [Z.of_nat (List.length rg)] ++ padded 27 rg ++ [248]
  ++ [0; 0; 0] ++ [0; 0; 0] ++ [1] ++ [4] ++ [0; 0; 0] ++ [0; 0; 0; 0] ++ [0; 0; 0; 0]
  ++ le 4 (nth 2 scl 0) ++ le 4 (nth 2 off 0) ++ le 4 (nth 1 scl 0) ++ le 4 (nth 1 off 0) ++ le 4 (nth 0 scl 0) ++ le 4 (nth 0 off 0)
  ++ [Z.of_nat (List.length t)] ++ padded 144 t ++ padded 4 u ++ padded 4 u ++ padded 4 u.
Definition sized (b : list Z) : list Z := le 4 (Z.of_nat (List.length b)) ++ b ++ le 4 (Z.of_nat (List.length b)).
Definition file_layout (nl nr nc cls frm : Z) (t : pystr) (lb : list Z) (rows : list (list (list Z))) : list Z :=
  sized (flat_map (le 2) [nc; nr; nl; cls; frm; 21000 + Z.of_nat (List.length t)])
  ++ (match t with [] => [] | _ => sized t end) ++ sized (flat_map (le 2) lb) ++ flat_map (fun r => sized (List.concat r)) rows.

Lemma in_records : forall A k n (l : list A) r e, In r (records k n l) -> In e r -> In e l.
Proof.
  induction k as [|k IH]; intros n l r e Hr He; cbn [records In] in Hr; [contradiction|].
  rewrite <- (firstn_skipn n l). apply in_or_app. destruct Hr as [<-|Hr]; [left; exact He|right; exact (IH _ _ _ _ Hr He)].
Qed.

Lemma label_words_layout : forall s y m d h mi sec isz t fs, sem_ok s y m d h mi sec isz -> title s = Some t ->
  iccoln s = ncol s / 2 + 1 -> icrown s = nrow s / 2 + 1 -> iclayn s = nlay s / 2 + 1 -> label_fields s = Ok fs ->
  label_words fs = label_layout (nlay s) (nrow s) (ncol s) (iclass s) (iform s) y m d h mi sec (range s) t (unit_text (nth 0 (units s) None)) (offsets s) (scales s).
Proof.
  intros s y m d h mi sec isz t fs [Hnl Hnr Hnc Hcc Hcr Hcl Hif Hic [t' [Ht [Hta Htl]]] Ho Hs Hu Hd Hds Hr _ _] Et E1 E2 E3 Hfs.
  rewrite Ht in Et. injection Et as ->. destruct Hu as [_ [_ Hu3]]. destruct Hr as [_ Hr2].
  unfold label_fields in Hfs. rewrite Hd in Hfs. cbn [bind] in Hfs. rewrite put_text_ok in Hfs by exact Hr2. cbn [bind] in Hfs. rewrite Ht in Hfs.
  rewrite put_text_ok in Hfs by exact Htl. cbn [bind] in Hfs. rewrite put_text_ok in Hfs by exact Hu3. cbn [bind] in Hfs.
  rewrite E1, E2, E3 in *. injection Hfs as <-. unfold label_words, label_dtypes. cbn [flat_map fst snd field String.eqb Ascii.eqb Bool.eqb].
  assert (D : forall x, 0 <= x < 32768 -> digits256 x = hi_lo x /\ x / 65536 = 0).
  { clear. intros x Hx. unfold digits256, hi_lo. rewrite (Z.mod_small x 65536) by lia. split; [reflexivity|]. apply Z.div_small. lia. }
  destruct (D _ (conj (Z.le_trans _ _ _ Z.le_0_1 (proj1 Hnl)) (proj2 Hnl))) as [-> ->].
  destruct (D _ (conj (Z.le_trans _ _ _ Z.le_0_1 (proj1 Hnr)) (proj2 Hnr))) as [-> ->].
  destruct (D _ (conj (Z.le_trans _ _ _ Z.le_0_1 (proj1 Hnc)) (proj2 Hnc))) as [-> ->].
  destruct (D _ Hcc) as [-> ->]. destruct (D _ Hcr) as [-> ->]. destruct (D _ Hcl) as [-> ->].
  unfold label_layout, padded. rewrite app_nil_r. reflexivity.
Qed.

Theorem C25_layout : forall g t isz y m d h mi sec, good_signal g t isz y m d h mi sec ->
  exists file nl nr nc f, semper_write g = Ok file /\ pad3 1 (s_shape g) = [nl; nr; nc] /\ s_iform g = Some f
    /\ file = file_layout nl nr nc (class_of (sigdim g)) f t
         (label_layout nl nr nc (class_of (sigdim g)) f y m d h mi sec (s_range g) t
            (match s_axes g with a :: _ => unit_text (a_units a) | [] => [] end)
            (pad3r zero_f32 (map a_offset (s_axes g))) (pad3r one_f32 (map a_scale (s_axes g))))
         (records (Z.to_nat (nl * nr)) (Z.to_nat nc) (s_elems g)).
Proof.
  intros g t isz y m d h mi sec G. destruct (from_signal_ok _ _ _ _ _ _ _ _ _ G) as [s [f [E [OK H]]]].
  destruct H as [H1 [H2 [H3 [H4 [H5 [H6 [H7 [H8 [H9 [H10 [H11 [H12 H13]]]]]]]]]]]].
  destruct (label_round_trip _ _ _ _ _ _ _ _ OK) as [fs [F1 [F2 [F3 F4]]]].
  assert (LL := label_words_layout _ _ _ _ _ _ _ _ _ _ OK H5 H10 H11 H12 F1).
  assert (OK' := OK). destruct OK' as [Hnl Hnr Hnc Hcc Hcr Hcl Hif Hic [t' [Ht [Hta Htl]]] _ _ _ _ _ _ He Hcount].
  rewrite H5 in Ht. injection Ht as <-.
  assert (Hiform : in16 (iform s) = true /\ 0 < isz <= 8).
  { unfold itemsize in Hif. unfold in16. destruct (iform s) as [|p|p]; [injection Hif as <-; split; [reflexivity|lia]| |discriminate].
    destruct p as [[|[]|]|[[]|[]|]|]; try discriminate; injection Hif as <-; split; (reflexivity||lia). }
  destruct Hiform as [Hi16 Hisz].
  unfold semper_write. rewrite E. cbn [bind]. unfold save. rewrite H5, Hif.
  set (n := Z.of_nat (List.length t)). assert (Hn : 0 <= n <= 144) by (unfold n; lia).
  assert (HW : forallb in16 [ncol s; nrow s; nlay s; iclass s; iform s; 2 * 10000 + 1000 + n] = true).
  { cbn [forallb]. rewrite Hi16. unfold in16. clear - Hnl Hnr Hnc Hic Hn. lia. }
  rewrite words16_ok by exact HW. cbn [bind]. rewrite utf8_ascii by exact Hta. cbn [bind]. rewrite F1. cbn [bind].
  rewrite words16_ok by exact F2. cbn [bind]. eexists. exists (nlay s), (nrow s), (ncol s), f. split; [reflexivity|].
  split; [symmetry; exact H2|]. split; [exact H1|].
  rewrite H3. unfold file_layout.
  assert (SZ : forall w n, List.length w = n -> sized (flat_map (le 2) w) = le 4 (Z.of_nat (2 * n)) ++ flat_map (le 2) w ++ le 4 (Z.of_nat (2 * n))).
  { clear. intros w n <-. unfold sized. rewrite words_length. reflexivity. }
  rewrite <- LL in * || idtac. rewrite <- H13, <- H8, <- H6, <- H7, <- H9, <- H4. rewrite <- LL. rewrite (SZ (label_words fs) 256%nat F3).
  rewrite (SZ _ 6%nat) by reflexivity. change (Z.of_nat (2 * 6)) with 12. change (Z.of_nat (2 * 256)) with 512. change (2 * 10000 + 1000 + n) with (21000 + n).
  rewrite <- !app_assoc. f_equal. f_equal. f_equal.
  assert (TT : (if 0 <? n then le 4 n ++ t ++ le 4 n else []) = match t with [] => [] | _ => sized t end).
  { unfold n. destruct t as [|c t]; [reflexivity|]. replace (0 <? Z.of_nat (List.length (c :: t))) with true by (cbn [List.length]; lia). reflexivity. }
  rewrite TT. f_equal. f_equal. f_equal. f_equal.
  assert (R : Forall (fun r : list (list Z) => List.length r = Z.to_nat (ncol s) /\ Forall (fun e => List.length e = Z.to_nat isz) r) (records (Z.to_nat (nlay s * nrow s)) (Z.to_nat (ncol s)) (elems s))).
  { assert (PN : 0 <= nlay s * nrow s) by (apply Z.mul_nonneg_nonneg; lia).
    apply Forall_forall. intros r Hr. split.
    - assert (K := records_each (list Z) (Z.to_nat (nlay s * nrow s)) (Z.to_nat (ncol s)) (elems s)).
      assert (K2 : Forall (fun r => List.length r = Z.to_nat (ncol s)) (records (Z.to_nat (nlay s * nrow s)) (Z.to_nat (ncol s)) (elems s))).
      { apply K. apply Nat.eq_le_incl. apply Nat2Z.inj. rewrite Hcount, Nat2Z.inj_mul, !Z2Nat.id by lia. reflexivity. }
      rewrite Forall_forall in K2. apply K2. exact Hr.
    - apply Forall_forall. intros e He'. rewrite Forall_forall in He. apply He. apply (in_records _ _ _ _ _ _ Hr He'). }
  rewrite <- H3. induction R as [|r rows [Hl Hr] _ IH]; [reflexivity|]. cbn [flat_map]. rewrite IH. f_equal.
  unfold row_record, sized. rewrite (concat_length_const _ _ _ Hr), Hl. rewrite Nat2Z.inj_mul, !Z2Nat.id by lia. rewrite (Z.mul_comm (ncol s)). reflexivity.
Qed.

(** ** C26 *)
Theorem C26_picture_round_trip : forall g t isz y m d h mi sec, good_signal g t isz y m d h mi sec ->
  exists file f, semper_write g = Ok file /\ load file = Ok f
    /\ List.concat (f_rows f) = s_elems g
    /\ Forall (fun row => Z.of_nat (List.length row) = last (s_shape g) 1) (f_rows f)
    /\ Some (f_iform f) = s_iform g.
Proof.
  intros g t isz y m d h mi sec G. destruct (from_signal_ok _ _ _ _ _ _ _ _ _ G) as [s [f [E [OK H]]]].
  destruct (save_load _ _ _ _ _ _ _ _ OK) as [file [S1 S2]].
  destruct H as [H1 [H2 [H3 [H4 _]]]].
  exists file. eexists. unfold semper_write. rewrite E. cbn [bind]. split; [exact S1|]. split; [exact S2|].
  cbn [f_rows f_iform]. destruct OK as [Hnl Hnr Hnc _ _ _ _ _ _ _ _ _ _ _ _ _ Hcount].
  assert (P : 0 <= nlay s * nrow s) by (apply Z.mul_nonneg_nonneg; lia).
  assert (L : (Z.to_nat (nlay s * nrow s) * Z.to_nat (ncol s))%nat = List.length (elems s)).
  { apply Nat2Z.inj. rewrite Nat2Z.inj_mul, !Z2Nat.id by lia. symmetry. exact Hcount. }
  split; [|split].
  - rewrite records_flat by (rewrite L; apply Nat.le_refl). rewrite L, firstn_all. exact H3.
  - assert (K := records_each _ (Z.to_nat (nlay s * nrow s)) (Z.to_nat (ncol s)) (elems s)).
    rewrite L in K. specialize (K (Nat.le_refl _)). eapply Forall_impl; [|exact K]. intros row Hrow. cbv beta in Hrow.
    rewrite Hrow, Z2Nat.id by lia. clear - H2 G. destruct G as [Hd _ _ _ _ _ _ _ _ _ _ _ _].
    unfold pad3 in H2. destruct (s_shape g) as [|a [|b [|c [|e l]]]]; cbn [List.length] in Hd; try lia;
      cbn in H2; injection H2 as E1 E2 E3; cbn; congruence.
  - rewrite H4, H1. reflexivity.
Qed.

(** Files of other programs, with the padding byte that the record length announces. *)
Definition padded_record (nc : Z) (row : list (list Z)) : list Z :=
  le 4 (nc + 1) ++ List.concat row ++ [0] ++ le 4 (nc + 1).
Theorem C26_padded_rows : forall nc rows rest, 0 <= nc < 2 ^ 31 - 1 ->
  Forall (fun row => Z.of_nat (List.length row) = nc /\ Forall (fun e => List.length e = 1%nat) row) rows ->
  read_rows (List.length rows) nc 1 (flat_map (padded_record nc) rows ++ rest) = Ok (rows, rest).
Proof.
  intros nc rows rest Hn H. change (2 ^ 31 - 1) with 2147483647 in Hn. induction H as [|row rows [H1 H2] _ IH]; [reflexivity|].
  cbn [List.length read_rows flat_map]. unfold padded_record at 1. rewrite <- !app_assoc. rewrite rd4_le by lia. cbn [bind].
  rewrite Z.div_1_r. replace (nc + 1 <? 0) with false by lia. rewrite Z.mul_1_r.
  rewrite (app_assoc (List.concat row)).
  assert (LC : List.length (List.concat row ++ [0]) = S (List.length row)) by (rewrite app_length, (concat_length_const _ _ _ H2); cbn; lia).
  rewrite take_app by (rewrite LC; lia). cbn [bind].
  assert (R : records (Z.to_nat (nc + 1)) (Z.to_nat 1) (List.concat row ++ [0]) = row ++ [[0]]).
  { assert (K := records_concat Z 1 (row ++ [[0]]) []). rewrite app_nil_r in K. rewrite concat_app in K. cbn [List.concat app] in K.
    rewrite app_length in K. cbn [List.length] in K. replace (Z.to_nat (nc + 1)) with (List.length row + 1)%nat by lia.
    apply K. apply Forall_app. split; [exact H2|]. constructor; [reflexivity|constructor]. }
  rewrite R. rewrite upto_app by exact H1. rewrite H1, Z.eqb_refl. cbn [bind]. rewrite rd4_le by lia. cbn [bind].
  rewrite Z.eqb_refl. cbn [negb]. rewrite IH. reflexivity.
Qed.

(** ** C47 *)
Definition expected_axes (g : ssig) : list daxis :=
  let u := Some (match s_axes g with a :: _ => unit_text (a_units a) | [] => [] end) in
  map (fun p => mkDaxis (fst p) (fst (snd p)) (a_scale (snd (snd p))) (a_offset (snd (snd p))) u)
      (combine ["x"; "y"; "z"]%string (combine (s_shape g) (s_axes g))).

Theorem C47_axes_round_trip : forall g t isz y m d h mi sec, good_signal g t isz y m d h mi sec ->
  Forall (fun n => n <> 1) (s_shape g) ->
  exists file, semper_write g = Ok file
    /\ semper_read file = Ok (mkDict (s_shape g) (s_elems g) (expected_axes g) t (Some (iso_date y m d, iso_time h mi sec))).
Proof.
  intros g t isz y m d h mi sec G N1. destruct (from_signal_ok _ _ _ _ _ _ _ _ _ G) as [s [f [E [OK H]]]].
  destruct (save_load _ _ _ _ _ _ _ _ OK) as [file [S1 S2]].
  destruct H as [H1 [H2 [H3 [H4 [H5 [H6 [H7 [H8 _]]]]]]]].
  exists file. unfold semper_write. rewrite E. cbn [bind]. split; [exact S1|].
  unfold semper_read. rewrite S2. cbn [bind]. unfold to_dictionary. cbn [f_label f_shape f_rows f_scales f_offsets f_units f_title].
  cbn [label_of l_date]. assert (V := g_when _ _ _ _ _ _ _ _ _ G). destruct V as [V Y].
  assert (VR := valid_ranges _ _ _ _ _ _ V).
  unfold convert_date. replace ((1000 <=? y) && (y <=? 9999)) with true by lia. cbn [bind]. rewrite V. cbn [bind].
  rewrite H5, H6, H7, H8.
  assert (SQ : squeeze_shape [nlay s; nrow s; ncol s] = s_shape g).
  { rewrite H2. unfold pad3, squeeze_shape. rewrite filter_app.
    assert (R : forall n, filter (fun n => negb (n =? 1)) (repeat 1 n) = []) by (induction n; [reflexivity|exact IHn]).
    rewrite R. cbn [app]. clear - N1. induction N1 as [|n l Hn _ IH]; [reflexivity|]. cbn [filter]. replace (n =? 1) with false by lia. cbn [negb]. rewrite IH. reflexivity. }
  rewrite SQ.
  assert (CE : List.concat (records (Z.to_nat (nlay s * nrow s)) (Z.to_nat (ncol s)) (elems s)) = s_elems g).
  { destruct OK as [Hnl Hnr Hnc _ _ _ _ _ _ _ _ _ _ _ _ _ Hcount].
    assert (P : 0 <= nlay s * nrow s) by (apply Z.mul_nonneg_nonneg; lia).
    assert (L : (Z.to_nat (nlay s * nrow s) * Z.to_nat (ncol s))%nat = List.length (elems s)).
    { apply Nat2Z.inj. rewrite Nat2Z.inj_mul, !Z2Nat.id by lia. symmetry. exact Hcount. }
    rewrite records_flat by (rewrite L; apply Nat.le_refl). rewrite L, firstn_all. exact H3. }
  rewrite CE. f_equal. f_equal. unfold expected_axes, pad3r. clear - G.
  destruct G as [Hd _ Hax _ _ _ _ _ _ _ _ _ _].
  destruct (s_shape g) as [|a [|b [|c [|e l]]]]; cbn [List.length] in Hd; try lia;
    destruct (s_axes g) as [|x [|x0 [|x1 [|x2 k]]]]; cbn [List.length] in Hax; try lia; reflexivity.
Qed.

(** ** Witnesses *)
Definition ax (sc off : Z) (u : option pystr) (nav : bool) := mkAxis sc off u nav.
Definition ex_sig (sh : list Z) (axs : list axis) (f : option Z) (el : list (list Z)) (t : option pystr) (rg : pystr) : ssig :=
  mkSig sh el f axs t (Some (str "2021-03-04")) (Some (str "05:06:07.123")) (str "now") rg.
Definition nm : option pystr := Some (str "nm").
Definition ex2 : ssig :=
  ex_sig [2; 3] [ax 1073741824 1084227584 nm false; ax 1048576000 0 nm false] (Some 0)
    [[1]; [2]; [3]; [4]; [5]; [255]] (Some (str "A title")) (str "-1,5").

Lemma ex2_good : good_signal ex2 (str "A title") 1 2021 3 4 5 6 7.
Proof.
  assert (T : forall l : list Z, forallb (fun c => (0 <? c) && (c <? 128)) l = true -> Forall (fun c => 0 < c < 128) l).
  { intros l H. apply Forall_forall. intros c Hc. rewrite forallb_forall in H. specialize (H c Hc). cbv beta in H. lia. }
  constructor.
  - cbn. lia.
  - repeat constructor; cbn; lia.
  - reflexivity.
  - repeat constructor; cbn; unfold bits32; lia.
  - intros a E. cbn in E. injection E as <-. cbn. split; [repeat constructor; lia|lia].
  - exists 0. split; reflexivity.
  - split; [reflexivity|]. split; [|vm_compute; lia]. eapply Forall_impl; [|exact (T (str "A title") eq_refl)]. cbv beta. intros. lia.
  - split; [reflexivity|lia].
  - reflexivity.
  - exists (str ".123"). split; [reflexivity|]. right. eexists. reflexivity.
  - split; [|vm_compute; lia]. eapply Forall_impl; [|exact (T (str "-1,5") eq_refl)]. cbv beta. intros. lia.
  - repeat constructor.
  - reflexivity.
Qed.

Example C25_ex : exists file f lb, semper_write ex2 = Ok file /\ load file = Ok f /\ f_label f = Some lb /\ l_title lb = str "A title"
    /\ l_date lb = [2021; 3; 4; 5; 6; 7] /\ f_scales f = [1073741824; 1048576000; one_f32].
Proof.
  destruct (C25_label_round_trip _ _ _ _ _ _ _ _ _ ex2_good) as [file [f [lb [H1 [H2 [_ [_ [_ [H3 [H4 [_ [_ [H5 [H6 _]]]]]]]]]]]]]].
  exists file, f, lb. rewrite H3. auto 8.
Qed.
Example C25_layout_ex : exists file, semper_write ex2 = Ok file /\ List.length file = 577%nat /\ slice 0 16 file = [12; 0; 0; 0; 3; 0; 2; 0; 1; 0; 1; 0; 0; 0; 15; 82].
Proof.
  destruct (C25_layout _ _ _ _ _ _ _ _ _ ex2_good) as [file [nl [nr [nc [f [H1 [H2 [H3 H4]]]]]]]]. exists file. split; [exact H1|].
  cbn in H2. injection H2 as <- <- <-. cbn in H3. injection H3 as <-. subst file. vm_compute. auto.
Qed.
Example C26_ex : exists file f, semper_write ex2 = Ok file /\ load file = Ok f /\ List.concat (f_rows f) = [[1]; [2]; [3]; [4]; [5]; [255]].
Proof. destruct (C26_picture_round_trip _ _ _ _ _ _ _ _ _ ex2_good) as [file [f [H1 [H2 [H3 _]]]]]. exists file, f. auto. Qed.
Example C26_padded_ex : read_rows 2 3 1 (flat_map (padded_record 3) [[[1]; [2]; [3]]; [[4]; [5]; [6]]] ++ [9]) = Ok ([[[1]; [2]; [3]]; [[4]; [5]; [6]]], [9]).
Proof. apply (C26_padded_rows 3 [[[1]; [2]; [3]]; [[4]; [5]; [6]]]); [lia|]. repeat constructor. Qed.
Example C47_ex : exists file d, semper_write ex2 = Ok file /\ semper_read file = Ok d /\ d_shape d = [2; 3]
   /\ map d_scale (d_axes d) = [1073741824; 1048576000] /\ d_date d = Some (str "2021-03-04", str "05:06:07").
Proof.
  destruct (C47_axes_round_trip _ _ _ _ _ _ _ _ _ ex2_good) as [file [H1 H2]].
  - repeat constructor; lia.
  - exists file. eexists. split; [exact H1|]. split; [exact H2|]. repeat split; reflexivity.
Qed.

(** ** Refutations *)
Definition written (g : ssig) : list Z := match semper_write g with Ok b => b | Err _ => [] end.

(** A title that is not ASCII is written with its length in characters; the file cannot be read. *)
Theorem C25_non_ascii_title_refuted : exists g, is_ok (semper_write g) = true /\ s_title g = Some [233]
  /\ semper_read (written g) = Err UnicodeError.
Proof. exists (ex_sig [2] [ax one_f32 0 nm false] (Some 0) [[1]; [2]] (Some [233]) (str "1,2")). vm_compute. auto. Qed.
(** A signal without a title cannot be written; neither can one whose first unit has more
    than four characters, nor one with more than 32767 columns. *)
Theorem C25_no_title_refuted : exists g, s_title g = None /\ semper_write g = Err TypeError.
Proof. exists (ex_sig [2] [ax one_f32 0 nm false] (Some 0) [[1]; [2]] None (str "1,2")). vm_compute. auto. Qed.
Theorem C25_long_unit_refuted : exists g, semper_write g = Err ValueError
  /\ map a_units (s_axes g) = [Some (str "degrees")].
Proof. exists (ex_sig [2] [ax one_f32 0 (Some (str "degrees")) false] (Some 0) [[1]; [2]] (Some []) (str "1,2")). vm_compute. auto. Qed.
Theorem C25_wide_refuted : exists g, semper_write g = Err OverflowError /\ s_shape g = [32768].
Proof. exists (ex_sig [32768] [ax one_f32 0 nm false] (Some 0) [] (Some []) (str "1,2")). vm_compute. auto. Qed.
(** The range of complex data is written as text and does not fit in its field. *)
Theorem C25_complex_range_refuted : exists g, s_iform g = Some 3 /\ semper_write g = Err ValueError
  /\ s_range g = str "-0.1234+0.5678j,0.1234+0.5678j".
Proof.
  exists (ex_sig [1] [ax one_f32 0 nm false] (Some 3) [[0; 0; 0; 0; 0; 0; 0; 0]] (Some []) (str "-0.1234+0.5678j,0.1234+0.5678j")).
  vm_compute. auto.
Qed.

(** "SEMPER always expects an even number of bytes per row": the writer does not pad. *)
Theorem C26_padding_refuted : exists g file, semper_write g = Ok file /\ s_shape g = [1; 3] /\ s_iform g = Some 0
  /\ skipn (List.length file - 11) file = [3; 0; 0; 0] ++ [1; 2; 3] ++ [3; 0; 0; 0].
Proof.
  exists (ex_sig [1; 3] [ax one_f32 0 nm false; ax one_f32 0 nm false] (Some 0) [[1]; [2]; [3]] (Some []) (str "1,3")).
  eexists. split; [vm_compute; reflexivity|]. repeat split; vm_compute; reflexivity.
Qed.

(** The unit of the first axis is written for all axes. *)
Theorem C47_units_refuted : exists g, map a_units (s_axes g) = [Some (str "nm"); Some (str "eV")]
  /\ (let! d := semper_read (written g) in Ok (map d_units (d_axes d))) = Ok [Some (str "nm"); Some (str "nm")].
Proof.
  exists (ex_sig [2; 2] [ax one_f32 0 nm true; ax one_f32 0 (Some (str "eV")) false] (Some 0) [[1]; [2]; [3]; [4]] (Some []) (str "1,2")).
  split; vm_compute; reflexivity.
Qed.
(** Removing an axis of length one shifts the scales of the axes behind it. *)
Theorem C47_size_one_refuted : exists g, combine (s_shape g) (map a_scale (s_axes g)) = [(1, 10); (2, 20); (3, 30)]
  /\ (let! d := semper_read (written g) in Ok (combine (d_shape d) (map d_scale (d_axes d)))) = Ok [(2, 10); (3, 20)].
Proof.
  exists (ex_sig [1; 2; 3] [ax 10 0 nm true; ax 20 0 nm false; ax 30 0 nm false] (Some 0) [[1]; [2]; [3]; [4]; [5]; [6]] (Some []) (str "1,2")).
  split; vm_compute; reflexivity.
Qed.

Print Assumptions C25_label_round_trip.
Print Assumptions C25_layout.
Print Assumptions C25_non_ascii_title_refuted.
Print Assumptions C25_no_title_refuted.
Print Assumptions C25_long_unit_refuted.
Print Assumptions C25_wide_refuted.
Print Assumptions C25_complex_range_refuted.
Print Assumptions C26_picture_round_trip.
Print Assumptions C26_padded_rows.
Print Assumptions C26_padding_refuted.
Print Assumptions C47_axes_round_trip.
Print Assumptions C47_units_refuted.
Print Assumptions C47_size_one_refuted.
