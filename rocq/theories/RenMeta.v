(** Property C84: dates and metadata of Renishaw files. *)
From Coq Require Import QArith.
From Verif Require Import Base Text Bytes Utf8 SfsModel SfsProps BcfUnpack HierModel RowMajor SurFloat SurQuantity RenModel RenBlocks RenPset RenData.
Local Open Scope Z_scope.

(** * Specification of dates: days of the Gregorian calendar *)
Definition leap (y : Z) : Prop := y mod 4 = 0 /\ (y mod 100 <> 0 \/ y mod 400 = 0).
Definition is_leap (y : Z) : bool := (y mod 4 =? 0) && (negb (y mod 100 =? 0) || (y mod 400 =? 0)).
Definition month_days (y m : Z) : Z := if m =? 2 then if is_leap y then 29 else 28 else if (m =? 4) || (m =? 6) || (m =? 9) || (m =? 11) then 30 else 31.
Definition days_before_year (y : Z) : Z := let p := y - 1 in 365 * p + p / 4 - p / 100 + p / 400.
Definition days_before_month (y m : Z) : Z := sumZ (map (month_days y) (zseq 1 (Z.to_nat (m - 1)))).
Definition day_number (y m d : Z) : Z := days_before_year y - days_before_year 1601 + days_before_month y m + (d - 1).
Definition date_ok (y m d : Z) : Prop := 1 <= m <= 12 /\ 1 <= d <= month_days y m.
Definition two (n : Z) : pystr := [48 + n / 10; 48 + n mod 10].
Definition four (n : Z) : pystr := two (n / 100) ++ two (n mod 100).

Definition before (lp : bool) (m : Z) : Z := nth (Z.to_nat (m - 1)) (if lp then [0; 31; 60; 91; 121; 152; 182; 213; 244; 274; 305; 335] else [0; 31; 59; 90; 120; 151; 181; 212; 243; 273; 304; 334]) 0.
Lemma before_month : forall y m, 1 <= m <= 12 -> days_before_month y m = before (is_leap y) m.
Proof.
  intros y m H. unfold days_before_month, before, month_days. assert (C : m = 1 \/ m = 2 \/ m = 3 \/ m = 4 \/ m = 5 \/ m = 6 \/ m = 7 \/ m = 8 \/ m = 9 \/ m = 10 \/ m = 11 \/ m = 12) by lia.
  repeat (destruct C as [-> |C]; [destruct (is_leap y); reflexivity|]). subst m. destruct (is_leap y); reflexivity.
Qed.
Definition days_of (lp : bool) (m : Z) : Z := if m =? 2 then if lp then 29 else 28 else if (m =? 4) || (m =? 6) || (m =? 9) || (m =? 11) then 30 else 31.
Definition month_check (lp : bool) (m d : Z) : bool := implb (d <=? days_of lp m) (let (a, b) := month_of lp (before lp m + (d - 1)) 1 [31; 28; 31; 30; 31; 30; 31; 31; 30; 31; 30; 31] in (a =? m) && (b =? d)).
Lemma month_checked : forallb (fun lp => forallb (fun m => forallb (fun d => month_check lp m d) (zseq 1 31)) (zseq 1 12)) [true; false] = true.
Proof. vm_compute. reflexivity. Qed.
Lemma month_found : forall y m d, date_ok y m d -> month_of (is_leap y) (before (is_leap y) m + (d - 1)) 1 [31; 28; 31; 30; 31; 30; 31; 31; 30; 31; 30; 31] = (m, d).
Proof.
  intros y m d [Hm Hd]. change (month_days y m) with (days_of (is_leap y) m) in Hd. pose proof month_checked as K. rewrite forallb_forall in K. specialize (K (is_leap y) ltac:(destruct (is_leap y); cbn; tauto)). rewrite forallb_forall in K. specialize (K m ltac:(apply in_zseq; cbn; lia)). rewrite forallb_forall in K.
  assert (D31 : d <= 31) by (unfold days_of in Hd; destruct (m =? 2); destruct (is_leap y); destruct ((m =? 4) || (m =? 6) || (m =? 9) || (m =? 11)); lia). specialize (K d ltac:(apply in_zseq; cbn; lia)). unfold month_check in K. replace (d <=? days_of (is_leap y) m) with true in K by lia. cbn [implb] in K. destruct (month_of _ _ _ _) as [a b]. f_equal; lia.
Qed.
Lemma year_day : forall y m d, date_ok y m d -> 0 <= before (is_leap y) m + (d - 1) < (if is_leap y then 366 else 365) /\ (before (is_leap y) m + (d - 1) = 365 -> m = 12 /\ d = 31).
Proof.
  intros y m d [Hm Hd]. change (month_days y m) with (days_of (is_leap y) m) in Hd. assert (C : m = 1 \/ m = 2 \/ m = 3 \/ m = 4 \/ m = 5 \/ m = 6 \/ m = 7 \/ m = 8 \/ m = 9 \/ m = 10 \/ m = 11 \/ m = 12) by lia.
  assert (G : forall lp b dm, before lp m = b -> days_of lp m = dm -> b + dm <= (if lp then 366 else 365) -> 0 <= b -> (b + dm = 366 -> m = 12 /\ dm = 31) -> 1 <= d <= dm -> 0 <= b + (d - 1) < (if lp then 366 else 365) /\ (b + (d - 1) = 365 -> m = 12 /\ d = 31)) by (intros lp b dm _ _ A B E F; destruct lp; lia).
  apply (G _ _ _ eq_refl eq_refl); [| | |exact Hd]; clear G Hd; destruct (is_leap y);
    (repeat (destruct C as [-> |C]; [first [apply Z.leb_le; reflexivity|let E := fresh in intro E; vm_compute in E; first [discriminate E|split; reflexivity]]|])); subst m; first [apply Z.leb_le; reflexivity|let E := fresh in intro E; vm_compute in E; first [discriminate E|split; reflexivity]].
Qed.
(** The number of the day gives the date back *)
Theorem C84_calendar : forall y m d, date_ok y m d -> civil (day_number y m d) = (y, m, d).
Proof.
  intros y m d H. pose proof (month_found y m d H) as MF. destruct (year_day y m d H) as [YR YL]. unfold day_number. rewrite before_month by exact (proj1 H). change (days_before_year 1601) with 584388. set (k := before (is_leap y) m + (d - 1)) in *.
  assert (DY : exists a b c e, y = 1601 + 400 * a + 100 * b + 4 * c + e /\ 0 <= b < 4 /\ 0 <= c < 25 /\ 0 <= e < 4).
  { exists ((y - 1601) / 400), ((y - 1601) mod 400 / 100), ((y - 1601) mod 100 / 4), ((y - 1601) mod 4). lia. }
  destruct DY as (a & b & c & e & Ey & Hb & Hc & He).
  assert (DB : days_before_year y - 584388 = 146097 * a + 36524 * b + 1461 * c + 365 * e). { unfold days_before_year. rewrite Ey. replace ((1601 + 400 * a + 100 * b + 4 * c + e - 1) / 4) with (400 + 100 * a + 25 * b + c) by lia. replace ((1601 + 400 * a + 100 * b + 4 * c + e - 1) / 100) with (16 + 4 * a + b) by lia. replace ((1601 + 400 * a + 100 * b + 4 * c + e - 1) / 400) with (4 + a) by lia. lia. }
  assert (LP : is_leap y = ((e =? 3) && (negb (c =? 24) || (b =? 3)))).
  { unfold is_leap. rewrite Ey. replace ((1601 + 400 * a + 100 * b + 4 * c + e) mod 4) with ((1 + e) mod 4) by lia. replace ((1601 + 400 * a + 100 * b + 4 * c + e) mod 100) with ((1 + 4 * c + e) mod 100) by lia. replace ((1601 + 400 * a + 100 * b + 4 * c + e) mod 400) with ((1 + 100 * b + 4 * c + e) mod 400) by lia. clear - Hb Hc He. lia. }
  replace (days_before_year y - 584388 + before (is_leap y) m + (d - 1)) with (146097 * a + (36524 * b + 1461 * c + 365 * e + k)) by (unfold k; lia). unfold civil.
  assert (R1 : 0 <= 36524 * b + 1461 * c + 365 * e + k < 146097) by (destruct (is_leap y); lia).
  replace ((146097 * a + (36524 * b + 1461 * c + 365 * e + k)) / 146097) with a by (apply (Z.div_unique _ _ _ (36524 * b + 1461 * c + 365 * e + k)); lia). replace ((146097 * a + (36524 * b + 1461 * c + 365 * e + k)) mod 146097) with (36524 * b + 1461 * c + 365 * e + k) by (apply (Z.mod_unique _ _ a); lia).
  destruct (k =? 365) eqn:K.
  - apply Z.eqb_eq in K. destruct (YL K) as [-> ->]. assert (L : is_leap y = true) by (destruct (is_leap y); [reflexivity|lia]). rewrite L in LP. assert (E3 : e = 3) by lia. subst e. destruct (Z.eq_dec c 24) as [->|NC].
    + assert (b = 3) by lia. subst b. rewrite K. change ((36524 * 3 + 1461 * 24 + 365 * 3 + 365) / 36524) with 4. change ((36524 * 3 + 1461 * 24 + 365 * 3 + 365) mod 36524) with 0. change (0 / 1461) with 0. change (0 mod 1461) with 0. change (0 / 365) with 0. cbn [Z.eqb orb Pos.eqb]. f_equal. f_equal. lia.
    + rewrite K. replace ((36524 * b + 1461 * c + 365 * 3 + 365) / 36524) with b by (apply (Z.div_unique _ _ _ (1461 * c + 365 * 3 + 365)); lia). replace ((36524 * b + 1461 * c + 365 * 3 + 365) mod 36524) with (1461 * c + 1460) by (apply (Z.mod_unique _ _ b); lia).
      replace ((1461 * c + 1460) / 1461) with c by (apply (Z.div_unique _ _ _ 1460); lia). replace ((1461 * c + 1460) mod 1461) with 1460 by (apply (Z.mod_unique _ _ c); lia). change (1460 / 365) with 4. cbn [Z.eqb orb Pos.eqb]. f_equal. f_equal. lia.
  - assert (K' : 0 <= k < 365) by (destruct (is_leap y); lia). assert (R2 : 0 <= 1461 * c + 365 * e + k < 36524) by lia.
    replace ((36524 * b + 1461 * c + 365 * e + k) / 36524) with b by (apply (Z.div_unique _ _ _ (1461 * c + 365 * e + k)); lia). replace ((36524 * b + 1461 * c + 365 * e + k) mod 36524) with (1461 * c + 365 * e + k) by (apply (Z.mod_unique _ _ b); lia).
    replace ((1461 * c + 365 * e + k) / 1461) with c by (apply (Z.div_unique _ _ _ (365 * e + k)); lia). replace ((1461 * c + 365 * e + k) mod 1461) with (365 * e + k) by (apply (Z.mod_unique _ _ c); lia).
    replace ((365 * e + k) / 365) with e by (apply (Z.div_unique _ _ _ k); lia). replace ((365 * e + k) mod 365) with k by (apply (Z.mod_unique _ _ e); lia). replace ((e =? 4) || (b =? 4)) with false by lia. replace (1601 + (a * 400 + b * 100 + c * 4 + e)) with y by lia. change (leap_year y) with (is_leap y). rewrite MF. reflexivity.
Qed.
Lemma digits_two : forall n, 0 <= n < 100 -> digits 2 n = two n.
Proof. intros n H. unfold digits, two. cbn [zseq rev app map]. change (10 ^ (0 + 1)) with 10. change (10 ^ 0) with 1. rewrite Z.div_1_r. replace ((n / 10) mod 10) with (n / 10) by lia. reflexivity. Qed.
Lemma digits_four : forall n, 0 <= n < 10000 -> digits 4 n = four n.
Proof. intros n H. unfold digits, four, two. cbn [zseq rev app map]. change (10 ^ (0 + 1 + 1 + 1)) with 1000. change (10 ^ (0 + 1 + 1)) with 100. change (10 ^ (0 + 1)) with 10. change (10 ^ 0) with 1. rewrite Z.div_1_r. replace ((n / 1000) mod 10) with (n / 100 / 10) by lia. replace ((n / 10) mod 10) with (n mod 100 / 10) by lia. replace (n mod 10) with ((n mod 100) mod 10) by lia. reflexivity. Qed.
Lemma split_at : forall c a b, ~ In c a -> ~ In c b -> split_char c (a ++ c :: b) = [a; b].
Proof. intros c a b Ha Hb. rewrite split_char_app by exact Ha. rewrite split_char_nosep by exact Hb. reflexivity. Qed.
Definition date_of_day (y m d : Z) : pystr := four y ++ str "-" ++ two m ++ str "-" ++ two d.
Definition time_of_day (h mi s : Z) : pystr := two h ++ str ":" ++ two mi ++ str ":" ++ two s.
(** Tenths of microseconds since 1601 *)
Theorem C84_date : forall y m d h mi s u, 1 <= y <= 9999 -> date_ok y m d -> 0 <= h < 24 -> 0 <= mi < 60 -> 0 <= s < 60 -> 0 <= u < 1000000 ->
  windows_time (10 * (1000000 * (86400 * day_number y m d + 3600 * h + 60 * mi + s) + u)) = Ok (date_of_day y m d ++ str "#" ++ time_of_day h mi s).
Proof.
  intros y m d h mi s u Hy Hd Hh Hmi Hs Hu. unfold windows_time. rewrite Z.mul_comm. rewrite round_div_exact by lia. set (n := day_number y m d).
  replace ((1000000 * (86400 * n + 3600 * h + 60 * mi + s) + u) / 86400000000) with n by (apply (Z.div_unique _ _ _ (1000000 * (3600 * h + 60 * mi + s) + u)); lia). replace ((1000000 * (86400 * n + 3600 * h + 60 * mi + s) + u) mod 86400000000) with (1000000 * (3600 * h + 60 * mi + s) + u) by (apply (Z.mod_unique _ _ n); lia).
  unfold n. rewrite C84_calendar by exact Hd. replace ((1000000 * (3600 * h + 60 * mi + s) + u) / 1000000) with (3600 * h + 60 * mi + s) by (apply (Z.div_unique _ _ _ u); lia). replace ((1 <=? y) && (y <=? 9999)) with true by lia.
  replace ((3600 * h + 60 * mi + s) / 3600) with h by (apply (Z.div_unique _ _ _ (60 * mi + s)); lia). replace ((3600 * h + 60 * mi + s) / 60 mod 60) with mi by (replace ((3600 * h + 60 * mi + s) / 60) with (60 * h + mi) by (apply (Z.div_unique _ _ _ s); lia); apply (Z.mod_unique _ _ h); lia). replace ((3600 * h + 60 * mi + s) mod 60) with s by (apply (Z.mod_unique _ _ (60 * h + mi)); lia).
  assert (Dm : d <= 31) by (destruct Hd as [_ Hd]; unfold month_days in Hd; destruct (m =? 2); destruct (is_leap y); destruct ((m =? 4) || (m =? 6) || (m =? 9) || (m =? 11)); lia). destruct Hd as [Hm Hd]. rewrite digits_four, !digits_two by lia. unfold date_of_day, time_of_day. rewrite <- !app_assoc. reflexivity.
Qed.
Lemma two_no : forall n, 0 <= n < 100 -> ~ In 35 (two n).
Proof. intros n H [K|[K|[]]]; lia. Qed.
Theorem C84_date_and_time : forall y m d h mi s, 0 <= y <= 9999 -> 0 <= m < 100 -> 0 <= d < 100 -> 0 <= h < 24 -> 0 <= mi < 60 -> 0 <= s < 60 ->
  date_and_time (date_of_day y m d ++ str "#" ++ time_of_day h mi s) = (date_of_day y m d, time_of_day h mi s).
Proof.
  intros y m d h mi s Hy Hm Hd Hh Hmi Hs. unfold date_and_time. change (str "#" ++ time_of_day h mi s) with (35 :: time_of_day h mi s). rewrite split_at; [reflexivity| |].
  - unfold date_of_day, four. intro K. repeat (apply in_app_or in K; destruct K as [K|K]); try (revert K; apply two_no; lia); cbn in K; lia.
  - unfold time_of_day. intro K. repeat (apply in_app_or in K; destruct K as [K|K]); try (revert K; apply two_no; lia); cbn in K; lia.
Qed.
Example C84_date_example : date_ok 2024 2 29 /\ windows_time 133536780000000000 = Ok (date_of_day 2024 2 29 ++ str "#" ++ time_of_day 11 0 0) /\ date_of_day 2024 2 29 = str "2024-02-29" /\ time_of_day 11 0 0 = str "11:00:00" /\
  day_number 2024 2 29 = 154556.
Proof. repeat split; try lia; first [apply Z.leb_le; reflexivity|vm_compute; reflexivity]. Qed.

(** * Property sets in blocks *)
Definition pset_mark : Z := 1413829456.
Definition pset_body (l : list (Z * body)) : list Z := le 4 pset_mark ++ le 4 (zlen (set_bytes l)) ++ set_bytes l.
Lemma set_nonempty : forall l, l <> [] -> 0 < zlen (set_bytes l).
Proof. intros [|[i b] l] H; [contradiction|]. rewrite set_cons, zlen_app. destruct (item_front i b) as (t & fl & p & ->). rewrite zlen_app, RenPset.head_length. pose proof (zlen_nonneg _ p). pose proof (zlen_nonneg _ (set_bytes l)). lia. Qed.
Theorem C84_block : forall bs id l om um, Forall blk_ok bs -> NoDup (map key_of bs) -> has bs id (pset_body l) -> set_ok l -> l <> [] ->
  parse_metadata (table_of 0 bs) (file_of bs) id (om, um) = Ok (put (str id) (Dict (dictionary (items l))) om, keep_left (str id) (items l) (left_inside (str id) l um)).
Proof.
  intros bs id l om um OK ND H S N. destruct (block_at bs _ _ OK ND H) as (pos & size & r & F & B & _). unfold parse_metadata, pset_size. rewrite F, B. unfold pset_body. rewrite <- !app_assoc. rewrite quad_front by (unfold pset_mark; lia). cbn [bind]. pose proof S as (_ & SL & _). rewrite quad_front by (split; [apply zlen_nonneg|exact SL]). cbn [bind]. change (pset_mark =? 1413829456) with true. cbn iota. pose proof (set_nonempty l N). replace (zlen (set_bytes l) =? 0) with false by lia. rewrite C82_set by exact S. reflexivity.
Qed.
(** Nothing without the block, or if the block is not a property set *)
Theorem C84_no_block : forall bs id st, ~ In (str id) (map key_of bs) -> parse_metadata (table_of 0 bs) (file_of bs) id st = Ok st.
Proof. intros bs id [om um] H. unfold parse_metadata, pset_size. unfold find_block. rewrite lookup_absent by (rewrite table_keys; exact H). reflexivity. Qed.
Theorem C84_no_set : forall bs id mark size st, Forall blk_ok bs -> NoDup (map key_of bs) -> has bs id (le 4 mark ++ le 4 size) -> word_ok 32 mark -> word_ok 32 size -> mark <> pset_mark -> parse_metadata (table_of 0 bs) (file_of bs) id st = Ok st.
Proof.
  intros bs id mark size [om um] OK ND H M S N. destruct (block_at bs _ _ OK ND H) as (pos & sz & r & F & B & _). unfold parse_metadata, pset_size. rewrite F, B. rewrite <- !app_assoc. rewrite quad_front by exact M. cbn [bind]. rewrite quad_front by exact S. cbn [bind]. unfold pset_mark in N. replace (mark =? 1413829456) with false by lia. reflexivity.
Qed.
(** Maps of results: a property set, and numbers *)
Theorem C84_map : forall bs id l ws om um, Forall blk_ok bs -> NoDup (map key_of bs) -> has bs id (pset_body l ++ le 8 (zlen ws) ++ words 4 ws) -> set_ok l -> Forall (word_ok 32) ws -> zlen ws <> 1 -> zlen ws < 2 ^ 63 ->
  parse_map (table_of 0 bs) (file_of bs) id (om, um) =
  Ok (put (str id) (Dict (put (str "data") (Nums F4 ws) (put (str "npoints") (Num I8 (zlen ws)) (dictionary (items l))))) om, keep_left (str id) (items l) (left_inside (str id) l um)).
Proof.
  intros bs id l ws om um OK ND H S W N1 NL. destruct (block_at bs _ _ OK ND H) as (pos & size & r & F & B & _). unfold parse_map, pset_size. rewrite F, B. unfold pset_body. rewrite <- !app_assoc. rewrite quad_front by (unfold pset_mark; lia). cbn [bind]. pose proof S as (_ & SL & _). rewrite quad_front by (split; [apply zlen_nonneg|exact SL]). cbn [bind]. change (pset_mark =? 1413829456) with true. cbn iota. rewrite C82_set by exact S. cbn [bind].
  rewrite u64_front by (split; [apply zlen_nonneg|exact NL]). cbn [bind]. unfold read_single. change (kind_width F4) with 4. rewrite four_words by exact W. replace (zlen ws =? 1) with false by lia. cbn [bind fst]. rewrite map_id. reflexivity.
Qed.
(** A comment of the user *)
Theorem C84_text : forall bs s om, Forall blk_ok bs -> NoDup (map key_of bs) -> (exists b, In b bs /\ key_of b = str "TEXT_0" /\ b_body b = text_bytes s) -> text_ok s -> parse_text (table_of 0 bs) (file_of bs) om = Ok (put (str "TEXT_0") (Txt s) om).
Proof.
  intros bs s om OK ND (b & I & K & E) T. destruct (C81_contents bs OK b I ND) as (pos & size & L & S & B & P & _). assert (F : find_block "TEXT_0" (table_of 0 bs) = Some (pos, size)) by (unfold find_block; rewrite <- K; exact L). unfold parse_text. rewrite F. assert (SK : skipz pos (file_of bs) = text_bytes s ++ skipn (Z.to_nat (size - 16)) (skipz pos (file_of bs))) by (rewrite <- E, <- B; unfold bytes_at, slice; rewrite skipz_skipn; symmetry; apply firstn_skipn).
  rewrite SK. replace (size - 16) with (zlen (text_bytes s)) at 1 by (rewrite S, E; lia). rewrite text_decode by exact T. reflexivity.
Qed.

(** * The first value of a name, depth first *)
Fixpoint leaves (v : value) : list (pystr * value) := match v with Dict d => flat_map (fun kv => match snd kv with Dict _ => leaves (snd kv) | x => [(fst kv, x)] end) d | _ => [] end.
Lemma find_app : forall A (p : A -> bool) a b, find p (a ++ b) = match find p a with Some x => Some x | None => find p b end.
Proof. intros A p a b. induction a as [|x a IH]; [reflexivity|]. cbn. destruct (p x); [reflexivity|exact IH]. Qed.
Theorem C84_find : forall target v, find_key target v = option_map snd (find (fun kv => eqb_str (fst kv) target) (leaves v)).
Proof.
  intro target. fix IH 1. intro v. destruct v as [kd x|kd l|s|l|s|d|]; try reflexivity.
  cbn [find_key leaves]. induction d as [|[k v] d IHd]; [reflexivity|]. cbn [fold_right flat_map fst snd]. rewrite find_app. rewrite IHd. pose proof (IH v) as IHv. destruct v as [kd x|kd l|s|l|s|d'|]; cbn [find fst]; try (destruct (eqb_str k target); reflexivity).
  rewrite IHv. destruct (find (fun kv => eqb_str (fst kv) target) (leaves (Dict d'))); reflexivity.
Qed.
Example C84_find_example : find_key (str "b") (Dict [(str "a", Dict [(str "c", Missing); (str "b", Num U1 1)]); (str "b", Num U1 2)]) = Some (Num U1 1) /\ find_key (str "a") (Dict [(str "a", Dict [(str "c", Missing)])]) = None.
Proof. split; reflexivity. Qed.
(** * Acquisition parameters *)
Definition number_value (v : value) : Prop := match v with Num _ _ | Nums _ _ => True | _ => False end.
Definition first_leaf (name : string) (v : value) : option value := not_missing (option_map snd (find (fun kv => eqb_str (fst kv) (str name)) (leaves v))).
Theorem C84_acquisition : forall om cs lasers gratings ccd dm extra w, lookup (str "WXCS_0") om = Some (Dict cs) -> lookup (str "Lasers") cs = Some (Dict lasers) -> lookup (str "Gratings") cs = Some (Dict gratings) -> lookup (str "CCD") cs = Some (Dict ccd) ->
  lookup (str "WXDM_0") om = Some (Dict dm) -> lookup (str "extra_matches") dm = Some extra -> first_leaf "Wavenumber" (Dict lasers) = Some w -> number_value w ->
  map_acquisition om = Ok {| q_wavenumber := Some w; q_groove := first_leaf "Groove Density (lines/mm)" (Dict gratings); q_model := not_missing (lookup (str "CCD") ccd); q_temperature := not_missing (lookup (str "Target temperature") ccd);
    q_frames := first_leaf "Accumulations" extra; q_exposure := first_leaf "Exposure Time" extra; q_cosmic := first_leaf "Use Cosmic Ray Remove" extra |}.
Proof.
  intros om cs lasers gratings ccd dm extra w H1 H2 H3 H4 H5 H6 HW NV. unfold map_acquisition, get_in. rewrite H1, H5. cbn [bind]. rewrite H2, H3, H4, H6. cbn [bind not_missing]. rewrite !C84_find. fold (first_leaf "Wavenumber" (Dict lasers)). rewrite HW. destruct w; try destruct NV; reflexivity.
Qed.
(** Lasers without a wavenumber are an error *)
Theorem C84_laser_refuted : forall om cs lasers, lookup (str "WXCS_0") om = Some (Dict cs) -> lookup (str "Lasers") cs = Some (Dict lasers) -> lookup (str "CCD") cs = None -> lookup (str "WXDM_0") om = None ->
  (forall v, ~ In (str "Wavenumber", v) (leaves (Dict lasers))) -> map_acquisition om = Err TypeError.
Proof.
  intros om cs lasers H1 H2 H3 H4 N. unfold map_acquisition, get_in. rewrite H1, H4. cbn [bind]. rewrite H2, H3. cbn [bind not_missing]. rewrite !C84_find. destruct (find (fun kv => eqb_str (fst kv) (str "Wavenumber")) (leaves (Dict lasers))) as [[k v]|] eqn:F; [|reflexivity].
  apply find_some in F. destruct F as [I E]. cbn [fst] in E. apply eqb_str_spec in E. subst k. destruct (N v I).
Qed.

(** * Names and values of the WXDM block *)
Definition named (keys : list (pystr * pystr)) (vals : list (pystr * value)) : list (pystr * value) := flat_map (fun kv => match lookup (fst kv) keys with Some n => [(n, snd kv)] | None => [] end) vals.
Lemma sub_named : forall keys vals d, NoDup (map fst d ++ map fst (named keys vals)) -> sub_values keys vals d = d ++ named keys vals.
Proof.
  intros keys vals. induction vals as [|[k v] vals IH]; intros d ND; [cbn; rewrite app_nil_r; reflexivity|]. cbn [sub_values named flat_map fst snd] in *. fold (named keys vals) in *. destruct (lookup k keys) as [n|]; [|apply IH; exact ND]. cbn [app map fst] in ND. rewrite put_fresh by (apply NoDup_remove_2 in ND; intro K; apply ND; apply in_or_app; left; exact K).
  rewrite IH; [rewrite <- app_assoc; reflexivity|]. rewrite map_app, <- app_assoc. exact ND.
Qed.
Definition numbered_subs (n : Z) (subs : list (list (pystr * value))) : list (pystr * value) := map (fun iv => (str "sub" ++ str_int (fst iv), Dict (snd iv))) (combine (zseq n (List.length subs)) subs).
Definition top : pystr := str "WXDM_0".
Definition below (id : pystr) : Prop := exists n, 0 <= n /\ id = top ++ str "_" ++ str_int n.
(** Sets below the top set, none of which begins like another *)
Definition separate (ids : list pystr) : Prop := NoDup ids /\ forall a b, In a ids -> In b ids -> a <> b -> startswith a b = false.
Lemma count_app : forall a b, count_us (a ++ b) = count_us a + count_us b.
Proof. intros a b. unfold count_us. induction a as [|c a IH]; [reflexivity|]. cbn [app countZ]. rewrite IH. destruct (c =? 95); lia. Qed.
Lemma count_number : forall n, 0 <= n -> count_us (str_int n) = 0.
Proof.
  intros n N. assert (D : Forall (fun c => is_digit c = true) (str_int n)) by (unfold str_int; replace (n <? 0) with false by lia; apply dec_digits; exact N).
  unfold count_us. induction D as [|c s C D IH]; [reflexivity|]. cbn [countZ]. unfold is_digit in C. replace (c =? 95) with false by lia. rewrite IH. reflexivity.
Qed.
Lemma starts_app : forall p s, startswith p (p ++ s) = true.
Proof. induction p as [|c p IH]; intro s; [reflexivity|]. cbn. rewrite Z.eqb_refl. apply IH. Qed.
Lemma number_inj : forall a b, str_int a = str_int b -> a = b.
Proof. intros a b E. pose proof (parse_int_str_int a) as A. rewrite E, parse_int_str_int in A. congruence. Qed.
Lemma subs_fresh : forall n (l : list (list (pystr * value))) m, m < n \/ n + zlen l <= m -> ~ In (str "sub" ++ str_int m) (map fst (numbered_subs n l)).
Proof.
  intros n l m R I. unfold numbered_subs in I. rewrite map_map in I. apply in_map_iff in I. destruct I as [[i v] [E I]]. cbn [fst] in E. apply app_inv_head in E. apply number_inj in E. subst i. apply in_combine_l in I. apply in_zseq in I. unfold zlen in R. lia.
Qed.
Lemma numbered_snoc : forall n l x, numbered_subs n (l ++ [x]) = numbered_subs n l ++ [(str "sub" ++ str_int (n + zlen l), Dict x)].
Proof.
  intros n l. revert n. induction l as [|a l IH]; intros n x; [unfold numbered_subs, zlen; cbn [app List.length zseq combine map fst snd Z.of_nat]; rewrite Z.add_0_r; reflexivity|].
  unfold numbered_subs in *. cbn [app List.length zseq combine map fst snd]. rewrite (IH (n + 1) x). cbn [app]. replace (n + 1 + zlen l) with (n + zlen (a :: l)) by (unfold zlen; cbn [List.length]; lia). reflexivity.
Qed.
Fixpoint each_sub (f : nat) (level : Z) (keys : list (pystr * pystr)) (um : list (pystr * unmatched)) (here left : list pystr) (num : Z) (d : list (pystr * value)) : list (pystr * value) :=
  match here with
  | [] => d
  | k :: here' =>
      let left := filter (fun i => negb (eqb_str i k)) left in
      let subs := match_values f (level + 1) (filter (startswith k) left) keys um in
      let sub := match subs with [] => [] | _ => [(str "subdicts", Dict subs)] end in
      each_sub f level keys um here' left (num + 1) (put (str "sub" ++ str_int num) (Dict (sub_values keys (values_of um k) sub)) d)
  end.
Lemma match_each : forall f level ids keys um, match_values (S f) level ids keys um = each_sub f level keys um (filter (fun i => count_us i =? level) ids) ids 0 [].
Proof.
  intros f level ids keys um. cbn [match_values]. match goal with |- ?F _ _ _ _ = _ => enough (G : forall here left n d, F here left n d = each_sub f level keys um here left n d) by apply G end.
  induction here as [|k here IH]; intros left n d; [reflexivity|]. cbn [each_sub]. rewrite <- IH. reflexivity.
Qed.
Lemma match_nothing : forall f level keys um, match_values f level [] keys um = [].
Proof. intros [|f] level keys um; reflexivity. Qed.
Lemma filter_all : forall A (p : A -> bool) l, (forall x, In x l -> p x = true) -> filter p l = l.
Proof. intros A p l. induction l as [|x l IH]; intro H; [reflexivity|]. cbn. rewrite (H x (or_introl eq_refl)), IH; [reflexivity|intros y Y; apply H; right; exact Y]. Qed.
Lemma filter_none : forall A (p : A -> bool) l, (forall x, In x l -> p x = false) -> filter p l = [].
Proof. intros A p l. induction l as [|x l IH]; intro H; [reflexivity|]. cbn. rewrite (H x (or_introl eq_refl)). apply IH. intros y Y; apply H; right; exact Y. Qed.
Lemma each_flat : forall f level keys um all, separate all -> (forall id, In id all -> NoDup (map fst (named keys (values_of um id)))) ->
  forall here left done, incl here all -> incl left all ->
  each_sub f level keys um here left (zlen done) (numbered_subs 0 done) = numbered_subs 0 (done ++ map (fun id => named keys (values_of um id)) here).
Proof.
  intros f level keys um all [_ SEP] ND here. induction here as [|k here IH]; intros left done IH1 IL; [rewrite app_nil_r; reflexivity|]. cbn [each_sub map].
  assert (K : In k all) by (apply IH1; left; reflexivity).
  rewrite (filter_none _ (startswith k)).
  2:{ intros x X. apply filter_In in X. destruct X as [X Q]. apply SEP; [exact K|apply IL; exact X|]. intro Q'. subst x. rewrite eqb_str_refl in Q. discriminate Q. }
  rewrite match_nothing, sub_named by (apply ND; exact K). cbn [app]. rewrite put_fresh by (apply subs_fresh; right; lia).
  pose proof (IH (filter (fun i => negb (eqb_str i k)) left) (done ++ [named keys (values_of um k)]) (fun x X => IH1 x (or_intror X)) (fun x X => IL x (proj1 (proj1 (filter_In _ _ _) X)))) as G.
  rewrite numbered_snoc, Z.add_0_l, zlen_app, <- app_assoc in G. exact G.
Qed.
Definition cleared (um : list (pystr * unmatched)) : list (pystr * unmatched) := map (fun iu => if startswith (str "WXDM") (fst iu) then (fst iu, {| u_keys := []; u_values := [] |}) else iu) um.
Lemma sub_same : forall keys vals d, (forall k v, In (k, v) vals -> lookup k keys = None) -> sub_values keys vals d = d.
Proof. intros keys vals. induction vals as [|[k v] vals IH]; intros d H; [reflexivity|]. cbn [sub_values]. rewrite (H k v (or_introl eq_refl)). apply IH. intros k' v' I. apply (H k' v'). right. exact I. Qed.
Theorem C84_extra : forall om um d u subs, lookup top om = Some (Dict d) -> lookup top um = Some u -> filter (startswith (str "WXDM")) (map fst um) = subs ++ [top] -> subs <> [] -> Forall below subs -> separate subs ->
  (forall k v, In (k, v) (u_values u) -> lookup k (u_keys u) = None) -> (forall id, In id subs -> NoDup (map fst (named (u_keys u) (values_of um id)))) ->
  map_wxdm (om, um) = Ok (put top (Dict (put (str "extra_matches") (Dict (numbered_subs 0 (map (fun id => named (u_keys u) (values_of um id)) subs))) d)) om, cleared um).
Proof.
  intros om um d u subs HO HU HI NE B SEP OWN ND. unfold map_wxdm. change (str "WXDM_0") with top. rewrite HO, HU, HI.
  replace (List.length (subs ++ [top])) with (S (List.length subs)) by (rewrite app_length; cbn; lia). generalize (List.length subs). intro f. rewrite match_each.
  assert (BC : forall x, In x subs -> count_us x = 2). { intros x X. rewrite Forall_forall in B. destruct (B x X) as [n [N E]]. subst x. rewrite !count_app, count_number by exact N. reflexivity. }
  assert (NT : forall x, In x subs -> x <> top). { intros x X E. pose proof (BC x X) as C. rewrite E in C. discriminate C. }
  rewrite filter_app, (filter_none _ (fun i => count_us i =? 1) subs) by (intros x X; rewrite (BC x X); reflexivity). change (filter (fun i => count_us i =? 1) [top]) with [top]. cbn [app each_sub].
  rewrite filter_app, (filter_all _ (fun i => negb (eqb_str i top)) subs).
  2:{ intros x X. destruct (eqb_str x top) eqn:Q; [|reflexivity]. apply eqb_str_spec in Q. destruct (NT x X Q). }
  change (filter (fun i => negb (eqb_str i top)) [top]) with (@nil pystr). rewrite app_nil_r, (filter_all _ (startswith top) subs).
  2:{ intros x X. rewrite Forall_forall in B. destruct (B x X) as [n [N E]]. subst x. apply starts_app. }
  rewrite match_each. change (1 + 1) with 2. rewrite (filter_all _ (fun i => count_us i =? 2) subs) by (intros x X; rewrite (BC x X); reflexivity).
  pose proof (each_flat f 2 (u_keys u) um subs SEP ND subs subs [] (fun x H => H) (fun x H => H)) as E. cbn [app] in E. change (zlen (@nil (list (pystr * value)))) with 0 in E. change (numbered_subs 0 []) with (@nil (pystr * value)) in E.
  rewrite E. rewrite (sub_same _ (values_of um top)) by (unfold values_of; rewrite HU; exact OWN). destruct subs as [|s0 subs]; [congruence|]. reflexivity.
Qed.
Theorem C84_no_wxdm : forall om um, lookup top om = None -> map_wxdm (om, um) = Ok (om, um).
Proof. intros om um H. unfold map_wxdm. change (str "WXDM_0") with top. rewrite H. reflexivity. Qed.
(** A block in which every name has its value cannot be read *)
Theorem C84_complete_refuted : forall om um d, lookup top om = Some d -> lookup top um = None -> map_wxdm (om, um) = Err KeyError.
Proof. intros om um d H1 H2. unfold map_wxdm. change (str "WXDM_0") with top. rewrite H1, H2. reflexivity. Qed.
(** ... nor one in which the names of no inner set were left over *)
Theorem C84_flat_refuted : forall om um d u, lookup top om = Some (Dict d) -> lookup top um = Some u -> filter (startswith (str "WXDM")) (map fst um) = [top] -> (forall k v, In (k, v) (u_values u) -> lookup k (u_keys u) = None) -> map_wxdm (om, um) = Err KeyError.
Proof.
  intros om um d u H1 H2 H3 OWN. unfold map_wxdm. change (str "WXDM_0") with top. rewrite H1, H2, H3. rewrite match_each. change (filter (fun i => count_us i =? 1) [top]) with [top]. cbn [each_sub]. change (filter (startswith top) (filter (fun i => negb (eqb_str i top)) [top])) with (@nil pystr). rewrite match_nothing.
  rewrite sub_same by (unfold values_of; rewrite H2; exact OWN). reflexivity.
Qed.
Definition demo_unmatched : list (pystr * unmatched) :=
  [(str "WXDM_0_12", {| u_keys := []; u_values := [(str "7", Num I4 5); (str "9", Num I4 6)] |}); (str "WXDM_0_80", {| u_keys := []; u_values := [(str "8", Txt (str "on"))] |}); (str "WXIS_0", {| u_keys := [(str "1", str "Other")]; u_values := [] |});
   (str "WXDM_0", {| u_keys := [(str "7", str "Accumulations"); (str "8", str "Focus")]; u_values := [] |})].
Example C84_extra_example : map_wxdm ([(top, Dict [(str "Name", Txt (str "x"))])], demo_unmatched) =
  Ok ([(top, Dict [(str "Name", Txt (str "x")); (str "extra_matches", Dict [(str "sub0", Dict [(str "Accumulations", Num I4 5)]); (str "sub1", Dict [(str "Focus", Txt (str "on"))])])])], cleared demo_unmatched).
Proof. reflexivity. Qed.
Example C84_extra_hypotheses : filter (startswith (str "WXDM")) (map fst demo_unmatched) = [str "WXDM_0_12"; str "WXDM_0_80"] ++ [top] /\ Forall below [str "WXDM_0_12"; str "WXDM_0_80"] /\ separate [str "WXDM_0_12"; str "WXDM_0_80"].
Proof.
  repeat split.
  - repeat constructor; [exists 12|exists 80]; split; reflexivity || lia.
  - repeat constructor; cbn; intuition discriminate.
  - intros a b [<-|[<-|[]]] [<-|[<-|[]]] N; reflexivity || congruence.
Qed.
(** The value 6 of an inner set had no name and is in no result *)
Theorem C84_lost_refuted : lookup (str "WXDM_0_12") (cleared demo_unmatched) = Some {| u_keys := []; u_values := [] |}.
Proof. reflexivity. Qed.
Definition deep_unmatched : list (pystr * unmatched) :=
  [(str "WXDM_0_123_4", {| u_keys := []; u_values := [(str "7", Num I4 5)] |}); (str "WXDM_0_123", {| u_keys := []; u_values := [(str "7", Num I4 8)] |}); (str "WXDM_0_12", {| u_keys := []; u_values := [(str "7", Num I4 6)] |});
   (str "WXDM_0", {| u_keys := [(str "7", str "Accumulations")]; u_values := [] |})].
(** A set inside WXDM_0_123 is listed below WXDM_0_12 when that one comes first *)
Theorem C84_prefix_refuted : match map_wxdm ([(top, Dict [])], rev (firstn 3 deep_unmatched) ++ skipn 3 deep_unmatched) with Ok (om, _) => om | Err _ => [] end = [(top, Dict [(str "extra_matches", Dict [(str "sub0", Dict [(str "subdicts", Dict [(str "sub0", Dict [(str "Accumulations", Num I4 5)])]); (str "Accumulations", Num I4 6)]); (str "sub1", Dict [(str "subdicts", Dict [(str "sub0", Dict [(str "Accumulations", Num I4 5)])]); (str "Accumulations", Num I4 8)])])])].
Proof. reflexivity. Qed.

Print Assumptions C84_calendar.
Print Assumptions C84_date.
Print Assumptions C84_date_and_time.
Print Assumptions C84_block.
Print Assumptions C84_no_block.
Print Assumptions C84_no_set.
Print Assumptions C84_map.
Print Assumptions C84_text.
Print Assumptions C84_find.
Print Assumptions C84_acquisition.
Print Assumptions C84_laser_refuted.
Print Assumptions C84_extra.
Print Assumptions C84_no_wxdm.
Print Assumptions C84_complete_refuted.
Print Assumptions C84_flat_refuted.
