(** Property C61: npy files. *)
From Verif Require Import Base Text Bytes Utf8 RowMajor HierModel SfsModel SfsProps BcfUnpack NpyModel.

(** * Specification: files as numpy writes them *)
Fixpoint more (sh : list Z) : pystr := match sh with [] => [41] | n :: sh' => [44; 32] ++ dec n ++ more sh' end.
Definition tuple_text (sh : list Z) : pystr :=
  match sh with [] => str "()" | [n] => 40 :: dec n ++ str ",)" | n :: sh' => 40 :: dec n ++ more sh' end.
Definition header_text (descr : pystr) (fortran : bool) (sh : list Z) : pystr :=
  str "{'descr': '" ++ descr ++ str "', 'fortran_order': " ++ (if fortran then str "True" else str "False") ++ str ", 'shape': " ++ tuple_text sh ++ str ", }".
(** Magic number, version, length, text padded with spaces and ended by a line break, data *)
Definition npy_prefix (major : Z) (h : list Z) : list Z := [147; 78; 85; 77; 80; 89; major; 0] ++ le (if major =? 1 then 2 else 4) (zlen h) ++ h.
Definition npy_header (major : Z) (pad : nat) (descr : pystr) (fortran : bool) (sh : list Z) (h : list Z) : Prop :=
  let text := header_text descr fortran sh ++ repeat 32 pad ++ [10] in
  if major =? 3 then utf8_encode text = Ok h else h = text.
(** Where the element with an index is stored *)
Definition stored_at (sh : list Z) (fortran : bool) (idx : list Z) : Z := if fortran then row_major (rev sh) (rev idx) else row_major sh idx.
(** What np.load gives: the elements, in C order of their indices, are those stored. *)
Definition is_array (sh : list Z) (fortran : bool) (size : Z) (data : list Z) (els : list (list Z)) : Prop :=
  zlen els = prodZ sh /\ forall idx, in_shape sh idx ->
    nth_error els (Z.to_nat (row_major sh idx)) = Some (slice (Z.to_nat (stored_at sh fortran idx * size)) (Z.to_nat size) data).

(** * Headers *)
Lemma skip_ws_space : forall s, skip_ws (32 :: s) = skip_ws s.
Proof. reflexivity. Qed.
Lemma skip_ws_spaces : forall k s, skip_ws (repeat 32 k ++ s) = skip_ws s.
Proof. induction k as [|k IH]; intros s; [reflexivity|]. cbn [repeat app]. rewrite skip_ws_space. apply IH. Qed.
Lemma until_quote_app : forall a r, ~ In 39 a -> until_quote (a ++ 39 :: r) = Ok (a, r).
Proof.
  induction a as [|c a IH]; intros r H; [reflexivity|]. cbn [app until_quote]. destruct (c =? 39) eqn:E; [exfalso; apply H; left; lia|].
  rewrite IH; [reflexivity|]. intro K. apply H. right. exact K.
Qed.
Definition no_digit (s : pystr) : Prop := match s with c :: _ => is_digit c = false | [] => True end.
Lemma take_digits_app : forall a r, Forall (fun c => is_digit c = true) a -> no_digit r -> take_digits (a ++ r) = (a, r).
Proof.
  intros a r H. revert r. induction H as [|c a Hc _ IH]; intros r Hr.
  - destruct r as [|c r]; [reflexivity|]. cbn in *. rewrite Hr. reflexivity.
  - cbn [app take_digits]. rewrite Hc, IH by exact Hr. reflexivity.
Qed.
Lemma digit_first : forall n r, 0 <= n -> exists c s, dec n ++ r = c :: s /\ is_digit c = true.
Proof.
  intros n r Hn. pose proof (dec_digits n Hn) as D. pose proof (dec_ne n Hn) as N. destruct (dec n) as [|c d]; [contradiction|].
  inversion D; subst. exists c, (d ++ r). auto.
Qed.
Lemma digit_facts : forall c, is_digit c = true -> is_space c = false /\ c <> 41 /\ 48 <= c <= 57.
Proof. intros c H. split; [apply digit_not_space; exact H|]. unfold is_digit in H. lia. Qed.

(** One step of [numbers] at a number *)
Lemma numbers_step : forall k first n r, 0 <= n -> no_digit r -> numbers (S k) first (dec n ++ r) =
  match skip_ws r with
  | 44 :: r2 => let! (l, r3) := numbers k false r2 in Ok (n :: l, r3)
  | 41 :: r2 => if first then Err TypeError else Ok ([n], r2)
  | _ => Err ValueError
  end.
Proof.
  intros k first n r Hn Hr. pose proof (take_digits_app _ r (dec_digits n Hn) Hr) as T.
  destruct (digit_first n r Hn) as [c [s [E D]]]. cbn [numbers].
  destruct (digit_facts c D) as [S0 [N41 R]].
  assert (K : skip_ws (dec n ++ r) = dec n ++ r) by (rewrite E; cbn [skip_ws]; rewrite S0; reflexivity).
  cbn zeta. rewrite K.
  assert (G : forall X Y, (match dec n ++ r with 41 :: r0 => X r0 | _ => Y end : res (list Z * pystr)) = Y).
  { intros X Y. rewrite E. destruct c as [|p|p]; try lia. do 6 (destruct p as [p|p|]; try reflexivity; try lia). }
  rewrite G, T, undec_dec by exact Hn. reflexivity.
Qed.
Lemma numbers_space : forall k first s, numbers (S k) first (32 :: s) = numbers (S k) first s.
Proof. reflexivity. Qed.

Lemma more_no_digit : forall sh r, no_digit (more sh ++ r).
Proof. intros [|n sh] r; reflexivity. Qed.
Lemma numbers_more : forall sh k first n r, Forall (fun n => 0 <= n) (n :: sh) -> (List.length sh < k)%nat -> (sh = [] -> first = false) ->
  numbers k first (dec n ++ more sh ++ r) = Ok (n :: sh, r).
Proof.
  induction sh as [|m sh IH]; intros k first n r H Hk Hf; inversion H; subst; (destruct k as [|k]; [cbn in Hk; lia|]).
  - rewrite numbers_step by (assumption || apply more_no_digit). rewrite Hf by reflexivity. reflexivity.
  - rewrite numbers_step by (assumption || apply more_no_digit). cbn [more app]. cbn [skip_ws]. change (is_space 44) with false. cbn iota.
    destruct k as [|k]; [cbn in Hk; lia|]. rewrite numbers_space. rewrite <- app_assoc. rewrite IH; [reflexivity|assumption|cbn in Hk; lia|reflexivity].
Qed.
Lemma tuple_ok : forall sh k r, Forall (fun n => 0 <= n) sh -> (List.length sh < k)%nat -> value k (tuple_text sh ++ r) = Ok (LTuple sh, r).
Proof.
  intros sh k r H Hk. destruct k as [|k]; [lia|]. destruct sh as [|n [|m sh]].
  - reflexivity.
  - unfold tuple_text. change ((40 :: dec n ++ str ",)") ++ r) with (40 :: (dec n ++ str ",)") ++ r). cbn [value]. rewrite <- app_assoc.
    inversion H; subst. rewrite numbers_step; [|assumption|reflexivity]. change (str ",)" ++ r) with (44 :: 41 :: r). cbn [skip_ws]. change (is_space 44) with false. cbn iota.
    destruct k as [|k]; [cbn in Hk; lia|]. reflexivity.
  - unfold tuple_text. change ((40 :: dec n ++ more (m :: sh)) ++ r) with (40 :: (dec n ++ more (m :: sh)) ++ r). cbn [value]. rewrite <- app_assoc.
    rewrite numbers_more; [reflexivity|assumption|cbn in *; lia|discriminate].
Qed.

Definition entries (descr : pystr) (fortran : bool) (sh : list Z) : list (pystr * lit) :=
  [(str "descr", LStr descr); (str "fortran_order", LBool fortran); (str "shape", LTuple sh)].

(** A step of [items] at one entry *)
Lemma items_step : forall k key v vt r d, ~ In 39 key -> (forall q, skip_ws (vt ++ q) = vt ++ q) -> (forall q, value k (vt ++ q) = Ok (v, q)) ->
  items (S k) (39 :: key ++ [39; 58; 32] ++ vt ++ [44] ++ r) d = items k r (put key v d).
Proof.
  intros k key v vt r d Hk Hs Hv. cbn [items skip_ws]. change (is_space 39) with false. cbn iota.
  change (key ++ [39; 58; 32] ++ vt ++ [44] ++ r) with (key ++ 39 :: (58 :: 32 :: vt ++ 44 :: r)).
  rewrite until_quote_app by exact Hk. cbn [bind]. cbn [skip_ws]. change (is_space 58) with false. cbn iota.
  rewrite skip_ws_space, Hs. rewrite Hv. cbn [bind skip_ws]. change (is_space 44) with false. cbn iota. reflexivity.
Qed.
Lemma items_space : forall k s d, items k (32 :: s) d = items k s d.
Proof. intros [|k] s d; reflexivity. Qed.

Lemma tuple_first : forall sh q, skip_ws (tuple_text sh ++ q) = tuple_text sh ++ q.
Proof. intros [|n [|m sh]] q; reflexivity. Qed.
Lemma tuple_long : forall sh, (List.length sh <= List.length (tuple_text sh))%nat.
Proof.
  intros [|n [|m sh]]; [cbn; lia|cbn; lia|]. unfold tuple_text.
  assert (M : forall l, (List.length l <= List.length (more l))%nat). { induction l as [|x l IH]; cbn [more]; [cbn; lia|]. rewrite !app_length. cbn [List.length]. lia. }
  specialize (M (m :: sh)). cbn [List.length] in *. rewrite app_length. lia.
Qed.

Lemma literal_header : forall descr fortran sh pad, ~ In 39 descr -> Forall (fun n => 0 <= n) sh ->
  literal_eval (header_text descr fortran sh ++ repeat 32 pad ++ [10]) = Ok (entries descr fortran sh).
Proof.
  intros descr fortran sh pad Hd Hs. unfold header_text.
  set (tailt := repeat 32 pad ++ [10]).
  set (bt := if fortran then str "True" else str "False").
  assert (E : (str "{'descr': '" ++ descr ++ str "', 'fortran_order': " ++ bt ++ str ", 'shape': " ++ tuple_text sh ++ str ", }") ++ tailt
    = 123 :: 39 :: str "descr" ++ [39; 58; 32] ++ (39 :: descr ++ [39]) ++ [44] ++
        (32 :: 39 :: str "fortran_order" ++ [39; 58; 32] ++ bt ++ [44] ++ (32 :: 39 :: str "shape" ++ [39; 58; 32] ++ tuple_text sh ++ [44] ++ (32 :: 125 :: tailt)))).
  { change (str "{'descr': '") with (123 :: 39 :: str "descr" ++ [39; 58; 32; 39]).
    change (str "', 'fortran_order': ") with (39 :: 44 :: 32 :: 39 :: str "fortran_order" ++ [39; 58; 32]).
    change (str ", 'shape': ") with (44 :: 32 :: 39 :: str "shape" ++ [39; 58; 32]). change (str ", }") with [44; 32; 125].
    repeat (rewrite <- ?app_assoc; cbn [app]). reflexivity. }
  etransitivity; [exact (f_equal literal_eval E)|]. unfold literal_eval.
  assert (L : exists k, List.length (123 :: 39 :: str "descr" ++ [39; 58; 32] ++ (39 :: descr ++ [39]) ++ [44] ++
        (32 :: 39 :: str "fortran_order" ++ [39; 58; 32] ++ bt ++ [44] ++ (32 :: 39 :: str "shape" ++ [39; 58; 32] ++ tuple_text sh ++ [44] ++ (32 :: 125 :: tailt))))
        = S (S (S (S k))) /\ (List.length sh < k)%nat).
  { pose proof (tuple_long sh) as T.
    match goal with |- exists k, List.length ?l = _ /\ _ => assert (G : (4 + List.length sh < List.length l)%nat) end.
    { cbn [List.length]. rewrite !app_length. cbn [List.length]. rewrite !app_length. cbn [List.length]. rewrite !app_length. cbn [List.length]. lia. }
    match goal with |- exists k, List.length ?l = _ /\ _ => exists (List.length l - 4)%nat end. lia. }
  destruct L as [k [L Lk]]. rewrite L. clear L E.
  rewrite (items_step _ (str "descr") (LStr descr)).
  - rewrite items_space. rewrite (items_step _ (str "fortran_order") (LBool fortran)).
    + rewrite items_space. rewrite (items_step _ (str "shape") (LTuple sh)).
      * rewrite items_space. cbn [items skip_ws]. change (is_space 125) with false. cbn iota. cbn [bind].
        unfold tailt. rewrite skip_ws_spaces. destruct fortran; reflexivity.
      * cbn. intuition discriminate.
      * apply tuple_first.
      * intro q. apply tuple_ok; [exact Hs|lia].
    + cbn. intuition discriminate.
    + intro q. unfold bt. destruct fortran; reflexivity.
    + intro q. unfold bt. destruct fortran; reflexivity.
  - cbn. intuition discriminate.
  - reflexivity.
  - intro q. change ((39 :: descr ++ [39]) ++ q) with (39 :: (descr ++ [39]) ++ q). cbn [value]. rewrite <- app_assoc. change ([39] ++ q) with (39 :: q).
    rewrite until_quote_app by exact Hd. reflexivity.
Qed.

Theorem C61_inspect : forall major pad descr fortran sh h rest, major = 1 \/ major = 2 \/ major = 3 ->
  ~ In 39 descr -> Forall (fun n => 0 <= n) sh -> npy_header major pad descr fortran sh h -> zlen h < (if major =? 1 then 2 ^ 16 else 2 ^ 32) ->
  inspect (npy_prefix major h ++ rest) = Ok (zlen (npy_prefix major h), sh, descr, entries descr fortran sh).
Proof.
  intros major pad descr fortran sh h rest Hm Hd Hs Hh Hl. unfold inspect, read, npy_prefix.
  set (n := if major =? 1 then 2%nat else 4%nat).
  assert (En : (le (if major =? 1 then 2 else 4) (zlen h)) = le n (zlen h)) by (destruct (major =? 1); reflexivity).
  set (X := le n (zlen h) ++ h).
  assert (E1 : ([147; 78; 85; 77; 80; 89; major; 0] ++ X) ++ rest = [147; 78; 85; 77; 80; 89] ++ [major; 0] ++ (X ++ rest)) by reflexivity.
  rewrite E1. rewrite (skipz_app _ [147; 78; 85; 77; 80; 89]) by reflexivity.
  rewrite (firstz_app _ [major; 0]) by reflexivity. rewrite (skipz_app _ [major; 0]) by reflexivity. unfold X.
  assert (B : (if major =? 1 then Ok (2, true) else if (major =? 2) || (major =? 3) then Ok (4, negb (major =? 3)) else Err ValueError) = Ok (Z.of_nat n, negb (major =? 3))).
  { destruct Hm as [-> |[-> | ->]]; reflexivity. }
  rewrite B. cbn [bind]. rewrite <- app_assoc.
  assert (Ln : zlen (le n (zlen h)) = Z.of_nat n) by apply zlen_le.
  rewrite firstz_app by exact Ln. rewrite skipz_app by exact Ln. rewrite Ln, Z.eqb_refl. cbn [negb].
  assert (Lv : le_val (le n (zlen h)) = zlen h).
  { apply le_val_small. pose proof (zlen_nonneg _ h). unfold n. destruct (major =? 1); cbn; lia. }
  rewrite Lv. rewrite firstz_app by reflexivity.
  assert (D : (if negb (major =? 3) then Ok h else utf8_decode h) = Ok (header_text descr fortran sh ++ repeat 32 pad ++ [10])).
  { unfold npy_header in Hh. destruct (major =? 3); cbn [negb]; [apply utf8_round_trip; exact Hh|rewrite Hh; reflexivity]. }
  rewrite D. cbn [bind]. rewrite literal_header by assumption. cbn [bind].
  change (lookup (str "shape") (entries descr fortran sh)) with (Some (LTuple sh)). change (lookup (str "descr") (entries descr fortran sh)) with (Some (LStr descr)). cbn [bind].
  f_equal. f_equal. f_equal. f_equal. rewrite !zlen_app, Ln. change (zlen [147; 78; 85; 77; 80; 89; major; 0]) with 8. lia.
Qed.

(** * C61: lazy reading *)
Lemma size_text : forall a b n, 0 < n -> itemsize (a :: b :: dec n) = Ok n.
Proof.
  intros a b n Hn. unfold itemsize. cbn [skipn].
  assert (P : parse_int (dec n) = Ok n). { pose proof (parse_int_str_int n) as P. unfold str_int in P. destruct (n <? 0) eqn:E; [lia|exact P]. }
  rewrite P. cbn [bind]. destruct (n <=? 0) eqn:E; [lia|reflexivity].
Qed.
Lemma read_file : forall major pad a b n fortran sh h data tail, major = 1 \/ major = 2 \/ major = 3 ->
  a <> 39 -> b <> 39 -> 0 < n -> Forall (fun n => 0 <= n) sh -> npy_header major pad (a :: b :: dec n) fortran sh h -> zlen h < (if major =? 1 then 2 ^ 16 else 2 ^ 32) ->
  zlen data = prodZ sh * n ->
  read_lazy (npy_prefix major h ++ data ++ tail) = Ok (sh, records (Z.to_nat (prodZ sh)) (Z.to_nat n) (data ++ tail)).
Proof.
  intros major pad a b n fortran sh h data tail Hm Ha Hb Hn Hs Hh Hl Hd. unfold read_lazy.
  assert (Q : ~ In 39 (a :: b :: dec n)).
  { cbn. intros [K|[K|K]]; [congruence|congruence|]. pose proof (dec_digits n ltac:(lia)) as D. rewrite Forall_forall in D. specialize (D 39 K). discriminate. }
  rewrite (C61_inspect major pad _ fortran sh h (data ++ tail) Hm Q Hs Hh Hl). cbn [bind].
  unfold map_file. rewrite size_text by exact Hn. cbn [bind]. rewrite !zlen_app. pose proof (zlen_nonneg _ tail).
  destruct (_ <? _) eqn:E; [lia|]. cbn [bind]. rewrite skipz_app by reflexivity. reflexivity.
Qed.

(** Arrays in C order are read as np.load reads them. *)
Theorem C61_lazy : forall major pad a b n sh h data tail, major = 1 \/ major = 2 \/ major = 3 ->
  a <> 39 -> b <> 39 -> 0 < n -> Forall (fun n => 0 <= n) sh -> npy_header major pad (a :: b :: dec n) false sh h -> zlen h < (if major =? 1 then 2 ^ 16 else 2 ^ 32) ->
  zlen data = prodZ sh * n ->
  exists els, read_lazy (npy_prefix major h ++ data ++ tail) = Ok (sh, els) /\ is_array sh false n data els.
Proof.
  intros major pad a b n sh h data tail Hm Ha Hb Hn Hs Hh Hl Hd.
  rewrite (read_file major pad a b n false sh h data tail) by assumption. eexists. split; [reflexivity|].
  pose proof (prodZ_nonneg _ Hs) as P. split; [unfold zlen; rewrite records_length; lia|].
  intros idx Hi. pose proof (row_major_range _ _ Hi) as R. rewrite nth_records by lia. f_equal. unfold stored_at.
  replace (Z.to_nat (row_major sh idx) * Z.to_nat n)%nat with (Z.to_nat (row_major sh idx * n)) by (apply Z2Nat.inj_mul; lia).
  assert (B : row_major sh idx * n + n <= prodZ sh * n) by (clear - R Hn; nia).
  assert (B0 : 0 <= row_major sh idx * n) by (clear - R Hn; nia).
  unfold slice. rewrite skipn_app, firstn_app. unfold zlen in Hd.
  replace (Z.to_nat n - List.length (skipn (Z.to_nat (row_major sh idx * n)) data))%nat with 0%nat by (rewrite skipn_length; lia).
  apply app_nil_r.
Qed.
Definition hC := header_text (str "<i2") false [2; 3] ++ repeat 32 3 ++ [10].
Example ex_C61 : npy_header 1 3 (60 :: 105 :: dec 2) false [2; 3] hC
  /\ hC = str "{'descr': '<i2', 'fortran_order': False, 'shape': (2, 3), }   " ++ [10]
  /\ read_lazy (npy_prefix 1 hC ++ [1; 0; 2; 0; 3; 0; 4; 0; 5; 0; 6; 0]) = Ok ([2; 3], [[1; 0]; [2; 0]; [3; 0]; [4; 0]; [5; 0]; [6; 0]]).
Proof. repeat split; vm_compute; reflexivity. Qed.

(** Arrays in Fortran order are read in the wrong order when reading lazily. *)
Theorem C61_fortran_refuted : exists h sh data els, npy_header 1 0 (str "|u1") true sh h /\ zlen data = prodZ sh
  /\ read_lazy (npy_prefix 1 h ++ data) = Ok (sh, els) /\ ~ is_array sh true 1 data els /\ is_array sh false 1 data els.
Proof.
  exists (header_text (str "|u1") true [2; 3] ++ [10]), [2; 3], [1; 2; 3; 4; 5; 6], [[1]; [2]; [3]; [4]; [5]; [6]].
  split; [vm_compute; reflexivity|]. split; [reflexivity|]. split; [vm_compute; reflexivity|]. split.
  - intros [_ H]. specialize (H [0; 1]). assert (S0 : in_shape [2; 3] [0; 1]) by (repeat constructor; lia). specialize (H S0). vm_compute in H. discriminate.
  - split; [reflexivity|]. intros idx H. inversion H as [|? i ? ? Hi H1]; subst. inversion H1 as [|? j ? ? Hj H2]; subst. inversion H2; subst. clear H H1 H2.
    assert (Ii : i = 0 \/ i = 1) by lia. assert (Jj : j = 0 \/ j = 1 \/ j = 2) by lia.
    destruct Ii as [-> | ->]; destruct Jj as [-> |[-> | ->]]; vm_compute; reflexivity.
Qed.

(** * C65: axes of npy files *)
Lemma axes_sizes : forall nav sh a i, map (fun x => fst (fst x)) (axes_of nav a i sh) = filter (fun n => 1 <? n) sh.
Proof. induction sh as [|n sh IH]; intros a i; [reflexivity|]. cbn [axes_of filter]. destruct (1 <? n); cbn [map]; rewrite IH; reflexivity. Qed.
Lemma axes_indices : forall nav sh a i, map (fun x => snd (fst x)) (axes_of nav a i sh) = zseq i (List.length (axes_of nav a i sh)).
Proof. induction sh as [|n sh IH]; intros a i; [reflexivity|]. cbn [axes_of]. destruct (1 <? n); [cbn [map List.length zseq]; rewrite IH; reflexivity|apply IH]. Qed.
(** Original axes that are kept, with their numbers *)
Definition kept (sh : list Z) : list Z := filter (fun a => negb (nth (Z.to_nat a) sh 1 =? 1)) (zseq 0 (List.length sh)).
Lemma axes_nav : forall nav sh a i, Forall (fun n => 1 <= n) sh ->
  map snd (axes_of nav a i sh) = map (fun b => existsb (fun c => c =? b) nav) (filter (fun b => negb (nth (Z.to_nat (b - a)) sh 1 =? 1)) (zseq a (List.length sh))).
Proof.
  intros nav sh a i H. revert a i. induction H as [|n sh Hn H IH]; intros a i; [reflexivity|]. cbn [axes_of List.length zseq filter].
  rewrite Z.sub_diag. cbn [Z.to_nat nth].
  assert (R : filter (fun b => negb (nth (Z.to_nat (b - a)) (n :: sh) 1 =? 1)) (zseq (a + 1) (List.length sh))
    = filter (fun b => negb (nth (Z.to_nat (b - (a + 1))) sh 1 =? 1)) (zseq (a + 1) (List.length sh))).
  { apply filter_ext_in. intros b Hb. apply in_zseq in Hb. replace (Z.to_nat (b - a)) with (S (Z.to_nat (b - (a + 1)))) by lia. reflexivity. }
  change (Z.pos 1) with 1 in *.
  destruct (1 <? n) eqn:E.
  - replace (n =? 1) with false by lia. cbn [negb map snd]. f_equal. rewrite IH. f_equal. symmetry. exact R.
  - replace (n =? 1) with true by lia. cbn [negb]. rewrite IH. f_equal. symmetry. exact R.
Qed.
Theorem C65_axes : forall nav sh, Forall (fun n => 1 <= n) sh ->
  map (fun x => fst (fst x)) (axes nav sh) = filter (fun n => negb (n =? 1)) sh
  /\ map (fun x => snd (fst x)) (axes nav sh) = zseq 0 (List.length (axes nav sh))
  /\ map snd (axes nav sh) = map (fun b => existsb (fun c => c =? b) nav) (kept sh).
Proof.
  intros nav sh H. unfold axes. rewrite axes_sizes. split; [|split; [apply axes_indices|]].
  - induction H as [|n sh Hn _ IH]; [reflexivity|]. cbn [filter]. rewrite IH. destruct (1 <? n) eqn:E; destruct (n =? 1) eqn:E1; cbn [negb]; try reflexivity; lia.
  - rewrite axes_nav by exact H. unfold kept. f_equal. apply filter_ext. intro b. rewrite Z.sub_0_r. reflexivity.
Qed.
Example ex_C65 : axes [0; 2] [4; 1; 5; 6] = [(4, 0, true); (5, 1, true); (6, 2, false)] /\ kept [4; 1; 5; 6] = [0; 2; 3].
Proof. split; reflexivity. Qed.
(** Axes of size zero are kept in the data but have no axis. *)
Theorem C65_empty_refuted : exists sh, map (fun x => fst (fst x)) (axes [] sh) <> filter (fun n => negb (n =? 1)) sh.
Proof. exists [0; 3]. discriminate. Qed.

Print Assumptions C61_inspect.
Print Assumptions C61_lazy.
Print Assumptions C61_fortran_refuted.
Print Assumptions C65_axes.
Print Assumptions C65_empty_refuted.
