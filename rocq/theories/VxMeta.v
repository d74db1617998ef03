(** Properties C126 (dates), C127 (spectrum images of EELS) and C128 (metadata) of Velox files. *)
From Coq Require Import QArith.
From Verif Require Import Base Text Utf8 HierModel HierProps SfsModel RowMajor Dict MsaWrite SurFloat RenModel RenMeta FeiModel VxModel VxProps VxImage.
Local Open Scope Z_scope.

(** * Specification *)
(** a fraction of a second, in microseconds *)
Definition six (f : Z) : pystr := two (f / 10000) ++ two (f / 100 mod 100) ++ two (f mod 100).
Definition date_text (y m d : Z) : pystr := four y ++ str "-" ++ two m ++ str "-" ++ two d.
Definition clock_text (h mi s f : Z) : pystr := two h ++ str ":" ++ two mi ++ str ":" ++ two s ++ (if f =? 0 then [] else str "." ++ six f).
(** microseconds from the beginning of 1970, of a date and a time *)
Definition moment (y m d h mi s f : Z) : Z := ((day_number y m d - day_number 1970 1 1) * 86400 + h * 3600 + mi * 60 + s) * 1000000 + f.
Definition time_ok (h mi s f : Z) : Prop := 0 <= h < 24 /\ 0 <= mi < 60 /\ 0 <= s < 60 /\ 0 <= f < 1000000.

Lemma digits_six : forall f, 0 <= f < 1000000 -> digits 6 f = six f.
Proof.
  intros f H. unfold six, two. cbn [app]. unfold digits. change (rev (zseq 0 6)) with [5; 4; 3; 2; 1; 0]. cbn [map].
  change (10 ^ 5) with 100000. change (10 ^ 4) with 10000. change (10 ^ 3) with 1000. change (10 ^ 2) with 100. change (10 ^ 1) with 10. change (10 ^ 0) with 1. rewrite Z.div_1_r.
  assert (A : f / 100000 mod 10 = f / 10000 / 10) by lia. assert (B : f / 1000 mod 10 = f / 100 mod 100 / 10) by lia. assert (C : f / 100 mod 10 = (f / 100 mod 100) mod 10) by lia.
  assert (D : f / 10 mod 10 = f mod 100 / 10) by lia. assert (F : f mod 10 = (f mod 100) mod 10) by lia. rewrite A, B, C, D, F. reflexivity.
Qed.

Section Meta.
Variable E : env.
(** * Dates *)
Lemma datetime : forall q y m d h mi s f offset, date_ok y m d -> 1 <= y <= 9999 -> time_ok h mi s f ->
  offset = e_offset E (round_div (Qnum q * 1000000) (Zpos (Qden q)) / 1000000) ->
  round_div (Qnum q * 1000000) (Zpos (Qden q)) + offset * 1000000 = moment y m d h mi s f ->
  convert_datetime E q = Ok (date_text y m d, clock_text h mi s f ++ (if offset <? 0 then zone_text offset else [])).
Proof.
  intros q y m d h mi s f offset D Y (Hh & Hm & Hs & Hf) O H. unfold convert_datetime. cbv zeta. rewrite <- O, H. unfold moment. change (day_number 1970 1 1) with 134774.
  set (t := h * 3600 + mi * 60 + s). assert (T : 0 <= t < 86400) by lia.
  replace (((day_number y m d - 134774) * 86400 + h * 3600 + mi * 60 + s) * 1000000 + f) with ((day_number y m d - 134774) * 86400000000 + (t * 1000000 + f)) by lia.
  replace (((day_number y m d - 134774) * 86400000000 + (t * 1000000 + f)) / 86400000000) with (day_number y m d - 134774) by (rewrite Z.div_add_l by discriminate; rewrite (Z.div_small (t * 1000000 + f)); [apply eq_sym, Z.add_0_r|split; lia]).
  replace (((day_number y m d - 134774) * 86400000000 + (t * 1000000 + f)) mod 86400000000) with (t * 1000000 + f) by (generalize (day_number y m d); intro; lia).
  replace (day_number y m d - 134774 + 134774) with (day_number y m d) by lia. rewrite C84_calendar by exact D.
  replace ((1 <=? y) && (y <=? 9999)) with true by lia.
  replace ((t * 1000000 + f) / 1000000) with t by lia. replace ((t * 1000000 + f) mod 1000000) with f by lia.
  replace (t / 3600) with h by lia. replace (t / 60 mod 60) with mi by lia. replace (t mod 60) with s by lia.
  assert (Hd : 1 <= m <= 12 /\ 1 <= d <= 31). { split; [exact (proj1 D)|]. destruct D as [A B]. split; [lia|]. unfold month_days in B. repeat match type of B with context [if ?b then _ else _] => destruct b end; lia. }
  unfold date_text, clock_text. rewrite digits_four by lia. rewrite !digits_two by lia. rewrite digits_six by lia. rewrite !app_assoc. reflexivity.
Qed.
(** Local date and time, to the microsecond, where local time is not behind UTC *)
Theorem C126_date : forall q y m d h mi s f offset, date_ok y m d -> 1 <= y <= 9999 -> time_ok h mi s f ->
  offset = e_offset E (round_div (Qnum q * 1000000) (Zpos (Qden q)) / 1000000) -> 0 <= offset ->
  round_div (Qnum q * 1000000) (Zpos (Qden q)) + offset * 1000000 = moment y m d h mi s f -> convert_datetime E q = Ok (date_text y m d, clock_text h mi s f).
Proof. intros q y m d h mi s f offset D Y T O P H. rewrite (datetime q y m d h mi s f offset D Y T O H). replace (offset <? 0) with false by lia. rewrite app_nil_r. reflexivity. Qed.
(** Behind UTC the time is followed by the zone: it is never the time alone *)
Theorem C126_west_refuted : forall q y m d h mi s f offset, date_ok y m d -> 1 <= y <= 9999 -> time_ok h mi s f ->
  offset = e_offset E (round_div (Qnum q * 1000000) (Zpos (Qden q)) / 1000000) -> offset < 0 ->
  round_div (Qnum q * 1000000) (Zpos (Qden q)) + offset * 1000000 = moment y m d h mi s f ->
  exists z, convert_datetime E q = Ok (date_text y m d, clock_text h mi s f ++ 45 :: z) /\ convert_datetime E q <> Ok (date_text y m d, clock_text h mi s f).
Proof.
  intros q y m d h mi s f offset D Y T O P H. rewrite (datetime q y m d h mi s f offset D Y T O H). unfold zone_text. cbv zeta. replace (offset <? 0) with true by lia. eexists. split; [reflexivity|].
  intro F. apply (f_equal (fun r => match r with Ok p => List.length (snd p) | Err _ => 0%nat end)) in F. cbn beta iota in F. unfold snd in F. rewrite app_length in F. change (str "-") with [45] in F. cbn [app List.length] in F. lia.
Qed.
(** Which moment: the start of the acquisition in seconds, else the time stamp of the camera in microseconds, else none *)
Theorem C126_start : forall om a d s t q, lookup (str "Acquisition") om = Some (JDict a) -> lookup (str "AcquisitionStartDatetime") a = Some (JDict s) -> lookup (str "DateTime") s = Some (JStr t) -> e_float E t = Some q ->
  d = om -> unix_time E d = Ok (Some q).
Proof. intros om a d s t q A S T Q ->. unfold unix_time. cbn [item]. rewrite A. cbn [bind entries]. rewrite S. cbn [bind item]. rewrite T. cbn [bind float_of]. rewrite Q. reflexivity. Qed.
Theorem C126_camera : forall om a p v t q, lookup (str "Acquisition") om = Some (JDict a) -> lookup (str "AcquisitionStartDatetime") a = None -> lookup (str "CustomProperties") om = Some (JDict p) ->
  lookup (str "Detectors[BM-Ceta].TimeStamp") p = Some (JDict v) -> lookup (str "value") v = Some (JStr t) -> e_float E t = Some q ->
  exists r, unix_time E om = Ok (Some r) /\ (r * 1000000 == q)%Q.
Proof.
  intros om a p v t q A S P D V Q. exists (q / 1000000)%Q. unfold unix_time. cbn [item]. rewrite A. cbn [bind entries]. rewrite S. rewrite P. cbn [bind entries]. rewrite D. cbn [bind item]. rewrite V. cbn [bind float_of]. rewrite Q. split; [reflexivity|].
  unfold Qdiv. rewrite <- Qmult_assoc, (Qmult_comm (/ 1000000)), Qmult_inv_r by (intro F; discriminate F). apply Qmult_1_r.
Qed.
Theorem C126_none : forall om a, lookup (str "Acquisition") om = Some (JDict a) -> lookup (str "AcquisitionStartDatetime") a = None ->
  (exists s, lookup (str "CustomProperties") om = Some (JStr s)) \/ (exists p, lookup (str "CustomProperties") om = Some (JDict p) /\ lookup (str "Detectors[BM-Ceta].TimeStamp") p = None) ->
  forall c det ty, metadata_of E c det ty om = Ok {| m_file := basename (c_file c); m_title := det; m_date := None; m_signal := ty |}.
Proof.
  intros om a A S P c det ty. unfold metadata_of, unix_time. cbn [item]. rewrite A. cbn [bind entries]. rewrite S.
  destruct P as [(s & P)|(p & P & Q)]; rewrite P; cbn [bind entries]; [reflexivity|rewrite Q; reflexivity].
Qed.
(** An acquisition without a date and without custom properties cannot be read *)
Theorem C126_missing : forall om a c det ty, lookup (str "Acquisition") om = Some (JDict a) -> lookup (str "AcquisitionStartDatetime") a = None -> lookup (str "CustomProperties") om = None -> metadata_of E c det ty om = Err KeyError.
Proof. intros om a c det ty A S P. unfold metadata_of, unix_time. cbn [item]. rewrite A. cbn [bind entries]. rewrite S, P. reflexivity. Qed.

(** * Spectrum images of EELS *)
Lemma eels_parts : forall c sx ox u v e g, read_eels E c (sx, ox, u, v) e = Ok g -> exists shape flat axes q0 q om,
  match el_shape e with
  | [a; b; n] => exists sy oy, v = Some (sy, oy) /\ shape = [n; a; b] /\ flat = roll 0 a b n (el_flat e) /\
      axes = [ax (Some 1) (str "y") oy (Some sy) n (Some u) true; ax (Some 0) (str "x") ox (Some sx) a (Some u) true]
  | [a; b] => shape = [a; b] /\ flat = el_flat e /\ axes = [ax (Some 0) (str "x") ox (Some sx) a (Some u) true]
  | _ => False
  end /\
  (exists acq d, parse_metadata E (el_acquisition e) = Ok acq /\ item acq (str "Data") = Ok d /\ number_at E d "offset" q0 /\ number_at E d "dispersion" q) /\
  s_data g = Arr shape (map Real flat) [] /\ s_axes g = axes ++ [ax (Some (zlen shape - 1)) (str "Energy-loss") q0 (Some q) (last shape 0) (Some (str "eV")) false] /\
  s_md g = {| m_file := c_file c; m_title := Some (JStr (str "EELS")); m_date := None; m_signal := str "EELS" |} /\ parse_metadata E (el_meta e) = Ok (JDict om) /\ s_om g = om.
Proof.
  intros c sx ox u v e g H. unfold read_eels in H. destruct (el_shape e) as [|a [|b [|n [|k l]]]] eqn:SH; cbn [bind] in H; try discriminate.
  - repeat step H. injection H as <-. cbn [s_data s_axes s_md s_om].
    match goal with X : entries ?j = Ok ?d |- _ => destruct j; try discriminate X; injection X as X; subst end. do 6 eexists. split; [split; [reflexivity|split; reflexivity]|].
    split; [match goal with A : parse_metadata E (el_acquisition e) = Ok ?x, B : item ?x (str "Data") = Ok ?y |- _ => exists x, y end; split; [reflexivity|]; split; [assumption|]; split; eexists; (split; [eassumption|]); eassumption|]. repeat (split; [first [reflexivity|eassumption]|]). reflexivity.
  - destruct v as [[sy oy]|]; cbn [bind] in H; [|discriminate]. repeat step H. injection H as <-. cbn [s_data s_axes s_md s_om].
    match goal with X : entries ?j = Ok ?d |- _ => destruct j; try discriminate X; injection X as X; subst end. do 6 eexists. split; [exists sy, oy; repeat (split; [reflexivity|]); reflexivity|].
    split; [match goal with A : parse_metadata E (el_acquisition e) = Ok ?x, B : item ?x (str "Data") = Ok ?y |- _ => exists x, y end; split; [reflexivity|]; split; [assumption|]; split; eexists; (split; [eassumption|]); eassumption|]. repeat (split; [first [reflexivity|eassumption]|]). reflexivity.
Qed.
(** A cube stored as (y, energy, x) becomes (x, y, energy): element by element *)
Theorem C127_data : forall c cal e g a b n, read_eels E c cal e = Ok g -> el_shape e = [a; b; n] -> 0 <= a -> 0 <= b -> 0 <= n ->
  exists flat, s_data g = Arr [n; a; b] flat [] /\ Z.of_nat (List.length flat) = n * a * b /\
    forall k i j, 0 <= k < n -> 0 <= i < a -> 0 <= j < b -> element (Real 0) [n; a; b] [k; i; j] flat = Real (element 0 [a; b; n] [i; j; k] (el_flat e)).
Proof.
  intros c [[[sx ox] u] v] e g a b n H SH Ha Hb Hn. destruct (eels_parts _ _ _ _ _ _ _ H) as (shape & flat & axes & q0 & q & om & P & _ & D & _). rewrite SH in P. destruct P as (sy & oy & _ & -> & -> & _).
  eexists. split; [exact D|]. split; [rewrite map_length; apply roll_length; assumption|]. intros k i j Hk Hi Hj. unfold element.
  replace (row_major [n; a; b] [k; i; j]) with ((k * a + i) * b + j) by (cbn [row_major prodZ fold_right]; ring). replace (row_major [a; b; n] [i; j; k]) with ((i * b + j) * n + k) by (cbn [row_major prodZ fold_right]; ring).
  change (Real 0) with ((fun z => Real z) 0). rewrite map_nth. f_equal. apply nth_error_nth. apply roll_nth; assumption.
Qed.
(** and a line stored as (x, energy) is kept *)
Theorem C127_line : forall c cal e g a b, read_eels E c cal e = Ok g -> el_shape e = [a; b] ->
  s_data g = Arr [a; b] (map Real (el_flat e)) [] /\ map x_size (s_axes g) = [a; b] /\ map x_index (s_axes g) = [Some 0; Some 1] /\ map x_navigate (s_axes g) = [true; false].
Proof.
  intros c [[[sx ox] u] v] e g a b H SH. destruct (eels_parts _ _ _ _ _ _ _ H) as (shape & flat & axes & q0 & q & om & P & _ & D & AX & _). rewrite SH in P. destruct P as (-> & -> & ->). rewrite AX. repeat (split; [first [exact D|reflexivity]|]). reflexivity.
Qed.
(** The axes of a cube have the places 1, 0, 2 and the sizes of the places 0, 1, 2: they fit the array only when the first two sizes agree *)
Theorem C127_axes : forall c cal e g a b n, read_eels E c cal e = Ok g -> el_shape e = [a; b; n] ->
  map x_index (s_axes g) = [Some 1; Some 0; Some 2] /\ map x_name (s_axes g) = [str "y"; str "x"; str "Energy-loss"] /\ map x_size (s_axes g) = [n; a; b] /\ map x_navigate (s_axes g) = [true; true; false].
Proof.
  intros c [[[sx ox] u] v] e g a b n H SH. destruct (eels_parts _ _ _ _ _ _ _ H) as (shape & flat & axes & q0 & q & om & P & _ & D & AX & _). rewrite SH in P. destruct P as (sy & oy & _ & -> & -> & ->). rewrite AX. repeat (split; [reflexivity|]). reflexivity.
Qed.
Definition axes_fit (shape : list Z) (axes : list axis) : Prop := forall x i, In x axes -> x_index x = Some i -> nth (Z.to_nat i) shape (-1) = x_size x.
Theorem C127_fit : forall c cal e g a b n, read_eels E c cal e = Ok g -> el_shape e = [a; b; n] -> (axes_fit [n; a; b] (s_axes g) <-> n = a).
Proof.
  intros c [[[sx ox] u] v] e g a b n H SH. destruct (eels_parts _ _ _ _ _ _ _ H) as (shape & flat & axes & q0 & q & om & P & _ & D & AX & _). rewrite SH in P. destruct P as (sy & oy & _ & -> & -> & ->). rewrite AX. unfold axes_fit. split.
  - intro F. specialize (F _ 1 (or_introl eq_refl) eq_refl). change (a = n) in F. congruence.
  - intros -> x i I X. cbn [app In] in I. destruct I as [<-|[<-|[<-|[]]]]; cbn [ax x_index] in X; injection X as <-; reflexivity.
Qed.
(** Energies, from the settings of the acquisition *)
Theorem C127_energy : forall c cal e g acq d q0 q, read_eels E c cal e = Ok g -> parse_metadata E (el_acquisition e) = Ok acq -> item acq (str "Data") = Ok d -> number_at E d "offset" q0 -> number_at E d "dispersion" q ->
  exists l x, s_axes g = l ++ [x] /\ x_offset x = q0 /\ x_scale x = Some q /\ x_units x = Some (str "eV") /\ x_name x = str "Energy-loss" /\ x_navigate x = false.
Proof.
  intros c [[[sx ox] u] v] e g acq d q0 q H A D (v0 & V0 & F0) (v1 & V1 & F1). destruct (eels_parts _ _ _ _ _ _ _ H) as (shape & flat & axes & r0 & r & om & P & (acq' & d' & A' & D' & (w0 & W0 & G0) & (w1 & W1 & G1)) & _ & AX & _).
  rewrite A in A'. injection A' as <-. rewrite D in D'. injection D' as <-. rewrite V0 in W0. injection W0 as <-. rewrite F0 in G0. injection G0 as <-. rewrite V1 in W1. injection W1 as <-. rewrite F1 in G1. injection G1 as <-.
  rewrite AX. do 2 eexists. split; [reflexivity|]. repeat split.
Qed.
Theorem C127_title : forall c cal e g, read_eels E c cal e = Ok g -> m_title (s_md g) = Some (JStr (str "EELS")) /\ m_signal (s_md g) = str "EELS" /\ m_date (s_md g) = None /\ m_file (s_md g) = c_file c.
Proof. intros c [[[sx ox] u] v] e g H. destruct (eels_parts _ _ _ _ _ _ _ H) as (shape & flat & axes & q0 & q & om & _ & _ & _ & _ & M & _). rewrite M. repeat split. Qed.
(** One cube for each, in order; a group of EELS needs a spectrum image for its calibration *)
Theorem C127_all : forall c d s s' l, read_eels_images E c d s = Ok s' -> d_eels d = Some l ->
  exists gs, r_out s' = r_out s ++ gs /\ List.length gs = List.length l /\ exists cal, Forall2 (fun p g => read_eels E c cal (snd p) = Ok g) l gs.
Proof.
  intros c d s s' l H D. unfold read_eels_images in H. rewrite D in H. step H. step H. rename v0 into cal. clear Ev Ev0 D. revert s H. induction l as [|[k e] l IH]; intros s H; cbn [eels_loop] in H.
  - injection H as <-. exists []. rewrite app_nil_r. repeat split. exists cal. constructor.
  - step H. destruct (IH _ H) as (gs & A & B & (cal' & F)). cbn [emit r_out] in A.
    assert (FF : exists gs, r_out s' = r_out (emit v0 s) ++ gs /\ Forall2 (fun p g => read_eels E c cal (snd p) = Ok g) l gs).
    { clear - H. revert H. generalize (emit v0 s). induction l as [|[k e] l IH]; intros s0 H; cbn [eels_loop] in H; [injection H as <-; exists []; rewrite app_nil_r; split; [reflexivity|constructor]|].
      step H. destruct (IH _ H) as (gs & A & F). exists (v :: gs). cbn [emit r_out] in A |- *. split; [rewrite A, <- app_assoc; reflexivity|]. constructor; assumption. }
    destruct FF as (gs' & A' & F'). cbn [emit r_out] in A'. exists (v0 :: gs'). split; [rewrite A', <- app_assoc; reflexivity|]. split; [cbn; f_equal; clear - F'; induction F'; cbn; congruence|]. exists cal. constructor; [assumption|exact F'].
Qed.

(** * Metadata *)
Lemma lstrip_keep : forall n s, (forall r, s <> 0 :: r) -> lstrip_nul (repeat 0 n ++ s) = s.
Proof. induction n as [|n IH]; intros s H; cbn [repeat app lstrip_nul]; [|exact (IH s H)]. destruct s as [|c s]; [reflexivity|]. cbn [lstrip_nul]. destruct (c =? 0) eqn:Z; [|reflexivity]. apply Z.eqb_eq in Z. subst. exfalso. exact (H s eq_refl). Qed.
(** NULs after the text of metadata are ignored *)
Theorem C128_nul : forall s b n, utf8_encode s = Ok b -> (forall r, s <> r ++ [0]) -> parse_metadata E (b ++ repeat 0 n) = e_json E s.
Proof.
  intros s b n H N. assert (H0 : utf8_encode (s ++ repeat 0 n) = Ok (b ++ repeat 0 n)).
  { unfold utf8_encode in *. rewrite forallb_app. destruct (forallb scalar s); [|discriminate]. injection H as <-. replace (forallb scalar (repeat 0 n)) with true by (induction n as [|n IH]; [reflexivity|exact IH]). cbn [andb]. rewrite flat_map_app. do 2 f_equal.
    induction n as [|n IH]; [reflexivity|]. cbn [repeat flat_map]. rewrite IH. reflexivity. }
  unfold parse_metadata. rewrite (utf8_round_trip _ _ H0). cbn [bind]. unfold rstrip_nul. rewrite rev_app_distr.
  replace (rev (repeat 0 n)) with (repeat 0 n).
  - rewrite lstrip_keep; [rewrite rev_involutive; reflexivity|]. intros r R. apply (f_equal (@rev Z)) in R. rewrite rev_involutive in R. cbn [rev] in R. exact (N _ R).
  - clear. induction n as [|n IH]; [reflexivity|]. cbn [repeat rev]. rewrite <- IH. clear IH. induction n as [|n IH]; [reflexivity|]. cbn [repeat app]. f_equal. exact IH.
Qed.
(** The original metadata of an image: its own, but for the keys of the groups of the file *)
Lemma lookup_update : forall e d k, NoDup (map fst e) -> lookup k (update d e) = match lookup k e with Some v => Some v | None => lookup k d end.
Proof.
  unfold update. induction e as [|[k' v] e IH]; intros d k ND; [reflexivity|]. cbn [fold_left fst snd map] in *. inversion ND as [|? ? N1 N2]; subst. rewrite IH by exact N2. rewrite lookup_put. cbn [lookup]. destruct (eqb_str k k') eqn:K; [|reflexivity].
  apply eqb_str_spec in K. subst. destruct (lookup k' e) as [w|] eqn:L; [|reflexivity]. apply lookup_some_in in L. exfalso. apply N1. apply in_map_iff. exists (k', w). split; [reflexivity|exact L].
Qed.
Theorem C128_original : forall c b om own, original E c b = Ok om -> parse_metadata E b = Ok (JDict own) -> NoDup (map fst (c_groups c)) ->
  forall k, lookup k om = match lookup k (c_groups c) with Some v => Some v | None => lookup k own end.
Proof. intros c b om own H P N k. unfold original in H. rewrite P in H. cbn [bind entries] in H. injection H as <-. apply lookup_update. exact N. Qed.
(** A group of metadata: the entries up to the first that holds no text, each under its name *)
Definition entry_value (e : entry) : res json := match e with Cells c => first_cell E c | Sub l => let! d := sub_cells E l [] in Ok (JDict d) end.
Lemma put_absent : forall A k (v : A) d, ~ In k (map fst d) -> put k v d = d ++ [(k, v)].
Proof.
  intros A k v. induction d as [|[k' w] d IH]; intro N; [reflexivity|]. cbn [put map fst In] in *. destruct (eqb_str k k') eqn:K; [apply eqb_str_spec in K; subst; exfalso; apply N; left; reflexivity|]. cbn [app]. f_equal. apply IH. tauto.
Qed.
Lemma group_loop : forall l d d', metadata_group E l d = Ok d' -> NoDup (map fst d ++ map fst l) ->
  exists read rest vs, l = read ++ rest /\ d' = d ++ vs /\ map fst vs = map fst read /\ Forall2 (fun p v => entry_value (snd p) = Ok (snd v)) read vs /\
    match rest with [] => True | (_, e) :: _ => entry_value e = Err IndexError end.
Proof.
  induction l as [|[k e] l IH]; intros d d' H ND; cbn [metadata_group] in H.
  - injection H as <-. exists [], [], []. split; [reflexivity|]. split; [rewrite app_nil_r; reflexivity|]. repeat split. constructor.
  - change (match entry_value e with Ok v => metadata_group E l (put k v d) | Err IndexError => Ok d | Err e => Err e end = Ok d') in H.
    destruct (entry_value e) as [v|x] eqn:V.
    + cbn [map fst] in ND. assert (NI : ~ In k (map fst d)) by (intro I; apply NoDup_remove_2 in ND; apply ND; apply in_or_app; left; exact I).
      rewrite put_absent in H by exact NI. destruct (IH _ _ H) as (rd & rest & vs & A & B & C & D & F). { rewrite map_app. cbn [map fst]. rewrite <- app_assoc. exact ND. }
      exists ((k, e) :: rd), rest, ((k, v) :: vs). split; [cbn; congruence|]. split; [rewrite B, <- app_assoc; reflexivity|]. split; [cbn; congruence|]. split; [constructor; assumption|exact F].
    + destruct x; try discriminate. injection H as <-. exists [], ((k, e) :: l), []. split; [reflexivity|]. split; [rewrite app_nil_r; reflexivity|]. repeat (split; [first [reflexivity|constructor]|]). exact V.
Qed.
Theorem C128_group : forall l d, metadata_group E l [] = Ok d -> NoDup (map fst l) ->
  exists read rest, l = read ++ rest /\ map fst d = map fst read /\ Forall2 (fun p v => entry_value (snd p) = Ok (snd v)) read d /\
    match rest with [] => True | (_, e) :: _ => entry_value e = Err IndexError end.
Proof. intros l d H N. destruct (group_loop l [] d H N) as (read & rest & vs & A & B & C & D & F). cbn [app] in B. subst. exists read, rest. repeat (split; [first [reflexivity|assumption]|]). exact F. Qed.
Definition of_version (z : Z) : fixed :=
  {| c_opt := {| o_lazy := false; o_select := None; o_first := 0; o_last := None; o_sum_frames := true; o_sum_detectors := true; o_rebin := 1; o_dtype := None; o_stack := false |};
     c_file := []; c_version := JInt z; c_stream := true; c_image := false; c_groups := []; c_labels := [] |}.
Definition has_key (k : string) (m : mapping) : bool := existsb (eqb_str (str k)) (map fst m).
Definition checked (m : res mapping) (individual new old : bool) : bool :=
  match m with
  | Ok m => Bool.eqb (has_key "DetectorMetadata.DetectorName" m) individual && Bool.eqb (has_key "SharedProperties.EDSSpectrumQuantificationSettings" m) new &&
            Bool.eqb (has_key "Operations.ImageQuantificationOperation" m) old && nodupb (map fst m) && nodupb (map (fun p => fst (snd p)) m)
  | Err _ => false
  end.
Lemma all_checked : forallb (fun i => checked (mapping_of (of_version 11) true i) i true false && checked (mapping_of (of_version 10) true i) i false true && checked (mapping_of (of_version 11) false i) i false false) [true; false] = true.
Proof. vm_compute. reflexivity. Qed.
Lemma mapping_version : forall c c' i v v', int_of (c_version c) = Ok v -> int_of (c_version c') = Ok v' -> (11 <=? v) = (11 <=? v') -> mapping_of c true i = mapping_of c' true i.
Proof. intros c c' i v v' V V' S. unfold mapping_of. rewrite V, V'. cbn [bind]. rewrite S. reflexivity. Qed.
Lemma mapping_checked : forall c e i m, mapping_of c e i = Ok m -> exists new old, checked (Ok m) i new old = true /\
  (new = true <-> e = true /\ exists v, int_of (c_version c) = Ok v /\ 11 <= v) /\ (old = true <-> e = true /\ exists v, int_of (c_version c) = Ok v /\ v < 11).
Proof.
  intros c e i m H. pose proof all_checked as A. rewrite forallb_forall in A. specialize (A i ltac:(destruct i; cbn; tauto)). apply andb_prop in A. destruct A as [A A3]. apply andb_prop in A. destruct A as [A1 A2]. destruct e.
  - destruct (int_of (c_version c)) as [v|x] eqn:V; [|unfold mapping_of in H; rewrite V in H; discriminate]. destruct (11 <=? v) eqn:L.
    + exists true, false. rewrite <- H, (mapping_version c (of_version 11) i v 11 V eq_refl L). split; [exact A1|]. split; split; intro X; try discriminate; try reflexivity; [split; [reflexivity|exists v; split; [reflexivity|lia]]|].
      destruct X as (_ & v' & V' & Q). injection V' as <-. lia.
    + exists false, true. rewrite <- H, (mapping_version c (of_version 10) i v 10 V eq_refl L). split; [exact A2|]. split; split; intro X; try discriminate; try reflexivity; [|split; [reflexivity|exists v; split; [reflexivity|lia]]].
      destruct X as (_ & v' & V' & Q). injection V' as <-. lia.
  - exists false, false. rewrite <- H. split; [exact A3|]. split; split; intro X; try discriminate; discriminate (proj1 X).
Qed.
(** The rows for the mapped metadata: always the same first ones, then those of a single detector, then the elements by version *)
Theorem C128_mapping : forall c elements individual m, mapping_of c elements individual = Ok m ->
  (In (str "DetectorMetadata.DetectorName") (map fst m) <-> individual = true) /\
  (In (str "SharedProperties.EDSSpectrumQuantificationSettings") (map fst m) <-> elements = true /\ exists v, int_of (c_version c) = Ok v /\ 11 <= v) /\
  (In (str "Operations.ImageQuantificationOperation") (map fst m) <-> elements = true /\ exists v, int_of (c_version c) = Ok v /\ v < 11) /\
  NoDup (map fst m) /\ NoDup (map (fun p => fst (snd p)) m).
Proof.
  intros c elements individual m H. destruct (mapping_checked c elements individual m H) as (new & old & C & N & O). clear H. unfold checked in C. repeat (apply andb_prop in C; destruct C as [C ?]).
  repeat match goal with X : Bool.eqb _ _ = true |- _ => apply eqb_prop in X end.
  assert (M : forall k, In (str k) (map fst m) <-> has_key k m = true).
  { intros k. unfold has_key. rewrite existsb_exists. split; [intro I; exists (str k); split; [exact I|apply eqb_str_refl]|intros (y & I & Y); apply eqb_str_spec in Y; subst; exact I]. }
  split; [rewrite M, C; reflexivity|]. split; [rewrite M, <- N; match goal with X : has_key _ m = new |- _ => rewrite X end; reflexivity|].
  split; [rewrite M, <- O; match goal with X : has_key _ m = old |- _ => rewrite X end; reflexivity|]. split; apply nodup_str; assumption.
Qed.
End Meta.
(** Elements: a name for each number from 1 to 119, all different, and no other *)
Theorem C128_elements : forall z, (1 <= z <= 119 -> exists s, element_name (JInt z) = Ok s) /\ (~ 1 <= z <= 119 -> element_name (JInt z) = Err KeyError).
Proof.
  intro z. unfold element_name. cbn [int_of bind]. split; intro H.
  - assert (A : forallb (fun z => match zlookup z atomic_number2name with Some _ => true | None => false end) (zseq 1 119) = true) by (vm_compute; reflexivity).
    rewrite forallb_forall in A. specialize (A z ltac:(apply in_zseq; lia)). destruct (zlookup z atomic_number2name); [eexists; reflexivity|discriminate].
  - destruct (zlookup z atomic_number2name) as [s|] eqn:L; [|reflexivity]. exfalso. apply H.
    assert (B : forall l : list (Z * string), forallb (fun p => (1 <=? fst p) && (fst p <=? 119)) l = true -> forall s, zlookup z l = Some s -> 1 <= z <= 119).
    { clear. induction l as [|[i a] l IH]; intros F s S; cbn [zlookup forallb fst] in *; [discriminate|]. apply andb_prop in F. destruct F as [F1 F2]. destruct (i =? z) eqn:I; [lia|exact (IH F2 s S)]. }
    exact (B atomic_number2name ltac:(vm_compute; reflexivity) s L).
Qed.
Theorem C128_elements_differ : forall a b s, element_name (JInt a) = Ok s -> element_name (JInt b) = Ok s -> a = b.
Proof.
  intros a b s A B. unfold element_name in *. cbn [int_of bind] in *.
  assert (R : forall z, element_name (JInt z) = Ok s -> 1 <= z <= 119) by (intros z Z; destruct (Z_lt_dec z 1); [rewrite (proj2 (C128_elements z)) in Z by lia; discriminate|destruct (Z_lt_dec 119 z); [rewrite (proj2 (C128_elements z)) in Z by lia; discriminate|lia]]).
  pose proof (R a A) as Ra. pose proof (R b B) as Rb.
  assert (N : forallb (fun a => forallb (fun b => (a =? b) || match zlookup a atomic_number2name, zlookup b atomic_number2name with Some x, Some y => negb (eqb_str (str x) (str y)) | _, _ => false end) (zseq 1 119)) (zseq 1 119) = true) by (vm_compute; reflexivity).
  rewrite forallb_forall in N. specialize (N a ltac:(apply in_zseq; lia)). cbn beta in N. rewrite forallb_forall in N. specialize (N b ltac:(apply in_zseq; lia)). cbn beta in N.
  destruct (zlookup a atomic_number2name) as [x|]; [|discriminate]. destruct (zlookup b atomic_number2name) as [y|]; [|discriminate]. apply orb_prop in N. destruct N as [N|N]; [lia|]. exfalso.
  injection A as A. injection B as B. rewrite A, B, eqb_str_refl in N. discriminate.
Qed.
Print Assumptions C126_date.
Print Assumptions C126_west_refuted.
Print Assumptions C126_start.
Print Assumptions C126_camera.
Print Assumptions C126_none.
Print Assumptions C126_missing.
Print Assumptions C127_data.
Print Assumptions C127_line.
Print Assumptions C127_axes.
Print Assumptions C127_fit.
Print Assumptions C127_energy.
Print Assumptions C127_title.
Print Assumptions C127_all.
Print Assumptions C128_nul.
Print Assumptions C128_original.
Print Assumptions C128_group.
Print Assumptions C128_mapping.
Print Assumptions C128_elements.
Print Assumptions C128_elements_differ.
