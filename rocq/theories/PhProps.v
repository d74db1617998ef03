(** C106: numbers, texts, lists and the metadata of a detector are read from a Phenom ELID file as they are stored there,
    and reading goes on behind them. *)
From Coq Require Import QArith ZifyBool.
From Verif Require Import Base Text Bytes Utf8 HierModel XmlModel ArrayModel PhModel.
Local Open Scope Z_scope.

(** * How things are stored *)
Definition u8 (n : Z) : list Z := [n].
Definition u32 (n : Z) : list Z := le 4 n.
Definition i32 (n : Z) : list Z := le 4 (n mod 2 ^ 32).
Definition w64 (w : Z) : list Z := le 8 w.
Definition flag (b : bool) : list Z := [if b then 1 else 0].
Definition text (s : pystr) : list Z := u32 (Z.of_nat (List.length (flat_map utf8_char s))) ++ flat_map utf8_char s.
Definition listed {A} (enc : A -> list Z) (l : list A) : list Z := u32 (Z.of_nat (List.length l)) ++ flat_map enc l.
(** seven bits for each byte, the lowest ones first; all bytes but the last have the highest bit set *)
Fixpoint weigh (l : list Z) : Z := match l with [] => 0 | b :: l => b mod 128 + 128 * weigh l end.
Definition septets (l : list Z) (c : Z) : Prop := Forall (fun b => 128 <= b < 256) l /\ 0 <= c < 128.
Fixpoint var (fuel : nat) (n : Z) : list Z := match fuel with O => [] | S fuel => if n <? 128 then [n] else (n mod 128 + 128) :: var fuel (n / 128) end.
Definition varint (n : Z) : list Z := var (S (Z.to_nat (Z.log2 n))) n.

Definition small (bits : Z) (n : Z) : Prop := 0 <= n < 2 ^ bits.
Definition text_ok (s : pystr) : Prop := forallb scalar s = true /\ small 32 (Z.of_nat (List.length (flat_map utf8_char s))).
Definition few {A} (l : list A) : Prop := small 32 (Z.of_nat (List.length l)).

(** a reader of [x] from its encoding, whatever comes behind *)
Definition reads {A} (p : P A) (e : list Z) (x : A) : Prop := forall r, p (e ++ r) = Ok (x, r).

Lemma reads_ret : forall A (x : A), reads (ret x) [] x.
Proof. intros A x r. reflexivity. Qed.
Lemma reads_bind : forall A B (p : P A) (k : A -> P B) e e' x y, reads p e x -> reads (k x) e' y -> reads (pbind p k) (e ++ e') y.
Proof. intros A B p k e e' x y H K r. unfold pbind. rewrite <- app_assoc, H. apply K. Qed.
Lemma reads_last : forall A B (p : P A) (f : A -> B) e x, reads p e x -> reads (pbind p (fun a => ret (f a))) e (f x).
Proof. intros A B p f e x H r. unfold pbind. rewrite H. reflexivity. Qed.
Lemma reads_end : forall A B (p : P A) (k : A -> P B) e x y, reads p e x -> reads (k x) [] y -> reads (pbind p k) e y.
Proof. intros A B p k e x y H K r. unfold pbind. rewrite H. apply (K r). Qed.
Lemma reads_lift : forall A B (o : res A) (k : A -> P B) e x y, o = Ok x -> reads (k x) e y -> reads (pbind (lift o) k) e y.
Proof. intros A B o k e x y -> H r. unfold pbind, lift, ret. apply H. Qed.
Lemma reads_done : forall A (o : res A) x, o = Ok x -> reads (lift o) [] x.
Proof. intros A o x -> r. reflexivity. Qed.

Lemma read_front : forall n b r, List.length b = n -> read (Z.of_nat n) (b ++ r) = Ok (b, r).
Proof.
  intros n b r <-. unfold read. destruct (b ++ r) as [|c l] eqn:E.
  - apply app_eq_nil in E as [-> ->]. reflexivity.
  - rewrite <- E, Nat2Z.id, firstn_app, skipn_app, Nat.sub_diag, firstn_all, skipn_all. cbn. rewrite app_nil_r. reflexivity.
Qed.
Lemma exactly_front : forall n b, List.length b = n -> reads (exactly n) b b.
Proof. intros n b L r. unfold exactly, pbind. rewrite read_front by assumption. rewrite L, Nat.eqb_refl. reflexivity. Qed.

Lemma reads_u8 : forall n, reads read_uint8 (u8 n) n.
Proof. intros n r. unfold read_uint8, pbind. rewrite (exactly_front 1 (u8 n)) by reflexivity. cbn. unfold ret. f_equal. f_equal. lia. Qed.
Lemma reads_flag : forall b, reads read_bool (flag b) b.
Proof. intros b r. unfold read_bool, pbind. rewrite (exactly_front 1 (flag b)) by reflexivity. destruct b; reflexivity. Qed.
(** any byte but zero is true *)
Lemma reads_any_flag : forall c, is_byte c -> reads read_bool [c] (negb (c =? 0)).
Proof. intros c H r. unfold read_bool, pbind. rewrite (exactly_front 1 [c]) by reflexivity. unfold ret. cbn [le_val]. rewrite Z.mul_0_r, Z.add_0_r. reflexivity. Qed.
Lemma reads_u32 : forall n, small 32 n -> reads read_uint32 (u32 n) n.
Proof. intros n H r. unfold read_uint32, pbind. rewrite (exactly_front 4 (u32 n)) by reflexivity. unfold ret, u32. rewrite le_val_small by exact H. reflexivity. Qed.
Lemma i32_val : forall n, - 2 ^ 31 <= n < 2 ^ 31 -> signed 4 (le_val (i32 n)) = n.
Proof.
  intros n H. unfold i32. rewrite le_val_small by (change (256 ^ Z.of_nat 4) with (2 ^ 32); apply Z.mod_pos_bound; lia).
  change (2 ^ 32) with (256 ^ Z.of_nat 4). apply signed_mod; [lia|exact H].
Qed.
Lemma reads_i32 : forall n, - 2 ^ 31 <= n < 2 ^ 31 -> reads read_int32 (i32 n) n.
Proof.
  intros n H r. unfold read_int32, pbind. rewrite (exactly_front 4 (i32 n)) by reflexivity. unfold ret. rewrite i32_val by exact H. reflexivity.
Qed.
Lemma reads_f64 : forall f64 w, small 64 w -> reads (read_float64 f64) (w64 w) (f64 w).
Proof. intros f64 w H r. unfold read_float64, pbind. rewrite (exactly_front 8 (w64 w)) by reflexivity. unfold ret, w64. rewrite le_val_small by exact H. reflexivity. Qed.
Lemma reads_text : forall s, text_ok s -> reads read_string (text s) s.
Proof.
  intros s [H L] r. unfold read_string, text. unfold pbind at 1. rewrite <- app_assoc, reads_u32 by exact L.
  unfold pbind. rewrite read_front by reflexivity.
  rewrite (utf8_round_trip s) by (unfold utf8_encode; rewrite H; reflexivity). reflexivity.
Qed.
Lemma reads_times : forall A B (p : P A) (enc : B -> list Z) (f : B -> A) l, Forall (fun x => reads p (enc x) (f x)) l -> reads (times (List.length l) p) (flat_map enc l) (map f l).
Proof.
  induction 1 as [|x l Hx _ IH]; [apply reads_ret|]. cbn [List.length times flat_map map].
  apply (reads_bind _ _ p _ (enc x) _ (f x)); [exact Hx|]. rewrite <- (app_nil_r (flat_map enc l)). eapply reads_bind; [exact IH|]. apply reads_ret.
Qed.
Lemma reads_listed : forall A B (p : P A) (enc : B -> list Z) (f : B -> A) l, few l -> Forall (fun x => reads p (enc x) (f x)) l -> reads (counted p) (listed enc l) (map f l).
Proof. intros A B p enc f l L H. unfold counted, listed. eapply reads_bind; [apply reads_u32, L|]. rewrite Nat2Z.id. apply reads_times. exact H. Qed.

(** * Numbers of any length *)
Lemma varuint_more : forall l c r v s, septets l c -> 0 <= s -> small s v -> varuint v s (l ++ c :: r) = Ok (v + 2 ^ s * weigh (l ++ [c]), r).
Proof.
  assert (add : forall v s x, 0 <= s -> small s v -> 0 <= x -> Z.lor v (Z.shiftl x s) = v + 2 ^ s * x).
  { intros v s x Hs Hv Hx. rewrite Z.shiftl_mul_pow2 by lia. rewrite (Z.mul_comm (2 ^ s)), <- Z.lxor_lor, <- Z.add_nocarry_lxor; try reflexivity.
    - apply Z.bits_inj_0. intros i. rewrite Z.land_spec. destruct (Z.ltb_spec i s).
      + rewrite (Z.mul_pow2_bits_low x s i) by lia. apply andb_false_r.
      + unfold small in Hv. destruct (Z.eq_dec v 0) as [->|N]; [rewrite Z.bits_0; reflexivity|].
        rewrite (Z.bits_above_log2 v i); [reflexivity|lia|]. apply Z.lt_le_trans with s; [|lia]. apply Z.log2_lt_pow2; lia.
    - apply Z.bits_inj_0. intros i. rewrite Z.land_spec. destruct (Z.ltb_spec i s).
      + rewrite (Z.mul_pow2_bits_low x s i) by lia. apply andb_false_r.
      + unfold small in Hv. destruct (Z.eq_dec v 0) as [->|N]; [rewrite Z.bits_0; reflexivity|].
        rewrite (Z.bits_above_log2 v i); [reflexivity|lia|]. apply Z.lt_le_trans with s; [|lia]. apply Z.log2_lt_pow2; lia. }
  assert (low : forall b, Z.land b 127 = b mod 128) by (intros b; change 127 with (Z.ones 7); rewrite Z.land_ones by lia; reflexivity).
  assert (high : forall b, 0 <= b < 256 -> Z.land b 128 = if b <? 128 then 0 else 128).
  { intros b Hb. assert (E : forallb (fun b => Z.land b 128 =? if b <? 128 then 0 else 128) (zseq 0 256) = true) by (vm_compute; reflexivity).
    rewrite forallb_forall in E. apply Z.eqb_eq. apply E. apply in_zseq. lia. }
  induction l as [|b l IH]; intros c r v s [H C] Hs Hv; cbn [app varuint weigh].
  - rewrite high by lia. replace (c <? 128) with true by lia. cbn [Z.eqb]. rewrite low, add by (try assumption; lia). do 3 f_equal. lia.
  - inversion_clear H as [|? ? Hb Hl]. rewrite high by lia. replace (b <? 128) with false by lia. cbn [Z.eqb].
    rewrite low, add by (try assumption; lia).
    assert (P : 0 < 2 ^ s) by (apply Z.pow_pos_nonneg; lia).
    assert (E : 2 ^ (s + 7) = 2 ^ s * 128) by (rewrite Z.pow_add_r by lia; reflexivity).
    rewrite IH.
    + do 2 f_equal. rewrite E. ring.
    + split; assumption.
    + lia.
    + unfold small in *. rewrite E. pose proof (Z.mod_pos_bound b 128 ltac:(lia)). nia.
Qed.
Theorem C106_varuint : forall l c, septets l c -> reads read_varuint32 (l ++ [c]) (weigh (l ++ [c])).
Proof.
  intros l c H r. unfold read_varuint32. rewrite <- app_assoc. cbn [app]. rewrite varuint_more; [|exact H|lia|unfold small; cbn; lia].
  do 2 f_equal. change (2 ^ 0) with 1. lia.
Qed.
Lemma var_form : forall fuel n, 0 <= n < 128 ^ Z.of_nat fuel -> fuel <> O -> exists l c, var fuel n = l ++ [c] /\ septets l c /\ weigh (l ++ [c]) = n.
Proof.
  induction fuel as [|fuel IH]; intros n H N; [congruence|]. cbn [var]. destruct (n <? 128) eqn:E.
  - exists [], n. cbn [app weigh]. split; [reflexivity|]. split; [split; [constructor|lia]|lia].
  - rewrite Nat2Z.inj_succ, Z.pow_succ_r in H by lia.
    assert (fuel <> O) by (intros ->; cbn in H; lia).
    destruct (IH (n / 128)) as (l & c & V & [Sl Sc] & W); [split; [lia|]; apply Z.div_lt_upper_bound; lia|assumption|].
    exists ((n mod 128 + 128) :: l), c. rewrite V. split; [reflexivity|]. split.
    + split; [constructor; [pose proof (Z.mod_pos_bound n 128 ltac:(lia)); lia|assumption]|assumption].
    + cbn [app weigh]. rewrite W. pose proof (Z.div_mod n 128 ltac:(lia)). pose proof (Z.mod_pos_bound n 128 ltac:(lia)).
      replace ((n mod 128 + 128) mod 128) with (n mod 128); [lia|]. rewrite <- (Z.mod_small (n mod 128) 128) at 1 by lia. rewrite <- (Z_mod_plus_full (n mod 128) 1 128). f_equal.
Qed.
Lemma reads_varint : forall n, 0 <= n -> reads read_varuint32 (varint n) n.
Proof.
  intros n H. unfold varint. destruct (var_form (S (Z.to_nat (Z.log2 n))) n) as (l & c & -> & S & W); [|congruence|].
  - split; [assumption|]. rewrite Nat2Z.inj_succ, Z2Nat.id by apply Z.log2_nonneg.
    destruct (Z.eq_dec n 0) as [->|N]; [cbn; lia|].
    apply Z.lt_le_trans with (2 ^ Z.succ (Z.log2 n)); [apply Z.log2_spec; lia|]. apply Z.pow_le_mono_l. lia.
  - rewrite <- W. apply C106_varuint. exact S.
Qed.
Theorem C106_numbers : forall f64 n, 0 <= n ->
  reads read_varuint32 (varint n) n /\
  (small 32 n -> reads read_uint32 (u32 n) n /\ reads read_cell (varint n) n) /\
  (small 64 n -> reads (read_float64 f64) (w64 n) (f64 n)) /\
  (2 ^ 32 <= n -> forall r, read_cell (varint n ++ r) = Err OverflowError).
Proof.
  intros f64 n H. split; [apply reads_varint; assumption|]. split; [|split].
  - intros S. split; [apply reads_u32; exact S|]. intros r. unfold read_cell, pbind. rewrite reads_varint by assumption.
    unfold small in S. replace (n <? 2 ^ 32) with true by lia. reflexivity.
  - intros S. apply reads_f64. exact S.
  - intros S r. unfold read_cell, pbind. rewrite reads_varint by assumption. replace (n <? 2 ^ 32) with false by lia. reflexivity.
Qed.
Lemma reads_cell : forall n, small 32 n -> reads read_cell (varint n) n.
Proof. intros n S. apply (C106_numbers (fun _ => 0%Q) n); [unfold small in S; lia|exact S]. Qed.
Theorem C106_texts : forall s n, text_ok s -> - 2 ^ 31 <= n < 2 ^ 31 -> reads read_string (text s) s /\ reads read_int32 (i32 n) n.
Proof. intros s n S N. split; [apply reads_text; exact S|apply reads_i32; exact N]. Qed.

(** * Elements *)
Definition atomic (z : Z) : Prop := 1 <= z <= 118.
(** the symbols as one text, two letters each *)
Definition periodic : pystr := str "H HeLiBeB C N O F NeNaMgAlSiP S ClArK CaScTiV CrMnFeCoNiCuZnGaGeAsSeBrKrRbSrY ZrNbMoTcRuRhPdAgCdInSnSbTeI XeCsBaLaCePrNdPmSmEuGdTbDyHoErTmYbLuHfTaW ReOsIrPtAuHgTlPbBiPoAtRnFrRaAcThPaU NpPuAmCmBkCfEsFmMdNoLrRfDbSgBhHsMtDsRgCnNhFlMcLvTsOg".
Definition symbol_of (z : Z) : pystr := filter (fun c => negb (c =? 32)) (firstn 2 (skipn (2 * (Z.to_nat z - 1)) periodic)).
Definition shell_of (f : Z) : pystr := [nth (Z.to_nat f) (str "?KLMNOP") 0].
Lemma symbol_ok : forall z, atomic z -> symbol elements z = Ok (symbol_of z).
Proof.
  intros z H. assert (E : forallb (fun z => match symbol elements z with Ok s => eqb_str s (symbol_of z) | Err _ => false end) (zseq 1 118) = true) by (vm_compute; reflexivity).
  rewrite forallb_forall in E. specialize (E z ltac:(apply in_zseq; unfold atomic in H; lia)). cbv beta in E.
  destruct (symbol elements z); [|discriminate]. apply eqb_str_spec in E. subst. reflexivity.
Qed.
Lemma shell_ok : forall f, 1 <= f <= 6 -> symbol families f = Ok (shell_of f).
Proof. intros f H. assert (f = 1 \/ f = 2 \/ f = 3 \/ f = 4 \/ f = 5 \/ f = 6) as D by lia. repeat destruct D as [->|D]; try reflexivity. subst. reflexivity. Qed.
Theorem C106_elements : forall z, (forall f, 1 <= f <= 6 -> atomic z -> reads read_element_family [z; f] (symbol_of z, shell_of f)) /\ (atomic z -> symbol elements z = Ok (symbol_of z)) /\ (~ atomic z -> symbol elements z = Err OtherError).
Proof.
  intros z. split; [|split].
  - intros f F H r. change ([z; f] ++ r) with (u8 z ++ (u8 f ++ r)). unfold read_element_family. unfold pbind at 1. rewrite reads_u8.
    rewrite (symbol_ok z H). unfold lift, pbind, ret at 1. rewrite reads_u8, (shell_ok f F). reflexivity.
  - apply symbol_ok.
  - intros H. unfold symbol. replace (Z.of_nat (List.length elements)) with 119 by reflexivity. unfold atomic in H.
    replace ((z <? 1) || (z >=? 119)) with true by lia. reflexivity.
Qed.
Definition collection (l : list Z) : list Z := listed u8 l.
Lemma map_id_eq : forall A (l : list A), map (fun x => x) l = l.
Proof. induction l as [|x l IH]; [reflexivity|cbn; rewrite IH; reflexivity]. Qed.
Lemma reads_collection : forall l, few l -> Forall atomic l -> reads read_element_collection (collection l) (map symbol_of l).
Proof.
  intros l L H. unfold read_element_collection, collection. rewrite <- (app_nil_r (listed u8 l)).
  eapply reads_bind; [apply (reads_listed Z Z read_uint8 u8 (fun x => x)); [exact L|]|].
  - apply Forall_forall. intros x _. apply reads_u8.
  - rewrite map_id_eq. apply reads_done. clear L. induction H as [|x l Hx _ IH]; [reflexivity|]. cbn [map all]. rewrite symbol_ok by assumption. rewrite IH. reflexivity.
Qed.
(** an oxide: element and how many of both *)
Definition count_text (n : Z) : pystr := if 2 <=? n then str_int n else [].
Definition oxide_bytes (o : Z * Z * Z) : list Z := let '(z, a, b) := o in [z; a; b].
Definition oxide_text (o : Z * Z * Z) : pystr := let '(z, a, b) := o in symbol_of z ++ count_text a ++ str "O" ++ count_text b.
Theorem C106_oxide : forall z a b, atomic z -> reads read_oxide [z; a; b] (symbol_of z ++ count_text a ++ str "O" ++ count_text b).
Proof.
  intros z a b H r. change ([z; a; b] ++ r) with (u8 z ++ (u8 a ++ (u8 b ++ r))). unfold read_oxide.
  unfold pbind at 1. rewrite reads_u8. unfold pbind at 1. rewrite reads_u8. unfold pbind at 1. rewrite reads_u8.
  rewrite (symbol_ok z H). unfold lift, pbind, ret, count_text. replace (a >? 1) with (2 <=? a) by lia. replace (b >? 1) with (2 <=? b) by lia. reflexivity.
Qed.

(** * Metadata of a detector *)
Record eds := { e_tension : Z; e_elevation : Z; e_azimuth : Z; e_live : Z; e_real : Z; e_slow : Z; e_fast : Z; e_resolution : Z; e_id : pystr;
                e_optical : Z; e_distance : Z; e_area : Z; e_detector : Z; e_tilt : Z; e_ccorr : Z; e_type : Z; e_corr : Z }.
Definition eds_ok (e : eds) : Prop :=
  Forall (small 64) [e_tension e; e_elevation e; e_azimuth e; e_live e; e_real e; e_slow e; e_fast e; e_resolution e; e_optical e; e_distance e; e_area e; e_detector e; e_tilt e; e_ccorr e] /\
  text_ok (e_id e).
(** what is stored depends on the version of the file *)
Definition eds_bytes (v : Z) (e : eds) : list Z :=
  w64 (e_tension e) ++ w64 (e_elevation e) ++ w64 (e_azimuth e) ++ w64 (e_live e) ++ w64 (e_real e) ++ w64 (e_slow e) ++ w64 (e_fast e) ++ w64 (e_resolution e) ++ text (e_id e) ++
  (if 1 <=? v then w64 (e_optical e) ++ w64 (e_distance e) ++ w64 (e_area e) ++ w64 (e_detector e) ++ w64 (e_tilt e) else []) ++
  (if 3 <=? v then w64 (e_ccorr e) ++ u8 (e_type e) ++ u8 (e_corr e) else []).
Definition one_of (names : list string) (other : string) (n : Z) : pystr := if (0 <=? n) && (n <? Z.of_nat (List.length names)) then str (nth (Z.to_nat n) names other) else str other.
Lemma detector_name : forall n, detector_type n = one_of ["Empty"; "FastSDD_C2"; "FastSDD_C5"; "FastSDD_WLS"]%string "Unknown" n.
Proof.
  intros n. unfold detector_type, one_of. cbn [List.length]. destruct ((0 <=? n) && (n <? Z.of_nat 4)) eqn:E.
  - assert (n = 0 \/ n = 1 \/ n = 2 \/ n = 3) as D by lia. repeat destruct D as [->|D]; try reflexivity. subst. reflexivity.
  - replace (n =? 0) with false by lia. replace (n =? 1) with false by lia. replace (n =? 2) with false by lia. replace (n =? 3) with false by lia. reflexivity.
Qed.
Lemma correction_name : forall n, spectrum_correction n = one_of ["unknown"; "linearized"; "raw"]%string "unknown" n.
Proof.
  intros n. unfold spectrum_correction, one_of. cbn [List.length]. destruct ((0 <=? n) && (n <? Z.of_nat 3)) eqn:E.
  - assert (n = 0 \/ n = 1 \/ n = 2) as D by lia. repeat destruct D as [->|D]; try reflexivity. subst. reflexivity.
  - replace (n =? 1) with false by lia. replace (n =? 2) with false by lia. reflexivity.
Qed.
Lemma drift_name : forall n, drift_correction n = one_of ["unknown"; "on"; "off"]%string "unknown" n.
Proof.
  intros n. unfold drift_correction, one_of. cbn [List.length]. destruct ((0 <=? n) && (n <? Z.of_nat 3)) eqn:E.
  - assert (n = 0 \/ n = 1 \/ n = 2) as D by lia. repeat destruct D as [->|D]; try reflexivity. subst. reflexivity.
  - replace (n =? 1) with false by lia. replace (n =? 2) with false by lia. reflexivity.
Qed.

Section Metadata.
  Variable f64 : Z -> Q.
  Variable radians : Q -> Q.
  Variable float : pystr -> res Q.
  (** the working distance and spot size kept with the image, for files of version 0 *)
  Record old := { o_distance : Q; o_large : bool }.
  Definition old_of (v : Z) (am : dict) (o : option old) : Prop :=
    match o with
    | None => v <> 0 \/ lookup (str "workingDistance") am = None
    | Some o => v = 0 /\ exists w a s p q,
        lookup (str "workingDistance") am = Some w /\ value_with_unit float w = Ok (o_distance o) /\
        lookup (str "acquisition") am = Some (Dict a) /\ lookup (str "scan") a = Some (Dict s) /\ lookup (str "spotSize") s = Some (Txt p) /\
        float p = Ok q /\ (o_large o = true <-> (45 # 10 <= q)%Q)
    end.
  Definition front (v : Z) (o : option old) (e : eds) : dict :=
    [(str "high_tension", Num (f64 (e_tension e))); (str "detector_elevation", Num (if v =? 0 then radians (f64 (e_elevation e)) else f64 (e_elevation e)));
     (str "detector_azimuth", Num (f64 (e_azimuth e))); (str "live_time", Num (f64 (e_live e))); (str "real_time", Num (f64 (e_real e)));
     (str "slow_peaking_time", Num (match o with Some o => if o_large o then 2 # 1000000 else 112 # 10000000 | None => f64 (e_slow e) end));
     (str "fast_peaking_time", Num (match o with Some _ => 100 # 1000000000 | None => f64 (e_fast e) end));
     (str "detector_resolution", Num (f64 (e_resolution e))); (str "instrument_id", Txt (e_id e))].
  Definition eds_meta (v : Z) (o : option old) (e : eds) : dict :=
    front v o e ++
    (match o with
     | Some o => [(str "working_distance", Num (o_distance o)); (str "detector_surface_area", Num (25 # 1000000))]
     | None => if 1 <=? v then [(str "optical_working_distance", Num (f64 (e_optical e))); (str "working_distance", Num (f64 (e_distance e))); (str "detector_surface_area", Num (f64 (e_area e)));
                                (str "detector_distance", Num (f64 (e_detector e))); (str "sample_tilt_angle", Num (f64 (e_tilt e)))] else []
     end) ++
    (if 3 <=? v then [(str "ccorrection", Num (f64 (e_ccorr e))); (str "detector_type", Txt (one_of ["Empty"; "FastSDD_C2"; "FastSDD_C5"; "FastSDD_WLS"]%string "Unknown" (e_type e)));
                      (str "spectrum_correction", Txt (one_of ["unknown"; "linearized"; "raw"]%string "unknown" (e_corr e)))]
     else [(str "ccorrection", Int 0); (str "detector_type", Txt (str "FastSDD_C2")); (str "spectrum_correction", Txt (str "unknown"))]).
  Theorem C106_eds : forall v am o e, eds_ok e -> old_of v am o -> reads (read_eds f64 radians float v am) (eds_bytes v e) (eds_meta v o e).
  Proof.
    intros v am o e [W T] O.
    repeat match goal with H : Forall _ (_ :: _) |- _ => inversion_clear H end.
    unfold read_eds, eds_bytes.
    do 8 (eapply reads_bind; [apply reads_f64; assumption|]). eapply reads_bind; [apply reads_text; assumption|]. cbv zeta.
    eapply reads_bind.
    - instantiate (1 := front v o e ++ match o with
         | Some o => [(str "working_distance", Num (o_distance o)); (str "detector_surface_area", Num (25 # 1000000))]
         | None => if 1 <=? v then [(str "optical_working_distance", Num (f64 (e_optical e))); (str "working_distance", Num (f64 (e_distance e))); (str "detector_surface_area", Num (f64 (e_area e)));
                                (str "detector_distance", Num (f64 (e_detector e))); (str "sample_tilt_angle", Num (f64 (e_tilt e)))] else [] end).
      destruct o as [o|].
      + destruct O as (-> & w & a & s & p & q & Lw & Vw & La & Ls & Lp & Fp & B). cbn [Z.eqb]. rewrite Lw. cbn [Z.leb Z.compare].
        eapply reads_lift; [exact Vw|]. eapply reads_lift.
        { unfold at_scan. cbn [app get_in]. unfold get at 1. rewrite La. cbn [bind]. unfold get at 1. rewrite Ls. cbn [bind]. unfold get. rewrite Lp. reflexivity. }
        eapply reads_lift; [exact Fp|]. replace (above (45 # 10) q) with (negb (o_large o)).
        2:{ unfold above. f_equal. apply Bool.eq_true_iff_eq. rewrite B. symmetry. apply Qle_bool_iff. }
        intros r. unfold ret, front. cbn [app]. do 2 f_equal. destruct (o_large o); reflexivity.
      + replace (if v =? 0 then lookup (str "workingDistance") am else None) with (@None val).
        2:{ destruct O as [O|O]; [replace (v =? 0) with false by lia; reflexivity|destruct (v =? 0); congruence]. }
        replace (v >? 0) with (1 <=? v) by lia. destruct (1 <=? v).
        * do 4 (eapply reads_bind; [apply reads_f64; assumption|]). rewrite <- (app_nil_r (w64 (e_tilt e))). eapply reads_bind; [apply reads_f64; assumption|].
          intros r. reflexivity.
        * rewrite app_nil_r. apply reads_ret.
    - unfold eds_meta. replace (v >=? 3) with (3 <=? v) by lia. destruct (3 <=? v).
      + eapply reads_bind; [apply reads_f64; assumption|]. eapply reads_bind; [apply reads_u8|]. rewrite <- (app_nil_r (u8 (e_corr e))). eapply reads_bind; [apply reads_u8|].
        rewrite detector_name, correction_name. intros r. unfold ret. do 2 f_equal.
        destruct o as [o|]; [reflexivity|]. destruct (1 <=? v); reflexivity.
      + intros r. unfold ret. do 2 f_equal. destruct o as [o|]; [reflexivity|]. destruct (1 <=? v); reflexivity.
  Qed.
End Metadata.
