(** Property C75: floating-point data in sur and pro files. *)
From Coq Require Import QArith Qabs Lqa.
From Verif Require Import Base Text Bytes RowMajor SfsModel SfsProps BcfUnpack SurFloat SurModel SurFile SurSignal.
Local Open Scope Z_scope.

(** * Specification *)
(** [m] is the least number, [M] the greatest *)
Definition bounds (l : list (option Q)) (m M : Q) : Prop := In (Some m) l /\ In (Some M) l /\ forall q, In (Some q) l -> (m <= q <= M)%Q.
(** A value and the point that is read *)
Definition near (tol : Q) (v : option Q) (pt : point) : Prop := match v, pt with Some q, PF q' => (Qabs (q' - q) <= tol)%Q | None, PN => True | _, _ => False end.
Definition tolerance (m M : Q) : Q := ((M - m + Qabs m) * (1 # 2 ^ 23) + (1 # 2 ^ 117))%Q.

(** * Scaling *)
Ltac power n := let x := eval vm_compute in (2 ^ n)%positive in change (2 ^ n)%positive with x in *.
Ltac powers := power 23%positive; power 24%positive; power 117%positive; power 150%positive.
Lemma error_sum : forall q, (Qabs (nearest q - q) <= Qabs q * (1 # 2 ^ 24) + (1 # 2 ^ 150))%Q.
Proof.
  intro q. pose proof (Qabs_nonneg q) as Hq. destruct (nearest_error q) as [H|H].
  - eapply Qle_trans; [exact H|]. rewrite <- (Qplus_0_r (Qabs q * (1 # 2 ^ 24))) at 1. apply Qplus_le_r. discriminate.
  - eapply Qle_trans; [exact H|]. rewrite <- (Qplus_0_l (1 # 2 ^ 150)) at 1. apply Qplus_le_l. apply Qmult_le_0_compat; [exact Hq|discriminate].
Qed.
Lemma trunc_bounds : forall q a b, (inject_Z a <= q <= inject_Z b)%Q -> let t := Z.quot (Qnum q) (Zpos (Qden q)) in a <= t <= b /\ (Qabs (inject_Z t - q) <= 1)%Q.
Proof.
  intros [n d] a b [Ha Hb] t. unfold Qle in Ha, Hb. cbn [Qnum Qden inject_Z] in *. rewrite ?Z.mul_1_r in *. subst t. set (k := n ÷ Z.pos d).
  assert (Hk : n = Z.pos d * k + Z.rem n (Z.pos d)) by (apply Z.quot_rem'). assert (Hr : Z.abs (Z.rem n (Z.pos d)) < Z.pos d) by (rewrite <- (Z.abs_eq (Z.pos d)) at 2 by lia; apply Z.rem_bound_abs; lia).
  assert (Hs : 0 <= n -> 0 <= Z.rem n (Z.pos d)) by (intro Hn; apply Z.rem_nonneg; lia). assert (Hs' : n <= 0 -> Z.rem n (Z.pos d) <= 0) by (intro Hn; apply Z.rem_nonpos; lia).
  set (r := Z.rem n (Z.pos d)) in *. clearbody r. set (D := Z.pos d) in *. assert (HD : 0 < D) by (unfold D; lia). split; [split|].
  - clearbody k D. clear Hb. destruct (Z.le_gt_cases 0 n) as [Hn|Hn]; [specialize (Hs Hn)|specialize (Hs' ltac:(lia))]; nia.
  - clearbody k D. clear Ha. destruct (Z.le_gt_cases 0 n) as [Hn|Hn]; [specialize (Hs Hn)|specialize (Hs' ltac:(lia))]; nia.
  - apply Qabs_Qle_condition. unfold Qle, Qminus, Qopp, Qplus. cbn [Qnum Qden inject_Z]. rewrite ?Z.mul_1_r, ?Pos.mul_1_l, ?Z.mul_1_l. fold D. clearbody k D. split; nia.
Qed.
Lemma qmin_spec : forall r x, In (fold_left qmin r x) (x :: r) /\ Forall (Qle (fold_left qmin r x)) (x :: r).
Proof.
  induction r as [|y r IH]; intro x; cbn [fold_left]; [split; [left; reflexivity|repeat constructor; apply Qle_refl]|]. destruct (IH (qmin x y)) as [I F]. split.
  - destruct I as [I|I]; [|right; right; exact I]. rewrite <- I. unfold qmin. destruct (Qle_bool x y); [left|right; left]; reflexivity.
  - pose proof (Forall_inv F) as F1. apply Forall_inv_tail in F. assert (H : (qmin x y <= x /\ qmin x y <= y)%Q) by (unfold qmin; destruct (Qle_bool x y) eqn:E; [apply Qle_bool_iff in E; split; [apply Qle_refl|exact E]|split; [|apply Qle_refl]; destruct (Qlt_le_dec y x) as [L|L]; [apply Qlt_le_weak; exact L|apply Qle_bool_iff in L; congruence]]).
    destruct H as [H1 H2]. constructor; [eapply Qle_trans; [exact F1|exact H1]|]. constructor; [eapply Qle_trans; [exact F1|exact H2]|exact F].
Qed.
Lemma qmax_spec : forall r x, In (fold_left qmax r x) (x :: r) /\ Forall (fun q => (q <= fold_left qmax r x)%Q) (x :: r).
Proof.
  induction r as [|y r IH]; intro x; cbn [fold_left]; [split; [left; reflexivity|repeat constructor; apply Qle_refl]|]. destruct (IH (qmax x y)) as [I F]. split.
  - destruct I as [I|I]; [|right; right; exact I]. rewrite <- I. unfold qmax. destruct (Qle_bool x y); [right; left|left]; reflexivity.
  - pose proof (Forall_inv F) as F1. apply Forall_inv_tail in F. cbn beta in F1. assert (H : (x <= qmax x y /\ y <= qmax x y)%Q) by (unfold qmax; destruct (Qle_bool x y) eqn:E; [apply Qle_bool_iff in E; split; [exact E|apply Qle_refl]|split; [apply Qle_refl|]; destruct (Qlt_le_dec y x) as [L|L]; [apply Qlt_le_weak; exact L|apply Qle_bool_iff in L; congruence]]).
    destruct H as [H1 H2]. constructor; [eapply Qle_trans; [exact H1|exact F1]|]. constructor; [eapply Qle_trans; [exact H2|exact F1]|exact F].
Qed.
Lemma present_in : forall l q, In q (present l) <-> In (Some q) l.
Proof.
  intros l q. unfold present. rewrite in_flat_map. split.
  - intros ([q'|] & I & H); [|contradiction]. destruct H as [<- | []]. exact I.
  - intro I. exists (Some q). split; [exact I|left; reflexivity].
Qed.
(** The distance between a value and the one that is read *)
Lemma scale_error : forall (zmin D k : Z) (v off scale : Q), 2 ^ 31 <= D -> D <= 2 ^ 32 -> (0 <= scale)%Q -> 0 <= k <= D -> (Qabs (inject_Z k * scale - (v - off)) <= scale)%Q ->
  (Qabs (scaled zmin (nearest scale) (nearest off) (zmin + k) - v) <= (inject_Z D * scale + Qabs off) * (1 # 2 ^ 23) + (1 # 2 ^ 117))%Q.
Proof.
  intros zmin D k v off scale HD HD' Hs Hk Hv. unfold scaled. rewrite Qred_correct. replace (zmin + k - zmin) with k by lia.
  pose proof (error_sum scale) as Es. pose proof (error_sum off) as Eo. rewrite (Qabs_pos scale Hs) in Es. set (s' := nearest scale) in *. set (o' := nearest off) in *. clearbody s' o'.
  assert (E : (inject_Z k * s' + o' - v == inject_Z k * (s' - scale) + (inject_Z k * scale - (v - off)) + (o' - off))%Q) by ring. rewrite E.
  eapply Qle_trans; [apply Qabs_triangle|]. eapply Qle_trans; [apply Qplus_le_l; apply Qabs_triangle|]. rewrite Qabs_Qmult.
  assert (Hk0 : (0 <= inject_Z k)%Q) by (change 0%Q with (inject_Z 0); rewrite <- Zle_Qle; lia). rewrite (Qabs_pos (inject_Z k) Hk0).
  assert (HkD : (inject_Z k <= inject_Z D)%Q) by (rewrite <- Zle_Qle; lia). assert (HDl : (inject_Z (2 ^ 31) <= inject_Z D)%Q) by (rewrite <- Zle_Qle; lia). assert (HDu : (inject_Z D <= inject_Z (2 ^ 32))%Q) by (rewrite <- Zle_Qle; lia).
  set (K := inject_Z k) in *. set (d := inject_Z D) in *. clearbody K d. pose proof (Qabs_nonneg off) as Ho. set (a := Qabs (s' - scale)) in *. assert (Ha : (0 <= a)%Q) by apply Qabs_nonneg. set (b := Qabs (K * scale - (v - off))) in *. set (c := Qabs (o' - off)) in *. set (w := Qabs off) in *. clearbody a b c w.
  change (inject_Z (2 ^ 31)) with (2147483648 # 1)%Q in HDl. change (inject_Z (2 ^ 32)) with (4294967296 # 1)%Q in HDu.
  assert (H1 : (K * a <= d * (scale * (1 # 2 ^ 24) + (1 # 2 ^ 150)))%Q). { eapply Qle_trans; [apply Qmult_le_compat_r; [exact HkD|exact Ha]|]. rewrite !(Qmult_comm d). apply Qmult_le_compat_r; [exact Es|]. eapply Qle_trans; [|exact HDl]. discriminate. }
  assert (H2 : (scale * (2147483648 # 1) <= d * scale)%Q) by (rewrite (Qmult_comm d); rewrite !(Qmult_comm scale); apply Qmult_le_compat_r; assumption).
  assert (H3 : (d * (scale * (1 # 2 ^ 24) + (1 # 2 ^ 150)) == (d * scale) * (1 # 2 ^ 24) + d * (1 # 2 ^ 150))%Q) by ring. rewrite H3 in H1. set (ds := (d * scale)%Q) in *. clearbody ds. clear E H3 Es HkD Hk0. 
  powers. lra.
Qed.
Definition kept_value (sp : bool) (zmin D : Z) (scale off : Q) (v : option Q) (i : Z) : Prop :=
  match v with Some q => exists k, i = zmin + k /\ 0 <= k <= D /\ (Qabs (inject_Z k * scale - (q - off)) <= scale)%Q | None => sp = true /\ i = zmin - 2 end.
Lemma fits_between : forall q, (Qabs q <= inject_Z (2 ^ 121))%Q -> fits q.
Proof. intros q H. unfold fits. eapply Qle_lt_trans; [exact H|]. rewrite <- Zlt_Qlt. reflexivity. Qed.
Lemma float_norm : forall bad sp l m M, bounds l m M -> (m < M)%Q -> (Qabs m <= inject_Z (2 ^ 120))%Q -> (Qabs M <= inject_Z (2 ^ 120))%Q -> (sp = true \/ ~ In None l) -> zlen l < 2 ^ 28 ->
  exists zmin zmax scale off ints, norm_data bad sp (Floats false l) = Ok (32, zmin, zmax, scale, off, ints) /\ norm_ok (32, zmin, zmax, scale, off, ints) /\ zlen ints = zlen l /\
  (off == m)%Q /\ (0 < scale)%Q /\ (inject_Z (zmax - zmin) * scale == M - m)%Q /\ 2 ^ 31 <= zmax - zmin <= 2 ^ 32 /\ Forall2 (kept_value sp zmin (zmax - zmin) scale off) l ints.
Proof.
  intros bad sp l m M (Im & IM & Hb) HmM Bm BM Hsp Hn. cbn [norm_data]. unfold norm_float. apply present_in in Im, IM. assert (Hb' : forall q, In q (present l) -> (m <= q <= M)%Q) by (intros q Iq; apply Hb; apply present_in; exact Iq).
  destruct (present l) as [|x r] eqn:Ep; [contradiction|]. destruct (qmin_spec r x) as [I1 F1]. destruct (qmax_spec r x) as [I2 F2]. set (off := fold_left qmin r x) in *. set (mx := fold_left qmax r x) in *.
  assert (Eoff : (off == m)%Q) by (apply Qle_antisym; [exact (proj1 (Forall_forall _ _) F1 m Im)|apply Hb'; exact I1]). assert (Emx : (mx == M)%Q) by (apply Qle_antisym; [apply Hb'; exact I2|exact (proj1 (Forall_forall _ _) F2 M IM)]).
  set (nan := sp && existsb is_none l). set (zmin := if nan then - 2 ^ 31 + 2 else - 2 ^ 31). set (zmax := if nan then 2 ^ 32 + zmin - 3 else 2 ^ 32 + zmin - 1).
  assert (Hz : - 2 ^ 31 <= zmin /\ zmin <= - 2 ^ 31 + 2 /\ zmax < 2 ^ 31 /\ 2 ^ 31 <= zmax - zmin <= 2 ^ 32 /\ (nan = true -> - 2 ^ 31 <= zmin - 2)) by (unfold zmax, zmin; destruct nan; repeat split; intros; lia). destruct Hz as (Z1 & Z2 & Z3 & Z4 & Z5).
  cbn [bind]. set (scale := Qred (Qred (mx - off) / Qred (inject_Z (zmax - zmin)))).
  assert (HDq : (0 < inject_Z (zmax - zmin))%Q) by (change 0%Q with (inject_Z 0); rewrite <- Zlt_Qlt; lia).
  assert (Esc : (scale == (M - m) / inject_Z (zmax - zmin))%Q) by (unfold scale; rewrite !Qred_correct, Eoff, Emx; reflexivity).
  assert (Hsc : (0 < scale)%Q). { rewrite Esc. apply Qlt_shift_div_l; [exact HDq|]. rewrite Qmult_0_l. apply Qlt_minus_iff in HmM. exact HmM. }
  assert (Eds : (inject_Z (zmax - zmin) * scale == M - m)%Q) by (rewrite Esc; field; intro X; rewrite X in HDq; discriminate HDq).
  assert (Hnum : (Qnum scale =? 0) = false) by (destruct (Qnum scale =? 0) eqn:E; [|reflexivity]; exfalso; apply Z.eqb_eq in E; unfold Qlt in Hsc; cbn [Qnum Qden] in Hsc; rewrite E in Hsc; discriminate Hsc).
  clearbody scale. eexists zmin, zmax, scale, off, _. split; [reflexivity|].
  match goal with |- context [map ?c l] => set (conv := c) end.
  assert (Hv : Forall (fun v => kept_value sp zmin (zmax - zmin) scale off v (conv v)) l).
  { apply Forall_forall. intros [v|] Iv; unfold kept_value, conv.
    - rewrite Hnum. assert (Hvm : (m <= v <= M)%Q) by (apply Hb; exact Iv). set (q := Qred (Qred (Qred (v - off) / scale) + inject_Z zmin)). assert (Eq : (q == (v - m) / scale + inject_Z zmin)%Q) by (unfold q; rewrite !Qred_correct, Eoff; reflexivity).
      assert (Hq : (inject_Z zmin <= q <= inject_Z zmax)%Q).
      { rewrite Eq. assert (U : (0 <= (v - m) / scale <= inject_Z (zmax - zmin))%Q).
        { split; [apply Qle_shift_div_l; [exact Hsc|]; rewrite Qmult_0_l; apply (proj1 (Qle_minus_iff m v)); apply Hvm|]. apply Qle_shift_div_r; [exact Hsc|]. rewrite Eds. destruct Hvm as [_ Hvm]. clear - Hvm. lra. }
        replace zmax with (zmin + (zmax - zmin)) at 1 by lia. rewrite inject_Z_plus. destruct U as [U1 U2]. clear - U1 U2. split; lra. }
      destruct (trunc_bounds q zmin zmax Hq) as [T1 T2]. set (t := Z.quot (Qnum q) (Zpos (Qden q))) in *. exists (t - zmin). split; [|split; [lia|]].
      + unfold cast32. fold q. fold t. assert (E : (- 2 ^ 31 <=? t) && (t <? 2 ^ 31) = true) by lia. rewrite E. lia.
      + assert (E : (inject_Z (t - zmin) * scale - (v - off) == (inject_Z t - q) * scale)%Q). { rewrite Eq, Eoff. unfold Z.sub. rewrite inject_Z_plus, inject_Z_opp. field. intro X. rewrite X in Hsc. discriminate Hsc. }
        rewrite E, Qabs_Qmult, (Qabs_pos scale) by (apply Qlt_le_weak; exact Hsc). rewrite <- (Qmult_1_l scale) at 2. apply Qmult_le_compat_r; [exact T2|apply Qlt_le_weak; exact Hsc].
    - assert (En : sp = true /\ nan = true). { destruct Hsp as [->|Hsp]; [|contradiction]. split; [reflexivity|]. unfold nan. cbn [andb]. apply existsb_exists. exists None. split; [exact Iv|reflexivity]. }
      destruct En as [-> En]. rewrite En. split; reflexivity. }
  assert (Hints : Forall (fun z => - 2 ^ 31 <= z < 2 ^ 31) (map conv l)).
  { apply Forall_forall. intros i Ii. apply in_map_iff in Ii. destruct Ii as (v & <- & Iv). pose proof (proj1 (Forall_forall _ _) Hv v Iv) as K. cbn beta in K. destruct v as [q|]; cbn [kept_value] in K; [destruct K as (k & -> & Hk & _); lia|]. destruct K as [Hs ->]. assert (En : nan = true) by (unfold nan; rewrite Hs; cbn [andb]; apply existsb_exists; exists None; split; [exact Iv|reflexivity]). specialize (Z5 En). lia. }
  assert (Fo : fits off) by (apply fits_between; rewrite Eoff; eapply Qle_trans; [exact Bm|]; rewrite <- Zle_Qle; apply Z.pow_le_mono_r; lia).
  assert (Fs : fits scale).
  { apply fits_between. rewrite Qabs_pos by (apply Qlt_le_weak; exact Hsc). assert (A1 : (M - m <= inject_Z (2 ^ 121))%Q). { apply Qabs_Qle_condition in Bm. apply Qabs_Qle_condition in BM. change (2 ^ 121) with (2 ^ 120 + 2 ^ 120). rewrite inject_Z_plus. destruct Bm as [Bm1 _]. destruct BM as [_ BM2]. clear - Bm1 BM2. set (z := inject_Z (2 ^ 120)) in *. clearbody z. lra. }
    eapply Qle_trans; [|exact A1]. rewrite <- Eds. rewrite <- (Qmult_1_l scale) at 1. apply Qmult_le_compat_r; [|apply Qlt_le_weak; exact Hsc]. change 1%Q with (inject_Z 1). rewrite <- Zle_Qle. lia. }
  split; [|split; [apply zlen_map|split; [exact Eoff|split; [exact Hsc|split; [exact Eds|split; [lia|]]]]]].
  - cbn [norm_ok]. split; [right; split; [reflexivity|exact Hints]|]. split; [lia|]. split; [lia|]. split; [exact Fs|]. split; [exact Fo|]. rewrite zlen_map. exact Hn.
  - clearbody conv zmin zmax nan off. clear - Hv. induction Hv as [|v l H1 H2 IH]; [constructor|]. cbn [map]. constructor; assumption.
Qed.
Lemma nearest_red : forall q, Qred (nearest q) = nearest q.
Proof. intro q. unfold nearest. destruct (Z.abs (Qnum q) =? 0); [reflexivity|]. unfold q2. apply Qred_complete. apply Qred_correct. Qed.
Lemma float_points : forall o p t zmin D scale off ints ob l m M, reads o p t zmin scale off ints ob -> (In t float_types \/ In t [2; 5] /\ (is_integer (nearest scale) && is_integer (nearest off)) = false) ->
  Forall2 (kept_value (special o) zmin D scale off) l ints -> 2 ^ 31 <= D <= 2 ^ 32 -> (0 < scale)%Q -> (off == m)%Q -> (inject_Z D * scale == M - m)%Q -> Forall2 (near (tolerance m M)) l (o_points ob).
Proof.
  intros o p t zmin D scale off ints ob l m M R Ht Hk HD Hs Eo Em. pose proof (rd_points _ _ _ _ _ _ _ _ R) as Dc. unfold decode_points in Dc.
  rewrite (rd_ratio _ _ _ _ _ _ _ _ R), (rd_scale _ _ _ _ _ _ _ _ R), (rd_off _ _ _ _ _ _ _ _ R), (rd_type _ _ _ _ _ _ _ _ R), (rd_zmin _ _ _ _ _ _ _ _ R), (rd_special _ _ _ _ _ _ _ _ R) in Dc.
  change (Qnum 1 =? 0) with false in Dc. cbn iota in Dc. replace (Qred (nearest scale / 1)) with (nearest scale) in Dc by (rewrite <- nearest_red at 1; apply Qred_complete; field).
  set (pt := fun z => if ((if special o then 1 else 0) =? 1) && (z =? zmin - 2) then PN else PF (scaled zmin (nearest scale) (nearest off) z)).
  assert (E : o_points ob = map pt ints).
  { destruct Ht as [Ht|[Ht Hi]].
    - cbn [float_types In] in Ht. destruct Ht as [<- | [<- | [<- | [<- | []]]]]; change (Ok (map pt ints) = Ok (o_points ob)) in Dc; congruence.
    - rewrite <- andb_assoc in Dc. rewrite Hi, andb_false_r in Dc. cbn [In] in Ht. destruct Ht as [<- | [<- | []]]; change (Ok (map pt ints) = Ok (o_points ob)) in Dc; congruence. }
  rewrite E. clear E Dc R Ht. induction Hk as [|v i l ints H1 H2 IH]; [constructor|]. cbn [map]. constructor; [|exact IH]. unfold near, pt. destruct v as [q|]; cbn [kept_value] in H1.
  - destruct H1 as (k & -> & Hk & He). assert (E : (zmin + k =? zmin - 2) = false) by lia. rewrite E, andb_false_r.
    pose proof (scale_error zmin D k q off scale ltac:(lia) ltac:(lia) ltac:(apply Qlt_le_weak; exact Hs) Hk He) as X. unfold tolerance. eapply Qle_trans; [exact X|]. assert (Ea : (Qabs off == Qabs m)%Q) by (rewrite Eo; reflexivity). rewrite Em, Ea. apply Qle_refl.
  - destruct H1 as [Hsp ->]. rewrite Hsp, (Z.eqb_refl (zmin - 2)). exact I.
Qed.

Section Floats.
  Variable bad : Z.
  Variable zip : list Z -> list Z.
  Variable unzip : list Z -> res (list Z).
  Variable o : options.
  Variable comment : pystr.
  Hypothesis Hz : zlib_ok zip unzip.
  Hypothesis Ho : options_ok o comment.
  (** Finite numbers that are not all the same; NaN needs special points *)
  Definition values_ok (l : list (option Q)) (m M : Q) : Prop :=
    bounds l m M /\ (m < M)%Q /\ (Qabs m <= inject_Z (2 ^ 120))%Q /\ (Qabs M <= inject_Z (2 ^ 120))%Q /\ (special o = true \/ ~ In None l) /\ zlen l < 2 ^ 28.
  (** A signal is written; axes, shape and nearby values are read *)
  Definition returns_near (axes : list axis) (l : list (option Q)) (tol : Q) (raxes : list (axis * Z)) : Prop :=
    exists f r, write_sur bad zip o comment {| s_axes := axes; s_data := Floats false l |} = Ok f /\ load_sur unzip f = Ok r /\ r_axes r = raxes /\ r_shape r = map a_size axes /\ Forall2 (near tol) l (r_data r).
  Lemma float_single_read : forall s x y ta l ty m M, split_signal s = Ok (one ty x y ta (Floats false l)) -> opt_ok 16 x -> opt_ok 16 y -> opt_ok 13 ta -> size x * size y < 2 ^ 31 -> In ty obj_types ->
    values_ok l m M -> zlen l = size x * size y * Z.max (if ty =? 21 then axis_or a_size 0 ta else 0) 1 ->
    exists f ob zmin scale off ints, write_sur bad zip o comment s = Ok f /\ read_sur unzip f = Ok [ob] /\ reads o (one ty x y ta (Floats false l)) ty zmin scale off ints ob /\ (off == m)%Q /\ (0 < scale)%Q /\
    ((M - m) * (1 # 2 ^ 32) <= scale)%Q /\ (scale <= (M - m) * (1 # 2 ^ 31))%Q /\
    (In ty float_types \/ In ty [2; 5] /\ (is_integer (nearest scale) && is_integer (nearest off)) = false -> Forall2 (near (tolerance m M)) l (o_points ob)).
  Proof.
    intros s x y ta l ty m M Hs Hx Hy Ht Hxy Hty (V1 & V2 & V3 & V4 & V5 & V6) Hl. set (p := one ty x y ta (Floats false l)) in *.
    destruct (float_norm bad (special o) l m M V1 V2 V3 V4 V5 V6) as (zmin & zmax & scale & off & ints & N & K & Li & Eo & Hsc & Es & HD & Hk).
    destruct (write_read bad zip unzip o s p comment Hz Ho Hs) as (f & obs & W & R & I).
    - unfold split_ok. change (p_x p) with x. change (p_y p) with y. change (p_t p) with ta. change (p_objects p) with 1. change (p_channels p) with 1. repeat (split; [assumption || lia|]). exact Hxy.
    - change (combine (p_data p) (p_types p)) with [(Floats false l, ty)]. constructor; [|constructor]. split; [exact Hty|]. exists 32, zmin, zmax, scale, off, ints. cbn [fst snd]. split; [exact N|]. split; [exact K|]. rewrite Li. exact Hl.
    - reflexivity.
    - change (combine (p_data p) (p_types p)) with [(Floats false l, ty)] in I. inversion I as [|? ob ? obs' I1 I2]; subst. inversion I2; subst.
      destruct I1 as (b & zm & zx & sc & of & ints' & N' & Rd). cbn [fst snd] in *. assert (E : (b, zm, zx, sc, of, ints') = (32, zmin, zmax, scale, off, ints)) by congruence. inversion E; subst.
      exists f, ob, zmin, scale, off, ints. split; [exact W|]. split; [exact R|]. split; [exact Rd|]. split; [exact Eo|]. split; [exact Hsc|]. split; [|split].
      + rewrite <- Es. assert (A : (inject_Z (zmax - zmin) <= inject_Z (2 ^ 32))%Q) by (rewrite <- Zle_Qle; lia). rewrite Qmult_comm, Qmult_assoc. rewrite <- (Qmult_1_l scale) at 2. apply Qmult_le_compat_r; [|apply Qlt_le_weak; exact Hsc].
        change (inject_Z (2 ^ 32)) with (4294967296 # 1)%Q in A. change (2 ^ 32)%positive with 4294967296%positive. clear - A. lra.
      + rewrite <- Es. assert (A : (inject_Z (2 ^ 31) <= inject_Z (zmax - zmin))%Q) by (rewrite <- Zle_Qle; lia). rewrite (Qmult_comm (_ * scale)), Qmult_assoc. rewrite <- (Qmult_1_l scale) at 1. apply Qmult_le_compat_r; [|apply Qlt_le_weak; exact Hsc].
        change (inject_Z (2 ^ 31)) with (2147483648 # 1)%Q in A. change (2 ^ 31)%positive with 2147483648%positive. clear - A. lra.
      + intro Hcase. apply (float_points o p ty zmin (zmax - zmin) scale off ints ob l m M Rd Hcase Hk HD Hsc Eo Es).
  Qed.
  Lemma near_length : forall tol l pts, Forall2 (near tol) l pts -> zlen pts = zlen l.
  Proof. intros tol l pts H. unfold zlen. rewrite (forall2_len _ _ _ _ _ H). reflexivity. Qed.
  Theorem C75_profile : forall x l m M, axis_ok 16 x -> a_nav x = false -> ~ In (a_name x) [str "Wavelength"; str "Energy"; str "Energy Loss"; str "E"] -> values_ok l m M -> zlen l = a_size x ->
    returns_near [x] l (tolerance m M) [(x, 0)].
  Proof.
    intros x l m M Hx Nx Hname Hv Hl. pose proof Hx as (_ & _ & Sx & _).
    assert (Hs : split_signal {| s_axes := [x]; s_data := Floats false l |} = Ok (one 1 (Some x) None None (Floats false l))).
    { unfold split_signal. cbn [s_axes s_data filter]. rewrite Nx. cbn [negb]. unfold is_spectrum. cbn [existsb]. rewrite orb_false_r. fold (existsb (eqb_str (a_name x)) spectrum_names).
      destruct (existsb (eqb_str (a_name x)) spectrum_names) eqn:E; [|reflexivity]. apply existsb_exists in E. destruct E as (n & In' & E). apply eqb_str_spec in E. subst n. contradiction. }
    destruct (float_single_read _ _ _ _ _ _ m M Hs Hx I I) as (f & ob & zmin & scale & off & ints & W & R & Rd & _ & _ & _ & _ & P); [cbn [size axis_or]; lia|vm_compute; tauto|exact Hv|cbn [size axis_or Z.eqb Pos.eqb]; lia|].
    specialize (P ltac:(left; cbn; tauto)). pose proof (near_length _ _ _ P) as Lp. exists f, {| r_axes := [(x, 0)]; r_shape := [a_size x]; r_data := o_points ob |}. split; [exact W|]. split; [|cbn [r_axes r_shape r_data]; split; [reflexivity|split; [reflexivity|exact P]]].
    unfold load_sur. rewrite R. cbn [bind]. unfold build_sur. rewrite (rd_type _ _ _ _ _ _ _ _ Rd). rewrite (xax_read _ _ _ _ _ _ _ _ x Rd eq_refl false), (axis_eta x false Nx). cbn [Z.eqb Pos.eqb]. rewrite Lp, Hl. reflexivity.
  Qed.
  Theorem C75_map : forall y x w l m M, axis_ok 16 y -> axis_ok 16 x -> axis_ok 13 w -> a_nav y = true -> a_nav x = true -> a_nav w = false -> ~ (a_scale w == 0)%Q -> values_ok l m M ->
    zlen l = a_size y * a_size x * a_size w -> returns_near [y; x; w] l (tolerance m M) [(y, 0); (x, 1); (w, 2)].
  Proof.
    intros y x w l m M Hy Hx Hw Ny Nx Nw Hsc Hv Hl. pose proof Hx as (_ & _ & Sx & _). pose proof Hy as (_ & _ & Sy & _). pose proof Hw as (_ & _ & Sw & _).
    assert (Hs : split_signal {| s_axes := [y; x; w]; s_data := Floats false l |} = Ok (one 21 (Some x) (Some y) (Some w) (Floats false l))) by (unfold split_signal; cbn [s_axes s_data filter]; rewrite Nx, Ny, Nw; reflexivity).
    pose proof Hv as (_ & _ & _ & _ & _ & Hn). assert (Hxy : a_size x * a_size y < 2 ^ 31) by (clear - Hl Hn Sx Sy Sw; nia).
    destruct (float_single_read _ _ _ _ _ _ m M Hs Hx Hy Hw) as (f & ob & zmin & scale & off & ints & W & R & Rd & _ & _ & _ & _ & P); [exact Hxy|vm_compute; tauto|exact Hv|cbn [size axis_or Z.eqb Pos.eqb]; rewrite Z.max_l by lia; lia|].
    specialize (P ltac:(left; cbn; tauto)). pose proof (near_length _ _ _ P) as Lp. exists f, {| r_axes := [(y, 0); (x, 1); (w, 2)]; r_shape := [a_size y; a_size x; a_size w]; r_data := o_points ob |}. split; [exact W|]. split; [|cbn [r_axes r_shape r_data]; split; [reflexivity|split; [reflexivity|exact P]]].
    unfold load_sur. rewrite R. cbn [bind]. unfold build_sur. rewrite (rd_type _ _ _ _ _ _ _ _ Rd), (rd_x _ _ _ _ _ _ _ _ Rd), (rd_y _ _ _ _ _ _ _ _ Rd).
    rewrite (xax_read _ _ _ _ _ _ _ _ x Rd eq_refl true), (yax_read _ _ _ _ _ _ _ _ y Rd eq_refl true), (tax_read _ _ _ _ _ _ _ _ w Rd eq_refl Hsc 14%nat false), (rd_w _ _ _ _ _ _ _ _ Rd), (axis_eta x true Nx), (axis_eta y true Ny).
    change (wsize (one 21 (Some x) (Some y) (Some w) (Floats false l)) 21) with (a_size w). rewrite (axis_eta w false Nw). cbn [Z.eqb Pos.eqb p_x p_y one size axis_or app].
    rewrite reshape_ok; [|rewrite Lp, Hl; unfold prodZ; cbn [fold_right]; ring|repeat constructor; lia]. reflexivity.
  Qed.
  (** Images of floats whose range is neither tiny nor huge *)
  Lemma not_integer : forall q, (0 < q)%Q -> (q < 1)%Q -> is_integer q = false.
  Proof. intros q H1 H2. unfold is_integer, Qlt in *. cbn [Qnum Qden] in *. rewrite Z.mod_small by lia. lia. Qed.
  Theorem C75_surface : forall y x l m M, axis_ok 16 y -> axis_ok 16 x -> a_nav y = false -> a_nav x = false -> values_ok l m M -> (1 # 2 ^ 100 <= M - m)%Q -> (M - m <= inject_Z (2 ^ 30))%Q ->
    zlen l = a_size y * a_size x -> returns_near [y; x] l (tolerance m M) [(y, 0); (x, 1)].
  Proof.
    intros y x l m M Hy Hx Ny Nx Hv Hlo Hhi Hl. pose proof Hx as (_ & _ & Sx & _). pose proof Hy as (_ & _ & Sy & _). pose proof Hv as (_ & _ & _ & _ & _ & Hn).
    assert (Hs : split_signal {| s_axes := [y; x]; s_data := Floats false l |} = Ok (one 2 (Some x) (Some y) None (Floats false l))) by (unfold split_signal; cbn [s_axes s_data filter]; rewrite Ny, Nx; reflexivity).
    destruct (float_single_read _ _ _ _ _ _ m M Hs Hx Hy I) as (f & ob & zmin & scale & off & ints & W & R & Rd & _ & Hsc & S1 & S2 & P); [cbn [size axis_or]; lia|vm_compute; tauto|exact Hv|cbn [size axis_or Z.eqb Pos.eqb]; lia|].
    assert (Hni : is_integer (nearest scale) = false).
    { change (inject_Z (2 ^ 30)) with (1073741824 # 1)%Q in Hhi. change (2 ^ 31)%positive with 2147483648%positive in S2. change (2 ^ 32)%positive with 4294967296%positive in S1. pose proof (error_sum scale) as Es. rewrite (Qabs_pos scale (Qlt_le_weak _ _ Hsc)) in Es. apply Qabs_Qle_condition in Es. destruct Es as [E1 E2].
      power 100%positive. power 24%positive. power 150%positive. apply not_integer; set (n := nearest scale) in *; clearbody n; clear - E1 E2 Hlo Hhi S1 S2; lra. }
    specialize (P ltac:(right; split; [cbn; tauto|rewrite Hni; reflexivity])). pose proof (near_length _ _ _ P) as Lp. exists f, {| r_axes := [(y, 0); (x, 1)]; r_shape := [a_size y; a_size x]; r_data := o_points ob |}. split; [exact W|]. split; [|cbn [r_axes r_shape r_data]; split; [reflexivity|split; [reflexivity|exact P]]].
    unfold load_sur. rewrite R. cbn [bind]. unfold build_sur. rewrite (rd_type _ _ _ _ _ _ _ _ Rd), (rd_x _ _ _ _ _ _ _ _ Rd), (rd_y _ _ _ _ _ _ _ _ Rd).
    rewrite (xax_read _ _ _ _ _ _ _ _ x Rd eq_refl false), (yax_read _ _ _ _ _ _ _ _ y Rd eq_refl false), (axis_eta x false Nx), (axis_eta y false Ny). cbn [Z.eqb Pos.eqb orb p_x p_y one size axis_or].
    rewrite reshape_ok; [|rewrite Lp, Hl; unfold prodZ; cbn [fold_right]; ring|repeat constructor; lia]. reflexivity.
  Qed.
End Floats.

(** * Examples *)
Definition shown_f (bad : Z) (sp : bool) (axes : list axis) (single : bool) (l : list (option Q)) : res (list point) :=
  let! f := write_sur bad same (opts sp true) [] {| s_axes := axes; s_data := Floats single l |} in let! r := load_sur undo f in Ok (r_data r).
Example C75_example : shown_f 0 true [ax (str "y") 2 false; ax (str "x") 2 false] false [Some 0; None; Some (1 # 2); Some 1]%Q = Ok [PF 0; PN; PF (1073741823 # 2147483648); PF (4294967293 # 4294967296)]%Q.
Proof. vm_compute. reflexivity. Qed.
Example C75_hyps : values_ok (opts true true) [Some 0; None; Some (1 # 2); Some 1]%Q 0 1 /\ (1 # 2 ^ 100 <= 1 - 0)%Q /\ (1 - 0 <= inject_Z (2 ^ 30))%Q.
Proof.
  split; [|split; vm_compute; discriminate]. split; [|split; [reflexivity|split; [vm_compute; discriminate|split; [vm_compute; discriminate|split; [left; reflexivity|vm_compute; reflexivity]]]]].
  split; [left; reflexivity|]. split; [right; right; right; left; reflexivity|]. intros q [H|[H|[H|[H|[]]]]]; inversion H; subst; vm_compute; split; discriminate.
Qed.
(** All images of one integral value are read as the same numbers, whatever a cast of NaN gives *)
Theorem C75_constant_refuted : forall bad, - 2 ^ 31 <= bad < 2 ^ 31 -> forall v, In v [3; 4]%Q -> 
  match split_signal {| s_axes := [ax (str "y") 1 false; ax (str "x") 1 false]; s_data := Floats false [Some v] |} with
  | Ok p => match build_workdict bad same (opts false false) p [] (Floats false [Some v]) 2 with
            | Ok c => c_points c = le 4 bad /\ decode_points (read_fields (c_fields c)) [bad] = Ok [PI bad]
            | Err _ => False
            end
  | Err _ => False
  end.
Proof. intros bad Hb v [<- | [<- | []]]; vm_compute split_signal; cbv -[le Z.quot]; split; reflexivity. Qed.
(** The greatest number of float32 data does not fit in int32 *)
Theorem C75_single_refuted : shown_f (- 2 ^ 31) false [ax (str "x") 3 false] true [Some 0; Some (1 # 2); Some 1]%Q = Ok [PF 0; PF (1 # 2); PF 0]%Q.
Proof. vm_compute. reflexivity. Qed.
(** A scale and an offset that are integers: the image is read as raw integers *)
Theorem C75_integer_scale_refuted : shown_f 0 false [ax (str "y") 1 false; ax (str "x") 2 false] false [Some 0; Some 4294967295]%Q = Ok [PI (- 2 ^ 31); PI (2 ^ 31 - 1)].
Proof. vm_compute. reflexivity. Qed.
(** Without special points NaN is read as a number *)
Theorem C75_nan_refuted : shown_f (- 2 ^ 31) false [ax (str "x") 3 false] false [Some 5; None; Some 6]%Q = Ok [PF 5; PF 5; PF (25769803775 # 4294967296)]%Q.
Proof. vm_compute. reflexivity. Qed.
Print Assumptions C75_profile.
Print Assumptions C75_surface.
Print Assumptions C75_map.
Print Assumptions C75_example.
Print Assumptions C75_hyps.
Print Assumptions C75_constant_refuted.
Print Assumptions C75_single_refuted.
Print Assumptions C75_integer_scale_refuted.
Print Assumptions C75_nan_refuted.
