(** Maps in Bruker files: theorems of claims C136 and C137 about [BrkModel]. *)
From Coq Require Import QArith Qabs Lqa Permutation Sorted.
From Verif Require Import Base Bytes Text HierModel SfsModel BcfModel XmlModel DateModel DateProps EdaxModel EdaxHeader LogText BrkModel BrkPic.
Local Open Scope Z_scope.

(** * What is meant *)
(** The numbers of the maps by the names of the files: the last character *)
Inductive numbered : list pystr -> list Z -> Prop :=
| num_nil : numbered [] []
| num_other n names l : ~ occurs (str "SpectrumData") n -> numbered names l -> numbered (n :: names) l
| num_map n p d names l : occurs (str "SpectrumData") n -> n = p ++ [48 + d] -> 0 <= d <= 9 -> numbered names l -> numbered (n :: names) (d :: l).
(** The maps asked for *)
Inductive asked (av : list Z) : choice -> list Z -> Prop :=
| ask_none m : In m av -> Forall (fun x => m <= x) av -> asked av INone [m]
| ask_all : asked av (IText (str "all")) av
| ask_one n : In n av -> asked av (INumber n) [n].
(** Channels of a spectrum up to an energy: the nearest number, the even one of two *)
Definition value (E : env) (v : val) (q : Q) : Prop := exists n, v = VLeaf (LOther n) /\ e_num E n = Some q.
Definition nearest (x : Q) (n : Z) : Prop := (Qabs (x - inject_Z n) <= 1 # 2)%Q /\ ((Qabs (x - inject_Z n) == 1 # 2)%Q -> Z.even n = true).
Definition up_to (E : env) (s : spectrum) (e : Q) (n : Z) : Prop :=
  exists o k, value E (sp_offset s) o /\ value E (sp_scale s) k /\ ~ (k == 0)%Q /\ nearest ((e - o) / k) n.
Definition last_counted (l : list Z) (n : Z) : Prop := exists a x b, l = a ++ x :: b /\ x <> 0 /\ black b /\ n = zlen a + 1.
Definition other_text (t : pystr) : Prop := t <> str "zealous" /\ t <> str "auto".
Inductive channels (E : env) (h : header) (s : spectrum) : cutoff -> Z -> Prop :=
| ch_number q n : up_to E s q n -> channels E h s (CNumber q) n
| ch_zealous n : last_counted (sp_data s) n -> channels E h s (CText (str "zealous")) n
| ch_beam a v q n : value E (sp_amp s) a -> sc_hv (h_scope h) = Some v -> value E v q -> (0 < q)%Q -> (q < a / 1000)%Q -> up_to E s q n -> channels E h s (CText (str "auto")) n
| ch_beam_high a v q : value E (sp_amp s) a -> sc_hv (h_scope h) = Some v -> value E v q -> (q <= 0)%Q \/ (a / 1000 <= q)%Q -> channels E h s (CText (str "auto")) (zlen (sp_data s))
| ch_no_beam : sc_hv (h_scope h) = None -> channels E h s (CText (str "auto")) (zlen (sp_data s))
| ch_other t : other_text t -> channels E h s (CText t) (zlen (sp_data s))
| ch_all : channels E h s CNone (zlen (sp_data s)).
(** The number of groups of [ds] that cover [n] *)
Definition groups_of (n ds k : Z) : Prop := n <= k * ds /\ (k - 1) * ds < n.

(** * Numbers of maps *)
Lemma parse_one : forall c v, parse_int [c] = Ok v <-> exists d, c = 48 + d /\ 0 <= d <= 9 /\ v = d.
Proof.
  intros c v. unfold parse_int. assert (S : strip [c] = if is_space c then [] else [c]). { unfold strip, rstrip. cbn [lstrip]. destruct (is_space c) eqn:E; [reflexivity|]. cbn [rev app lstrip]. rewrite E. reflexivity. }
  rewrite S. destruct (is_digit c) eqn:D.
  - assert (is_space c = false) as -> by (unfold is_digit in D; unfold is_space; lia). assert (48 <= c <= 57) by (unfold is_digit in D; lia).
    assert (K : match [c] with 45 :: s' => match undec s' with Some n => Ok (- n) | None => Err ValueError end | 43 :: s' => match undec s' with Some n => Ok n | None => Err ValueError end | s' => match undec s' with Some n => Ok n | None => Err ValueError end end = Ok (c - 48)).
    { assert (C : c = 48 \/ c = 49 \/ c = 50 \/ c = 51 \/ c = 52 \/ c = 53 \/ c = 54 \/ c = 55 \/ c = 56 \/ c = 57) by lia. decompose [or] C; subst c; reflexivity. }
    rewrite K. split; [intro Q; injection Q as <-; exists (c - 48); lia|]. intros (d & -> & R & ->). f_equal. lia.
  - split; [|intros (d & -> & R & ->); unfold is_digit in D; lia]. intro H. exfalso. destruct (is_space c); [discriminate|].
    destruct (Z.eq_dec c 45) as [->|N1]; [discriminate|]. destruct (Z.eq_dec c 43) as [->|N2]; [discriminate|].
    assert (K : match [c] with 45 :: s' => match undec s' with Some n => Ok (- n) | None => Err ValueError end | 43 :: s' => match undec s' with Some n => Ok n | None => Err ValueError end | s' => match undec s' with Some n => Ok n | None => Err ValueError end end = match undec [c] with Some n => Ok n | None => Err ValueError end).
    { destruct c as [|p|p]; [reflexivity| |reflexivity]. do 6 (destruct p as [p|p|]; try reflexivity); congruence. }
    rewrite K in H. unfold undec in H. cbn [undec_aux] in H. rewrite D in H. discriminate.
Qed.
Lemma last_spec : forall n v, last_digit n = Ok v <-> exists p d, n = p ++ [48 + d] /\ 0 <= d <= 9 /\ v = d.
Proof.
  intros n v. unfold last_digit. destruct (rev n) as [|c r] eqn:E.
  - split; [discriminate|]. intros (p & d & -> & _). rewrite rev_app_distr in E. discriminate.
  - assert (EN : n = rev r ++ [c]) by (rewrite <- (rev_involutive n), E; reflexivity). rewrite parse_one. split.
    + intros (d & -> & R & ->). exists (rev r), d. repeat split; [exact EN|lia..].
    + intros (p & d & K & R & ->). rewrite EN in K. apply app_inj_tail in K. destruct K as [_ ->]. exists d. repeat split; lia.
Qed.
Theorem C136_numbers : forall names l, indexes_of names = Ok l <-> numbered names l.
Proof.
  intros names. unfold indexes_of. induction names as [|n names IH]; intro l.
  - cbn. split; [intro H; injection H as <-; constructor|]. intro H. inversion H; subst. reflexivity.
  - cbn [filter]. destruct (contains (str "SpectrumData") n) eqn:C.
    + cbn [mapM]. split.
      * intro H. destruct (last_digit n) as [v|] eqn:L; [cbn [bind] in H|discriminate]. destruct (mapM last_digit (filter (contains (str "SpectrumData")) names)) as [r|] eqn:M; [cbn [bind] in H|discriminate]. injection H as <-.
        apply last_spec in L. destruct L as (p & d & EL & R & ->). apply (num_map n p); [apply contains_spec; exact C|exact EL|exact R|apply IH; reflexivity].
      * intro H. inversion H as [|? ? ? NO NN|? p d ? r OC EP R NN]; subst names0 n0; [exfalso; apply contains_spec in C; contradiction|]. assert (L : last_digit n = Ok d) by (apply last_spec; exists p, d; repeat split; [exact EP|lia..]).
        rewrite L. cbn [bind]. apply IH in NN. rewrite NN. reflexivity.
    + split.
      * intro H. constructor; [apply contains_not; exact C|apply IH; exact H].
      * intro H. inversion H; [apply IH; assumption|]. exfalso. match goal with K : occurs _ _ |- _ => apply contains_spec in K; congruence end.
Qed.
Lemma least_spec : forall l x, In (least x l) (x :: l) /\ Forall (fun y => least x l <= y) (x :: l).
Proof.
  induction l as [|y l IH]; intro x; cbn [least]; [split; [left; reflexivity|repeat constructor; lia]|].
  destruct (IH (if y <? x then y else x)) as [A B]. destruct (y <? x) eqn:E.
  - split; [right; exact A|]. inversion B; subst. constructor; [lia|exact B].
  - inversion B; subst. split; [destruct A as [<-|A]; [left; reflexivity|right; right; exact A]|]. constructor; [assumption|]. constructor; [lia|assumption].
Qed.
(** Which maps are given *)
Theorem C136_choice : forall E file names top i ds c ins l av, numbered names av -> bcf_reader E file names top (Some (str "spectrum_image")) i ds c ins = Ok l ->
  exists h js, hyper_header E top av ins = Ok h /\ asked av i js /\ Forall2 (fun j it => exists s, it = Signal s /\ map_signal E file h ds c j = Ok s) js l.
Proof.
  intros E file names top i ds c ins l av HN H. apply C136_numbers in HN. unfold bcf_reader in H. rewrite HN in H. cbn [bind] in H. destruct (minimum av) as [m|] eqn:EM; [cbn [bind] in H|discriminate].
  destruct (hyper_header E top av ins) as [h|] eqn:EH; [cbn [bind] in H|discriminate]. replace (eqb_str (str "spectrum_image") (str "image")) with false in H by reflexivity. rewrite eqb_str_refl in H. exists h. unfold hyperspectra in H.
  assert (MF : forall js its, mapM (fun j => bind (map_signal E file h ds c j) (fun s => Ok (Signal s))) js = Ok its -> Forall2 (fun j it => exists s, it = Signal s /\ map_signal E file h ds c j = Ok s) js its).
  { induction js as [|j js IH]; intros its K; cbn [mapM] in K; [injection K as <-; constructor|]. destruct (map_signal E file h ds c j) as [s|] eqn:ES; [cbn [bind] in K|discriminate].
    match type of K with bind ?r _ = _ => destruct r as [r'|] eqn:ER; [cbn [bind] in K|discriminate] end. injection K as <-. constructor; [exists s; split; [reflexivity|exact ES]|apply IH; reflexivity]. }
  match type of H with bind ?r _ = _ => destruct r as [js|] eqn:EJ; [cbn [bind] in H|discriminate] end. exists js. split; [reflexivity|]. split; [|apply MF; exact H].
  destruct i as [|t|n|].
  - rewrite EM in EJ. cbn [bind] in EJ. injection EJ as <-. unfold minimum in EM. destruct av as [|x av]; [discriminate|]. injection EM as <-. destruct (least_spec av x) as [A B]. constructor; assumption.
  - destruct (eqb_str t (str "all")) eqn:ET; [|discriminate]. injection EJ as <-. apply eqb_str_spec in ET. subst t. constructor.
  - cbn [check_index] in EJ. destruct (existsb (Z.eqb n) av) eqn:EX; [|discriminate]. injection EJ as <-. constructor. apply existsb_exists in EX. destruct EX as (x & I & Q). apply Z.eqb_eq in Q. subst x. exact I.
  - discriminate.
Qed.
(** What cannot be chosen *)
Theorem C136_wrong : forall E file h av i ds c, (forall js, ~ asked av i js) -> i <> INone ->
  hyperspectra E file h av i ds c = Err (match i with INumber _ => IndexError | _ => TypeError end).
Proof.
  intros E file h av i ds c HN HI. unfold hyperspectra. destruct i as [|t|n|]; [congruence| | |reflexivity].
  - destruct (eqb_str t (str "all")) eqn:ET; [|reflexivity]. apply eqb_str_spec in ET. subst t. exfalso. apply (HN av). constructor.
  - cbn [check_index]. destruct (existsb (Z.eqb n) av) eqn:EX; [|reflexivity]. exfalso. apply (HN [n]). constructor. apply existsb_exists in EX. destruct EX as (x & I & Q). apply Z.eqb_eq in Q. subst x. exact I.
Qed.
(** With no selection: the pictures, then the maps *)
Theorem C136_both : forall E file names top i ds c ins sel a b, sel <> Some (str "image") -> sel <> Some (str "spectrum_image") ->
  bcf_reader E file names top (Some (str "image")) i ds c ins = Ok a -> bcf_reader E file names top (Some (str "spectrum_image")) i ds c ins = Ok b ->
  bcf_reader E file names top sel i ds c ins = Ok (a ++ b).
Proof.
  intros E file names top i ds c ins sel a b N1 N2 HA HB. unfold bcf_reader in *. destruct (indexes_of names) as [av|]; [cbn [bind] in *|discriminate]. destruct (minimum av); [cbn [bind] in *|discriminate].
  destruct (hyper_header E top av ins) as [h|]; [cbn [bind] in *|discriminate]. rewrite eqb_str_refl in HA, HB. replace (eqb_str (str "spectrum_image") (str "image")) with false in HB by reflexivity. cbn iota in HA, HB.
  assert (S1 : match sel with Some s => eqb_str s (str "image") | None => false end = false). { destruct sel as [s|]; [|reflexivity]. apply eqb_str_neq. congruence. }
  assert (S2 : match sel with Some s => eqb_str s (str "spectrum_image") | None => false end = false). { destruct sel as [s|]; [|reflexivity]. apply eqb_str_neq. congruence. }
  rewrite S1, S2, HB. cbn [bind]. injection HA as <-. reflexivity.
Qed.
Lemma find_two : forall s1 s2 e c n, node [s1] e = Ok c -> node [s2] c = Ok n -> node [s1; s2] e = Ok n.
Proof.
  intros s1 s2 e c n A B. unfold node in *. rewrite find_one in A. unfold find in *. cbn [findall] in *. destruct (filter (fits s1) (x_children e)) as [|c' r]; [discriminate|]. cbn [hd_error] in A. injection A as ->. cbn [flat_map].
  destruct (flat_map (fun e => [e]) (filter (fits s2) (x_children c))) as [|n' r']; [discriminate|]. cbn [hd_error app] in *. exact B.
Qed.
(** The sum spectrum of a map is that of its number *)
Theorem C136_sum : forall E top av ins h root j c n, hyper_header E top av ins = Ok h -> In j av -> first_such (typed "TRTSpectrumDatabase") top root ->
  first_such (tagged (str "SpectrumData" ++ str_int j)) root c -> child "ClassInstance" c n -> exists s, edx E n = Ok s /\ spectrum_of h j = Ok s.
Proof.
  intros E top av ins h root j c n H IJ FR FC FN. unfold hyper_header in H. destruct (node [inst "TRTSpectrumDatabase"] top) as [root'|] eqn:ER; [cbn [bind] in H|discriminate].
  assert (root' = root). { unfold node in ER. pose proof (find_typed "TRTSpectrumDatabase" top) as FT. destruct (find [inst "TRTSpectrumDatabase"] top) as [r|]; [injection ER as ->|discriminate]. apply (first_unique (typed "TRTSpectrumDatabase") top); [|assumption..]. intro x. destruct (fits (inst "TRTSpectrumDatabase") x) eqn:Q; [left; apply fits_inst; exact Q|right; intro Z; apply fits_inst in Z; congruence]. }
  subst root'. match type of H with bind ?r _ = _ => destruct r; [cbn [bind] in H|discriminate] end. repeat (match type of H with bind ?r _ = Ok _ => destruct r eqn:?; [cbn [bind] in H|discriminate] | (let (_, _) := ?p in _) = Ok _ => destruct p end).
  injection H as <-. unfold spectrum_of. cbn [h_spectra]. match goal with K : sum_spectra E root av = Ok ?sp |- _ => rename K into HS end. unfold sum_spectra in HS.
  assert (ND : node [(str "SpectrumData" ++ str_int j, []); plain "ClassInstance"] root = Ok n).
  { exact (find_two _ _ _ _ _ (tag_node _ _ _ FC) (child_node _ _ _ FN)). }
  revert HS. clear - IJ ND. match goal with |- mapM _ _ = Ok ?x -> _ => generalize x end. induction av as [|i av IH]; [destruct IJ|]. intros l H. cbn [mapM] in H.
  destruct (Z.eq_dec i j) as [->|NE].
  - rewrite ND in H. cbn [bind] in H. destruct (edx E n) as [s|] eqn:ES; [cbn [bind] in H|discriminate]. match type of H with bind ?r _ = _ => destruct r; [cbn [bind] in H|discriminate] end. injection H as <-.
    exists s. split; [reflexivity|]. cbn [List.find fst]. rewrite Z.eqb_refl. reflexivity.
  - destruct IJ as [->|IJ]; [congruence|]. match type of H with bind ?r _ = _ => destruct r as [p|] eqn:EP; [cbn [bind] in H|discriminate] end.
    match type of H with bind ?r _ = _ => destruct r as [r'|] eqn:EM; [cbn [bind] in H|discriminate] end. injection H as <-. destruct (IH IJ r' eq_refl) as (s & A & B). exists s. split; [exact A|]. cbn [List.find].
    match type of EP with bind ?r _ = _ => destruct r; [cbn [bind] in EP|discriminate] end. match type of EP with bind ?r _ = _ => destruct r; [cbn [bind] in EP|discriminate] end. injection EP as <-. cbn [fst]. replace (i =? j) with false by lia. exact B.
Qed.

(** * Channels *)
Lemma number_spec : forall E v q, number E v = Ok q <-> value E v q.
Proof.
  intros E v q. unfold number, value. split.
  - destruct v as [|[s|n]| |]; try discriminate. destruct (e_num E n) as [q'|] eqn:K; [|discriminate]. intro H. injection H as <-. exists n. split; [reflexivity|exact K].
  - intros (n & -> & K). rewrite K. reflexivity.
Qed.
Lemma rhe_even : forall a b, 0 < b -> 2 * Z.abs (round_half_even a b * b - a) = b -> Z.even (round_half_even a b) = true.
Proof.
  intros a b Hb. unfold round_half_even. pose proof (Z.div_mod a b ltac:(lia)). pose proof (Z.mod_pos_bound a b Hb). set (q := a / b) in *. set (r := a mod b) in *. clearbody q r.
  destruct (2 * r <? b) eqn:E1; [intro K; exfalso; replace (q * b - a) with (- r) in K by lia; lia|]. destruct (b <? 2 * r) eqn:E2; [intro K; exfalso; replace ((q + 1) * b - a) with (b - r) in K by lia; lia|].
  destruct (Z.even q) eqn:EV; [intros _; exact EV|]. intros _. replace (q + 1) with (Z.succ q) by lia. rewrite Z.even_succ, <- Z.negb_even, EV. reflexivity.
Qed.
Lemma round_nearest : forall x, nearest x (round_half_even (Qnum x) (Zpos (Qden x))).
Proof.
  intros [a b]. cbn [Qnum Qden]. pose proof (rhe_err a (Zpos b) ltac:(lia)) as H. pose proof (rhe_even a (Zpos b) ltac:(lia)) as G. set (n := round_half_even a (Zpos b)) in *. clearbody n.
  assert (K : (Qabs ((a # b) - inject_Z n) == (Z.abs (n * Zpos b - a) # b))%Q).
  { unfold Qabs, Qminus, Qplus, Qopp, inject_Z, Qeq. cbn. rewrite !Pos.mul_1_r, !Z.mul_1_r. f_equal. lia. }
  split.
  - rewrite K. unfold Qle. cbn. lia.
  - rewrite K. unfold Qeq. cbn. intro Q. apply G. lia.
Qed.
Lemma channel_spec : forall E s e n, channel E s e = Ok n -> up_to E s e n.
Proof.
  intros E s e n H. unfold channel in H. destruct (number E (sp_offset s)) as [o|] eqn:EO; [cbn [bind] in H|discriminate]. destruct (number E (sp_scale s)) as [k|] eqn:EK; [cbn [bind] in H|discriminate].
  destruct (Qeq_bool k 0) eqn:Z0; [discriminate|]. injection H as <-. exists o, k. repeat split; [apply number_spec; exact EO|apply number_spec; exact EK|apply Qeq_bool_neq; exact Z0|apply round_nearest..].
Qed.
Lemma last_none : forall l i, last_nonzero l i = None -> black l.
Proof. induction l as [|x l IH]; intros i H; [constructor|]. cbn [last_nonzero] in H. destruct (last_nonzero l (i + 1)) eqn:E; [discriminate|]. destruct (x =? 0) eqn:X; [|discriminate]. constructor; [lia|eapply IH; exact E]. Qed.
Lemma last_some : forall l i j, last_nonzero l i = Some j -> exists a x b, l = a ++ x :: b /\ x <> 0 /\ black b /\ j = i + zlen a.
Proof.
  induction l as [|x l IH]; intros i j H; [discriminate|]. cbn [last_nonzero] in H. destruct (last_nonzero l (i + 1)) as [k|] eqn:E.
  - injection H as <-. destruct (IH _ _ E) as (a & y & b & -> & N & B & ->). exists (x :: a), y, b. split; [reflexivity|]. split; [exact N|]. split; [exact B|unfold zlen; cbn [List.length]; lia].
  - destruct (x =? 0) eqn:X; [discriminate|]. injection H as <-. exists [], x, l. split; [reflexivity|]. split; [lia|]. split; [eapply last_none; exact E|cbn; lia].
Qed.
Lemma n_channels_spec : forall E h s c n, n_channels E h s c = Ok n -> channels E h s c n.
Proof.
  intros E h s c n H. unfold n_channels in H. destruct c as [q|t|].
  - constructor. apply channel_spec. exact H.
  - destruct (eqb_str t (str "zealous")) eqn:T1.
    + apply eqb_str_spec in T1. subst t. destruct (last_nonzero (sp_data s) 0) as [i|] eqn:L; [|discriminate]. injection H as <-. constructor. destruct (last_some _ _ _ L) as (a & x & b & K & N & B & ->). exists a, x, b. split; [exact K|]. split; [exact N|]. split; [exact B|lia].
    + destruct (eqb_str t (str "auto")) eqn:T2.
      * apply eqb_str_spec in T2. subst t. unfold min_channels in H. destruct (number E (sp_amp s)) as [a|] eqn:EA; [cbn [bind] in H|discriminate]. apply number_spec in EA.
        destruct (sc_hv (h_scope h)) as [v|] eqn:EV; [|injection H as <-; apply ch_no_beam; exact EV]. destruct (number E v) as [q|] eqn:EQ; [cbn [bind] in H|discriminate]. apply number_spec in EQ.
        destruct (Qle_bool q 0) eqn:L0; [cbn [negb andb] in H; injection H as <-; eapply ch_beam_high; try eassumption; left; apply Qle_bool_iff; exact L0|].
        destruct (Qle_bool (a / 1000) q) eqn:L1; [cbn [negb andb] in H; injection H as <-; eapply ch_beam_high; try eassumption; right; apply Qle_bool_iff; exact L1|].
        cbn [negb andb] in H. eapply ch_beam; try eassumption; [apply Qnot_le_lt; intro K; apply Qle_bool_iff in K; congruence..|apply channel_spec; exact H].
      * injection H as <-. constructor. split; apply eqb_str_neq; assumption.
  - injection H as <-. constructor.
Qed.
Lemma cdiv_spec : forall n ds, 0 < ds -> groups_of n ds (cdiv n ds).
Proof. intros n ds H. unfold groups_of, cdiv. pose proof (Z.div_mod (- n) ds ltac:(lia)). pose proof (Z.mod_pos_bound (- n) ds H). nia. Qed.
(** The axes of a map, and where its data come from *)
Theorem C137_map : forall E file h ds c j sg, map_signal E file h ds c j = Ok sg -> 0 < ds ->
  exists s hh ww n y sy ux top rest, spectrum_of h j = Ok s /\ groups_of (im_height (h_image h)) ds hh /\ groups_of (im_width (h_image h)) ds ww /\ channels E h s c n /\
    (match lookup (str "DY") (sc_sem (h_scope h)) with Some v => value E v y | None => y = 1%Q end) /\ units (sc_sem (h_scope h)) ux /\ sy = (y * inject_Z ds)%Q /\
    s_axes sg = [{| a_name := "height"; a_size := hh; a_offset := None; a_scale := STimes sy; a_units := ux; a_nav := Some true |};
                 {| a_name := "width"; a_size := ww; a_offset := None; a_scale := STimes sy; a_units := ux; a_nav := Some true |};
                 {| a_name := "Energy"; a_size := n; a_offset := Some (sp_offset s); a_scale := SGiven (sp_scale s); a_units := str "keV"; a_nav := Some false |}] /\
    sp_data s = rest /\ In top rest /\ Forall (fun x => x <= top) rest /\
    e_parse E j (hh, ww, n) (map_depth top (im_width (h_image h)) (im_height (h_image h)) ds (negb (e_fast E))) ds = Ok (s_data sg).
Proof.
  intros E file h ds c j sg H Hd. unfold map_signal in H. unfold hypermap in H. destruct (spectrum_of h j) as [s|] eqn:ES; [cbn [bind] in H|discriminate]. destruct (n_channels E h s c) as [n|] eqn:EN; [cbn [bind] in H|discriminate].
  replace (ds =? 0) with false in H by lia. destruct (sp_data s) as [|x l] eqn:ED; [discriminate|]. cbn [bind] in H.
  match type of H with bind (bind ?r _) _ = _ => destruct r as [data|] eqn:EP; [cbn [bind] in H|discriminate] end.
  destruct (factor E (res_of "DY" (h_scope h))) as [y|] eqn:EY; [cbn [bind] in H|discriminate]. repeat (match type of H with bind ?r _ = Ok _ => destruct r; [cbn [bind] in H|discriminate] end). injection H as <-.
  exists s, (cdiv (im_height (h_image h)) ds), (cdiv (im_width (h_image h)) ds), n, y, (y * inject_Z ds)%Q, (units_of (h_scope h)), (greatest x l), (x :: l). cbn [s_axes s_data].
  assert (G : forall l x, In (greatest x l) (x :: l) /\ Forall (fun y => y <= greatest x l) (x :: l)).
  { clear. induction l as [|y l IH]; intro x; cbn [greatest]; [split; [left; reflexivity|repeat constructor; lia]|]. destruct (IH (if x <? y then y else x)) as [A B]. destruct (x <? y) eqn:Q.
    - split; [right; exact A|]. inversion B; subst. constructor; [lia|exact B].
    - inversion B; subst. split; [destruct A as [<-|A]; [left; reflexivity|right; right; exact A]|]. constructor; [assumption|]. constructor; [lia|assumption]. }
  destruct (G l x) as [G1 G2]. split; [reflexivity|]. split; [apply cdiv_spec; exact Hd|]. split; [apply cdiv_spec; exact Hd|]. split; [apply n_channels_spec; exact EN|]. split.
  { unfold res_of in EY. destruct (lookup (str "DY") (sc_sem (h_scope h))) as [v|]; cbn [factor] in EY; [apply number_spec; exact EY|congruence]. }
  split; [apply units_spec|]. split; [reflexivity|]. split; [reflexivity|]. split; [exact ED|]. split; [exact G1|]. split; [exact G2|exact EP].
Qed.
(** The width is scaled by the distance of rows, which is right when both distances are the same *)
Theorem C137_square : forall E file h ds c j sg v, map_signal E file h ds c j = Ok sg -> lookup (str "DX") (sc_sem (h_scope h)) = Some v -> lookup (str "DY") (sc_sem (h_scope h)) = Some v ->
  exists a x e q, s_axes sg = [a; x; e] /\ value E v q /\ a_scale x = STimes (q * inject_Z ds)%Q.
Proof.
  intros E file h ds c j sg v H HX HY. unfold map_signal in H. destruct (hypermap E h j ds c) as [[[[hh ww] n] data]|]; [cbn [bind] in H|discriminate]. destruct (spectrum_of h j) as [s|]; [cbn [bind] in H|discriminate].
  unfold res_of at 1 in H. rewrite HY in H. cbn [factor] in H. destruct (number E v) as [q|] eqn:EQ; [cbn [bind] in H|discriminate]. repeat (match type of H with bind ?r _ = Ok _ => destruct r; [cbn [bind] in H|discriminate] end). injection H as <-.
  cbn [s_axes]. do 3 eexists. exists q. split; [reflexivity|]. split; [apply number_spec; exact EQ|reflexivity].
Qed.
