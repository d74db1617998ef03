(** Delmic files: units and axes (C109), kinds of acquisitions (C110). *)
From Coq Require Import QArith Qabs Lqa Lia.
From Verif Require Import Base Text HierModel HierProps DistModel RowMajor DmcModel.
Local Open Scope Z_scope.

(** * Spec: what a prefix is worth, and the place an axis gives a pixel, in metres or seconds *)
Definition worth (p : pystr) : Q :=
  match p with
  | [102] => (1 # 1000000000000000)%Q | [112] => (1 # 1000000000000)%Q | [110] => (1 # 1000000000)%Q
  | [181] => (1 # 1000000)%Q | [109] => (1 # 1000)%Q | _ => 1%Q
  end.
Definition axis_value (c : content) (i : nat) : option Q :=
  match c with
  | Bare => None
  | Values l _ => nth_error l i
  | Uniform n o s _ => if (Z.of_nat i <? n) then Some (o + inject_Z (Z.of_nat i) * s)%Q else None
  end.
Definition axis_units (c : content) : pystr := match c with Bare => [] | Values _ u => u | Uniform _ _ _ u => u end.
Definition gives (c : content) (unit : Z) (i : nat) (q : Q) : Prop :=
  exists v p, axis_value c i = Some v /\ axis_units c = p ++ [unit] /\ (v * worth p == q)%Q.

(** * Units *)
Lemma qabs_eq q : (qabs q == Qabs q)%Q.
Proof.
  unfold qabs. destruct (Qle_bool 0 q) eqn:E.
  - apply Qle_bool_iff in E. symmetry. now apply Qabs_pos.
  - assert (q <= 0)%Q. { apply Qnot_lt_le. intros H. apply Qlt_le_weak in H. apply Qle_bool_iff in H. congruence. }
    symmetry. now apply Qabs_neg.
Qed.
Lemma between_iff a x b : between a x b = true <-> (a <= x /\ x < b)%Q.
Proof.
  unfold between, below. rewrite andb_true_iff, negb_true_iff, Qle_bool_iff. split; intros [H1 H2]; split; auto.
  - apply Qnot_le_lt. intros H. apply Qle_bool_iff in H. congruence.
  - destruct (Qle_bool b x) eqn:E; auto. apply Qle_bool_iff in E. exfalso. revert H2. now apply Qle_not_lt.
Qed.
Lemma between_not a x b : between a x b = false -> (a <= x -> b <= x)%Q.
Proof.
  intros H Ha. destruct (Qlt_le_dec x b) as [L|]; auto. assert (between a x b = true) by now apply between_iff. congruence.
Qed.

Theorem C109_units : forall q, (worth (unit_prefix q) * unit_factor (unit_prefix q) == 1)%Q /\
  ((1 # 1000000000000000) <= Qabs q -> Qabs q < 1 -> 1 <= Qabs (q * unit_factor (unit_prefix q)) /\ Qabs (q * unit_factor (unit_prefix q)) < 1000)%Q /\
  ((Qabs q < 1 # 1000000000000000 \/ 1 <= Qabs q)%Q -> unit_prefix q = []).
Proof.
  intros q. unfold unit_prefix. pose proof (qabs_eq q) as E.
  rewrite Qabs_Qmult.
  change (ten_to 15) with (1 # 1000000000000000)%Q. change (ten_to 12) with (1 # 1000000000000)%Q. change (ten_to 9) with (1 # 1000000000)%Q.
  change (ten_to 6) with (1 # 1000000)%Q. change (ten_to 3) with (1 # 1000)%Q.
  destruct (between (1 # 1000000000000000) (qabs q) (1 # 1000000000000)) eqn:B1; [| destruct (between (1 # 1000000000000) (qabs q) (1 # 1000000000)) eqn:B2; [| destruct (between (1 # 1000000000) (qabs q) (1 # 1000000)) eqn:B3;
    [| destruct (between (1 # 1000000) (qabs q) (1 # 1000)) eqn:B4; [| destruct (between (1 # 1000) (qabs q) 1) eqn:B5]]]].
  1-5: (match goal with H : between _ _ _ = true |- _ => apply between_iff in H; rewrite E in H end); repeat (match goal with H : between _ _ _ = false |- _ => clear H end); (split; [reflexivity|split]); [| intros [H|H]; exfalso; lra].
  - intros _ _. change (Qabs (unit_factor (str "f"))) with (1000000000000000 # 1)%Q. lra.
  - intros _ _. change (Qabs (unit_factor (str "p"))) with (1000000000000 # 1)%Q. lra.
  - intros _ _. change (Qabs (unit_factor (str "n"))) with (1000000000 # 1)%Q. lra.
  - intros _ _. change (Qabs (unit_factor [181])) with (1000000 # 1)%Q. lra.
  - intros _ _. change (Qabs (unit_factor (str "m"))) with (1000 # 1)%Q. lra.
  - split; [reflexivity|split]; [|reflexivity]. intros H1 H2. exfalso. rewrite <- E in H1, H2.
    pose proof (between_not _ _ _ B1 H1) as K1. pose proof (between_not _ _ _ B2 K1) as K2. pose proof (between_not _ _ _ B3 K2) as K3. pose proof (between_not _ _ _ B4 K3) as K4.
    pose proof (between_not _ _ _ B5 K4) as K5. lra.
Qed.

(** * Axes *)
Lemma worth_factor q : (worth (unit_prefix q) * unit_factor (unit_prefix q) == 1)%Q.
Proof. apply C109_units. Qed.

(** the places of the pixels along X, Y or Z: the image is centred at the stored offset, and Y goes up *)
Theorem C109_place : forall scales label size key offset (up : bool) s center,
  In (label, key, offset, up) [("X", "DimensionScaleX", "XOffset", false); ("Y", "DimensionScaleY", "YOffset", true); ("Z", "DimensionScaleZ", "ZOffset", false)]%string ->
  lookup (str key) scales = Some [s] -> lookup (str offset) scales = Some [center] ->
  let x := make_axis scales (str label) size in
  x_name x = str label /\
  (forall i, Z.of_nat i < size -> gives (x_content x) 109 i (center + (if up then - 1 else 1) * (inject_Z (Z.of_nat i) - inject_Z (size - 1) / 2) * s)%Q) /\
  (forall i, size <= Z.of_nat i -> axis_value (x_content x) i = None) /\
  (forall o st u, x_content x = Uniform size o st u -> (Qabs st < 1000)%Q \/ (1 <= Qabs s)%Q).
Proof.
  intros scales label size key offset up s center HI HS HO.
  assert (make_axis scales (str label) size =
    {| x_name := str label; x_content := let p := unit_prefix s in let s' := if up then (- s)%Q else s in Uniform size ((center - (inject_Z (size - 1) / 2) * s') * unit_factor p) (s' * unit_factor p) (p ++ [109]) |}) as E.
  { cbn [In] in HI. destruct HI as [H|[H|[H|[]]]]; inversion H; subst label key offset up; unfold make_axis; cbn [axis_info]; unfold axis_info;
    repeat (match goal with |- context [if eqb_str ?a ?b then _ else _] => let v := eval vm_compute in (eqb_str a b) in change (eqb_str a b) with v end; cbv beta iota);
    rewrite HS, HO; unfold place; cbn zeta;
    (match goal with |- context [eqb_str ?a ?b] => let v := eval vm_compute in (eqb_str a b) in change (eqb_str a b) with v end); reflexivity. }
  intros x. unfold x. rewrite E. clear x E HI HS HO. cbn [x_name x_content]. cbn zeta. pose proof (worth_factor s) as W.
  split; [reflexivity|]. split; [|split].
  - intros i Hi. exists ((center - (inject_Z (size - 1) / 2) * (if up then (- s) else s)) * unit_factor (unit_prefix s) + inject_Z (Z.of_nat i) * ((if up then (- s) else s) * unit_factor (unit_prefix s)))%Q, (unit_prefix s).
    cbn [axis_value axis_units]. assert (Z.of_nat i <? size = true) as -> by lia. split; [reflexivity|split; [reflexivity|]].
    set (f := unit_factor _) in *. set (w := worth _) in *. set (k := inject_Z (Z.of_nat i)). set (h := (inject_Z (size - 1) / 2)%Q).
    transitivity ((center + (if up then - 1 else 1) * (k - h) * s) * (w * f))%Q; [destruct up; ring|]. rewrite W. ring.
  - intros i Hi. cbn [axis_value]. assert (Z.of_nat i <? size = false) as -> by lia. reflexivity.
  - intros o st u H. injection H as _ H _. subst st. destruct (Qlt_le_dec (Qabs s) 1) as [L|L]; [left|now right].
    assert (Qabs ((if up then - s else s) * unit_factor (unit_prefix s)) == Qabs (s * unit_factor (unit_prefix s)))%Q as ->.
    { destruct up; [|reflexivity]. rewrite !Qabs_Qmult, Qabs_opp. reflexivity. }
    destruct (C109_units s) as (_ & A & B). destruct (Qlt_le_dec (Qabs s) (1 # 1000000000000000)) as [S|S].
    + rewrite B by now left. change (unit_factor []) with 1%Q. rewrite Qmult_1_r. lra.
    + destruct (A S L); assumption.
Qed.

(** wavelengths and times: every stored value, in the units given *)
Theorem C109_values : forall scales label size name key unit l,
  In (label, name, key, unit) [("C", "Wavelength", "DimensionScaleC", 109); ("T", "Time", "DimensionScaleT", 115)]%string ->
  lookup (str key) scales = Some l ->
  let x := make_axis scales (str label) size in
  x_name x = str name /\ (forall i q, nth_error l i = Some q -> gives (x_content x) unit i q) /\ (forall i, nth_error l i = None -> axis_value (x_content x) i = None).
Proof.
  intros scales label size name key unit l HI HS.
  assert (make_axis scales (str label) size = {| x_name := str name; x_content := scaled l unit |}) as E.
  { cbn [In] in HI. destruct HI as [H|[H|[]]]; inversion H; subst label name key unit; unfold make_axis; unfold axis_info;
    repeat (match goal with |- context [if eqb_str ?a ?b then _ else _] => let v := eval vm_compute in (eqb_str a b) in change (eqb_str a b) with v end; cbv beta iota);
    rewrite HS; reflexivity. }
  intros x. unfold x. rewrite E. cbn [x_name x_content]. split; [reflexivity|]. unfold scaled. cbn zeta. split.
  - intros i q Hi. set (p := match l with [] => [] | _ => unit_prefix (mean l) end). assert (p = unit_prefix (mean l)) as -> by (unfold p; destruct l; [destruct i; discriminate|reflexivity]).
    exists (q * unit_factor (unit_prefix (mean l)))%Q, (unit_prefix (mean l)). cbn [axis_value axis_units]. split; [|split; [reflexivity|]].
    + rewrite nth_error_map, Hi. reflexivity.
    + pose proof (worth_factor (mean l)) as W. rewrite <- Qmult_assoc, (Qmult_comm (unit_factor _)), W. ring.
  - intros i Hi. cbn [axis_value]. rewrite nth_error_map, Hi. reflexivity.
Qed.

(** angles are numbered; a dimension without a scale, or of an unknown label, has its name only *)
Theorem C109_angle : forall scales size l, lookup (str "DimensionScaleA") scales = Some l ->
  let x := make_axis scales (str "A") size in x_name x = str "Angle" /\ axis_units (x_content x) = [] /\ forall i, (i < Z.to_nat size)%nat -> axis_value (x_content x) i = Some (inject_Z (Z.of_nat i)).
Proof.
  intros scales size l HS x. unfold x, make_axis, axis_info.
  repeat (match goal with |- context [if eqb_str ?a ?b then _ else _] => let v := eval vm_compute in (eqb_str a b) in change (eqb_str a b) with v end; cbv beta iota).
  rewrite HS. cbn [x_name x_content]. repeat split. intros i Hi. cbn [axis_value]. rewrite nth_error_map, nth_error_zseq by lia. reflexivity.
Qed.
Theorem C109_bare : forall scales label name size,
  (In (label, name) [("C", "Wavelength"); ("T", "Time"); ("A", "Angle"); ("Z", "Z"); ("Y", "Y"); ("X", "X")]%string /\ lookup (str ("DimensionScale" ++ label)%string) scales = None) ->
  make_axis scales (str label) size = {| x_name := str name; x_content := Bare |}.
Proof.
  intros scales label name size [HI HS]. cbn [In] in HI.
  destruct HI as [H|[H|[H|[H|[H|[H|[]]]]]]]; inversion H; subst label name; cbn [String.append] in HS; unfold make_axis, axis_info;
    repeat (match goal with |- context [if eqb_str ?a ?b then _ else _] => let v := eval vm_compute in (eqb_str a b) in change (eqb_str a b) with v end; cbv beta iota);
    rewrite HS; reflexivity.
Qed.
Theorem C109_unknown : forall scales label size, ~ In label (map str ["C"; "T"; "A"; "Z"; "Y"; "X"]%string) -> make_axis scales label size = {| x_name := label; x_content := Bare |}.
Proof.
  intros scales label size H. unfold make_axis, axis_info.
  assert (forall s, In s ["C"; "T"; "A"; "Z"; "Y"; "X"]%string -> eqb_str label (str s) = false) as K.
  { intros s Hs. destruct (eqb_str label (str s)) eqn:E; auto. apply eqb_str_spec in E. subst. exfalso. apply H. now apply in_map. }
  rewrite !K by (cbn; tauto). reflexivity.
Qed.

(** * Kinds *)
(** what kind an acquisition is: the title, the number of wavelengths, angles and times, and whether a pole position is known *)
Inductive Kind (title : value) (c a t : Z) (pole : bool) : acq -> Prop :=
| KAnchor : title = VText (str "Anchor region") -> Kind title c a t pole Anchor
| KEk1 : title <> VText (str "Anchor region") -> a > 1 -> c > 1 -> Kind title c a t pole EK1
| KAngles : title <> VText (str "Anchor region") -> a > 1 -> c <= 1 -> Kind title c a t pole Unknown
| KTemporal : title <> VText (str "Anchor region") -> a <= 1 -> t > 1 -> c = 1 -> Kind title c a t pole Temporal
| KTempSpec : title <> VText (str "Anchor region") -> a <= 1 -> t > 1 -> c <> 1 -> Kind title c a t pole TempSpec
| KSpectrum : title <> VText (str "Anchor region") -> a <= 1 -> t <= 1 -> c > 1 -> Kind title c a t pole Spectrum
| KAr : title <> VText (str "Anchor region") -> a <= 1 -> t <= 1 -> c <= 1 -> pole = true -> Kind title c a t pole AR
| KTitle s k : In (s, k) [("Secondary electrons concurrent", SE); ("Secondary electrons survey", Survey); ("CL intensity", PMT)]%string ->
    title = VText (str s) -> a <= 1 -> t <= 1 -> c <= 1 -> pole = false -> Kind title c a t pole k
| KOther : ~ In title (map (fun s => VText (str s)) ["Anchor region"; "Secondary electrons concurrent"; "Secondary electrons survey"; "CL intensity"]%string) ->
    a <= 1 -> t <= 1 -> c <= 1 -> pole = false -> Kind title c a t pole Unknown.
(** number of positions along the axis of a name: of the first dimension of that name, else 1 *)
Inductive Along (n : pystr) : list axis -> list Z -> Z -> Prop :=
| along_none axes shape : Forall (fun p => x_name (fst p) <> n) (combine axes shape) -> Along n axes shape 1
| along_some axes1 x axes2 shape1 k shape2 : List.length axes1 = List.length shape1 -> Forall (fun y => x_name y <> n) axes1 -> x_name x = n -> Along n (axes1 ++ x :: axes2) (shape1 ++ k :: shape2) k.
Lemma along_length (n : string) : forall axes shape, Along (str n) axes shape (axis_length n axes shape).
Proof.
  induction axes as [|x axes IH]; intros [|k shape]; cbn [axis_length]; try (apply along_none; constructor).
  destruct (eqb_str (x_name x) (str n)) eqn:E.
  - apply eqb_str_spec in E. apply (along_some (str n) [] x axes [] k shape); auto.
  - assert (x_name x <> str n) as N by (intros H; rewrite H, eqb_str_refl in E; discriminate).
    destruct (IH shape) as [? ? H|a1 x' a2 s1 k' s2 H1 H2 H3].
    + apply along_none. cbn [combine]. constructor; auto.
    + apply (along_some (str n) (x :: a1) x' a2 (k :: s1) k' s2); auto. cbn. now rewrite H1.
Qed.
Lemma text_is title s : (match title with VText t => eqb_str t (str s) | _ => false end) = true <-> title = VText (str s).
Proof. destruct title; split; intros H; try discriminate; [f_equal; now apply eqb_str_spec|]. injection H as ->. apply eqb_str_refl. Qed.
Lemma text_is_not title s : (match title with VText t => eqb_str t (str s) | _ => false end) = false -> title <> VText (str s).
Proof. intros H E. apply text_is in E. congruence. Qed.

Theorem C110_kind : forall shape axes md title, lookup (str "ChannelDescription") md = Some title ->
  exists k c a t, guess_type shape axes md = Ok k /\ Along (str "Wavelength") axes shape c /\ Along (str "Angle") axes shape a /\ Along (str "Time") axes shape t /\
  Kind title c a t (match lookup (str "PolePosition") md with Some (VList _) => true | _ => false end) k.
Proof.
  intros shape axes md title H. unfold guess_type. rewrite H. cbn [bind].
  pose proof (along_length "Wavelength" axes shape) as HC. pose proof (along_length "Angle" axes shape) as HA. pose proof (along_length "Time" axes shape) as HT.
  set (c := axis_length "Wavelength" axes shape) in *. set (a := axis_length "Angle" axes shape) in *. set (t := axis_length "Time" axes shape) in *.
  set (pole := match lookup (str "PolePosition") md with Some (VList _) => true | _ => false end).
  clearbody c a t pole. cbn zeta beta.
  destruct (match title with VText t => eqb_str t (str "Anchor region") | _ => false end) eqn:E1.
  { apply text_is in E1. exists Anchor, c, a, t. repeat split; auto. now constructor. }
  apply text_is_not in E1. eexists _, c, a, t. split; [reflexivity|]. repeat split; auto.
  destruct (a >? 1) eqn:A; [destruct (c >? 1) eqn:C; [apply KEk1|apply KAngles]; auto; lia|].
  destruct (t >? 1) eqn:T; [destruct (c =? 1) eqn:C; [apply KTemporal|apply KTempSpec]; auto; lia|].
  destruct (c >? 1) eqn:C; [apply KSpectrum; auto; lia|].
  destruct pole eqn:P; [apply KAr; auto; lia|].
  destruct (match title with VText t => eqb_str t (str "Secondary electrons concurrent") | _ => false end) eqn:E2.
  { apply text_is in E2. eapply KTitle with (s := "Secondary electrons concurrent"%string); cbn; auto; lia. }
  destruct (match title with VText t => eqb_str t (str "Secondary electrons survey") | _ => false end) eqn:E3.
  { apply text_is in E3. eapply KTitle with (s := "Secondary electrons survey"%string); cbn; auto; lia. }
  destruct (match title with VText t => eqb_str t (str "CL intensity") | _ => false end) eqn:E4.
  { apply text_is in E4. eapply KTitle with (s := "CL intensity"%string); cbn; auto 6; lia. }
  apply text_is_not in E2. apply text_is_not in E3. apply text_is_not in E4.
  apply KOther; auto; try lia. cbn [map In]. intuition congruence.
Qed.
Theorem C110_kind_unique : forall title c a t pole k1 k2, Kind title c a t pole k1 -> Kind title c a t pole k2 -> k1 = k2.
Proof.
  assert (forall s k, In (s, k) [("Secondary electrons concurrent", SE); ("Secondary electrons survey", Survey); ("CL intensity", PMT)]%string -> VText (str s) <> VText (str "Anchor region") /\
     In (VText (str s)) (map (fun s => VText (str s)) ["Anchor region"; "Secondary electrons concurrent"; "Secondary electrons survey"; "CL intensity"]%string)) as K.
  { intros s k H. cbn in H. destruct H as [H|[H|[H|[]]]]; inversion H; subst; (split; [discriminate|]); cbn [map In]; tauto. }
  intros title c a t pole k1 k2 H1 H2. destruct H1, H2; try reflexivity; try congruence; try lia;
    try (exfalso; match goal with HI : In (?s, _) _, HE : title = VText (str ?s) |- _ => destruct (K _ _ HI) end; subst title; (congruence || contradiction));
    try (exfalso; subst title; match goal with H : ~ In _ _ |- _ => apply H; cbn; tauto end).
  match goal with HA : In _ _, HB : In _ _ |- _ => cbn [In] in HA, HB; destruct HA as [HA|[HA|[HA|[]]]], HB as [HB|[HB|[HB|[]]]]; inversion HA; inversion HB; subst end; try reflexivity; discriminate.
Qed.

(** * Examples *)
Example c109_prefix : unit_prefix (-5 # 10000000) = str "n" /\ unit_prefix (3 # 100000) = [181] /\ unit_prefix 7 = [].
Proof. now vm_compute. Qed.
Definition xscales : list (pystr * list Q) :=
  [(str "DimensionScaleC", [4 # 10000000; 6 # 10000000]%Q); (str "DimensionScaleX", [2 # 1000000]%Q); (str "XOffset", [1 # 100000]%Q); (str "DimensionScaleY", [2 # 1000000]%Q); (str "YOffset", [1 # 100000]%Q)].
Example c109_axes : map (fun x => (x_name x, match x_content x with Bare => ([], []) | Values l u => (map Qred l, u) | Uniform _ o s u => (map Qred [o; s], u) end)) (make_axes xscales (map str ["C"; "T"; "Z"; "Y"; "X"]%string) [2; 1; 1; 3; 4]) =
  [(str "Wavelength", ([400; 600]%Q, str "nm")); (str "Time", ([], [])); (str "Z", ([], [])); (str "Y", ([12; -2]%Q, [181; 109])); (str "X", ([7; 2]%Q, [181; 109]))].
Proof. now vm_compute. Qed.
Example c109_place_gives : gives (x_content (make_axis xscales (str "Y") 3)) 109 2 (8 # 1000000).
Proof. eexists _, [181]. split; [vm_compute; reflexivity|]. split; vm_compute; reflexivity. Qed.
Example c110_kinds : forall axes, axes = make_axes xscales (map str ["C"; "T"; "Z"; "Y"; "X"]%string) [2; 1; 1; 3; 4] ->
  guess_type [2; 1; 1; 3; 4] axes [(str "ChannelDescription", VText (str "Spectrum"))] = Ok Spectrum /\
  guess_type [1; 1; 1; 3; 4] axes [(str "ChannelDescription", VText (str "CL intensity"))] = Ok PMT /\
  guess_type [1; 1; 1; 3; 4] axes [(str "PolePosition", VList [1; 2]%Q); (str "ChannelDescription", VText (str "CL intensity"))] = Ok AR /\
  guess_type [2; 9; 1; 3; 4] axes [(str "ChannelDescription", VText (str "x"))] = Ok TempSpec.
Proof. intros axes ->. now vm_compute. Qed.

Print Assumptions C109_units.
Print Assumptions C109_place.
Print Assumptions C109_values.
Print Assumptions C109_angle.
Print Assumptions C109_bare.
Print Assumptions C109_unknown.
Print Assumptions C110_kind.
Print Assumptions C110_kind_unique.
