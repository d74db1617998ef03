(** Calibration of TIFF files by the program which wrote them (C131), and what makes reading fail (C132). *)
From Coq Require Import QArith Qround Qfield.
From Verif Require Import Base Text HierModel HierProps SfsModel ArrayModel TifModel TifCal.
Local Open Scope Z_scope.

(** * C131: axes *)
Lemma build_len : forall shape rows, List.length shape = List.length rows -> List.length (build shape rows) = List.length shape.
Proof. induction shape as [|n shape IH]; intros [|[nm [[a b] c]] rows] H; cbn in *; try discriminate; [reflexivity|]. f_equal. apply IH. congruence. Qed.
Lemma build_nth : forall shape rows k n nm sc off un, nth_error shape k = Some n -> nth_error rows k = Some (nm, (sc, off, un)) ->
  nth_error (build shape rows) k = Some (Plain n (match nm with Some s => s | None => "None"%string end) sc off un (Z.of_nat k + 2 <? Z.of_nat (List.length shape))).
Proof.
  induction shape as [|m shape IH]; intros rows [|k] n nm sc off un H1 H2; try discriminate; destruct rows as [|[nm' [[a b] c]] rows]; try discriminate; cbn in H1, H2.
  - injection H1 as <-. injection H2 as -> -> -> ->. cbn [build nth_error]. do 2 f_equal.
  - cbn [build nth_error]. rewrite (IH rows k n nm sc off un H1 H2). do 2 f_equal. cbn [List.length]. destruct (Z.ltb_spec (Z.of_nat k + 2) (Z.of_nat (List.length shape))), (Z.ltb_spec (Z.of_nat (S k) + 2) (Z.of_nat (S (List.length shape)))); reflexivity || lia.
Qed.
Lemma build_inv : forall shape rows k n nm sc off un nav, nth_error (build shape rows) k = Some (Plain n nm sc off un nav) -> nth_error shape k = Some n /\ (nav = true <-> (k + 2 < List.length shape)%nat).
Proof.
  induction shape as [|m shape IH]; intros rows [|k] n nm sc off un nav H; destruct rows as [|[nm' [[a b] c]] rows]; try discriminate; cbn [build nth_error] in H.
  - injection H as <- _ _ _ _ <-. cbn [nth_error]. split; [reflexivity|]. unfold zlen. rewrite Z.ltb_lt. lia.
  - apply IH in H. destruct H as [H1 H2]. cbn [nth_error]. split; [exact H1|]. rewrite H2. cbn [List.length]. lia.
Qed.
Lemma set_at_len : forall {A} (l : list A) i v, List.length (set_at i v l) = List.length l.
Proof. induction l as [|x l IH]; intros [|i] v; cbn; congruence. Qed.
Definition not_plain (a : axis) : Prop := match a with Plain _ _ _ _ _ _ => False | _ => True end.
Lemma set_at_all : forall {A} (P : A -> Prop) (l : list A) i v, P v -> Forall P l -> Forall P (set_at i v l).
Proof. intros A P. induction l as [|x l IH]; intros [|i] v H F; cbn; inversion F; subst; constructor; auto. Qed.
Ltac peel H := repeat match type of H with bind ?r _ = Ok _ => let X := fresh "X" in destruct r eqn:X; [cbn [bind] in H|discriminate] | (let (_, _) := ?p in _) = Ok _ => destruct p end.
Lemma streak_axes : forall E f op shape names how l, axes_streak E f op shape names how = Ok l -> List.length l = List.length names /\ Forall not_plain l.
Proof.
  intros E f op shape names how l H. unfold axes_streak in H. peel H. injection H as <-. rewrite !set_at_len, repeat_length. split; [reflexivity|].
  apply set_at_all.
  - match goal with X : match how with _ => _ end = Ok ?a |- not_plain ?a => rename X into Y end. destruct how as [[| | |]|]; peel Y; try discriminate.
    + injection Y as <-. exact I.
    + injection Y as <-. exact I.
    + match type of Y with match ?ys with [] => _ | _ :: _ => _ end = _ => destruct ys; [discriminate|injection Y as <-; exact I] end.
    + injection Y as <-. exact I.
  - apply set_at_all; [exact I|]. clear. induction (List.length names); cbn; constructor; [exact I|assumption].
Qed.
Lemma axes_of_len : forall shape names c, List.length shape = List.length names -> List.length (axes_of shape names c) = List.length shape.
Proof. intros shape names [[a b] c] H. unfold axes_of. apply build_len. rewrite map_length. exact H. Qed.
Lemma axes_of_inv : forall shape names c k n nm sc off un nav, nth_error (axes_of shape names c) k = Some (Plain n nm sc off un nav) -> nth_error shape k = Some n /\ (nav = true <-> (k + 2 < List.length shape)%nat).
Proof. intros shape names [[a b] c] k n nm sc off un nav H. eapply build_inv. exact H. Qed.
Definition good (shape : list Z) (l : list axis) : Prop := List.length l = List.length shape /\
  forall k n nm sc off un nav, nth_error l k = Some (Plain n nm sc off un nav) -> nth_error shape k = Some n /\ (nav = true <-> (k + 2 < List.length shape)%nat).
Lemma good_axes : forall shape names c, List.length shape = List.length names -> good shape (axes_of shape names c).
Proof. intros shape names c H. split; [apply axes_of_len; exact H|]. intros. eapply axes_of_inv. eassumption. Qed.
Lemma good_plain : forall shape names, List.length shape = List.length names -> good shape (plain_axes shape names).
Proof. intros shape names H. split; [unfold plain_axes; apply build_len; rewrite map_length; exact H|]. intros k n nm sc off un nav A. eapply build_inv. exact A. Qed.
Lemma parse_good : forall E f p op shape force names how l, List.length shape = List.length names -> snd (parse_scale E f p op shape force names how) = Ok l -> good shape l.
Proof.
  intros E f p op shape force names how l HL H. unfold parse_scale in H.
  assert (F : forall r : dict * res cal, snd (fst r, let! c := snd r in Ok (axes_of shape names c)) = Ok l -> good shape l).
  { intros [o [c|e]] A; cbn in A; [|discriminate]. injection A as <-. apply good_axes. exact HL. }
  repeat match type of H with context [if ?b then _ else _] => destruct b; [apply F in H; exact H|] end.
  destruct (is_streak op) as [[|]|]; cbn [snd] in H; [|apply (F (op, _)) in H; exact H|discriminate].
  apply streak_axes in H. destruct H as [H1 H2]. split; [congruence|]. intros k n nm sc off un nav A. apply nth_error_In in A. rewrite Forall_forall in H2. destruct (H2 _ A).
Qed.
Lemma mapM_len : forall {A B} (g : A -> res B) l r, mapM g l = Ok r -> List.length r = List.length l.
Proof. intros A B g. induction l as [|x l IH]; intros r H; cbn in H; [injection H as <-; reflexivity|]. destruct (g x); [cbn in H|discriminate]. destruct (mapM g l) as [m|]; [cbn in H|discriminate]. injection H as <-. cbn. f_equal. apply IH. reflexivity. Qed.
(** One axis for each dimension (without that of colours), in order; exactly the last two are not navigated *)
Theorem C131_axes : forall E f p force how s, List.length (p_axes p) = List.length (p_shape p) -> read_page E f p force how = Ok s ->
  let shape := if p_rgb p then removelast (p_shape p) else p_shape p in
  List.length (s_axes s) = List.length shape /\
  forall k n nm sc off un nav, nth_error (s_axes s) k = Some (Plain n nm sc off un nav) -> nth_error shape k = Some n /\ (nav = true <-> (k + 2 < List.length shape)%nat).
Proof.
  intros E f p force how s HL H shape. change (good shape (s_axes s)). unfold read_page in H. destruct (if p_rgb p then colours (p_shape p) else Ok tt); [cbn [bind] in H|discriminate].
  destruct (names_of _) as [names|] eqn:HN; [cbn [bind] in H|discriminate]. destruct (key _ _); [cbn [bind] in H|discriminate]. match type of H with bind ?r _ = _ => destruct r; [cbn [bind] in H|discriminate] end.
  fold shape in H. assert (K : List.length shape = List.length names).
  { apply mapM_len in HN. rewrite HN. unfold shape. destruct (p_rgb p); [|congruence]. rewrite !removelast_firstn_len, !firstn_length. lia. }
  destruct (parse_scale E f p (p_tags p) shape force names how) as [op axes] eqn:HP. pose proof (f_equal snd HP) as HP'. cbn [snd] in HP'.
  peel H. injection H as <-. cbn [s_axes]. destruct axes as [l|]; [apply (parse_good _ _ _ _ _ _ _ _ _ K HP')|apply good_plain; exact K].
Qed.

(** What a calibration of the two axes of an image says, with the other axes left alone *)
Definition expects (shape : list Z) (names : list string) (vertical horizontal : Q) (u : value) (l : list axis) : Prop :=
  forall k n name, nth_error shape k = Some n -> nth_error names k = Some name ->
    exists s un, nth_error l k = Some (Plain n name (VNum s) (VNum 0) un (Z.of_nat k + 2 <? Z.of_nat (List.length shape))) /\
      ((name = "height"%string /\ s == vertical /\ un = u) \/ (name = "width"%string /\ s == horizontal /\ un = u) \/ (name <> "height" /\ name <> "width" /\ s == 1 /\ un = VNone)%string)%Q.
Lemma expects_with : forall shape names x y u, expects shape names x y u (axes_of shape (map Some names) (with_xy (VNum x) (VNum y) u)).
Proof.
  intros shape names x y u k n name H1 H2. unfold axes_of, with_xy.
  exists (if String.eqb name "height" then x else if String.eqb name "width" then y else 1%Q), (if String.eqb name "height" || String.eqb name "width" then u else VNone). split.
  - match goal with |- nth_error (build _ ?rows) k = _ =>
      assert (A : nth_error rows k = Some (Some name, (VNum (if String.eqb name "height" then x else if String.eqb name "width" then y else 1%Q), VNum 0, if String.eqb name "height" || String.eqb name "width" then u else VNone))) end.
    { rewrite map_map, nth_error_map, H2. cbn [option_map pick tx ty tz all3]. destruct (String.eqb name "height"), (String.eqb name "width"), (String.eqb name "depth" || String.eqb name "image series" || String.eqb name "time"); reflexivity. }
    rewrite (build_nth _ _ _ _ _ _ _ _ H1 A). reflexivity.
  - destruct (String.eqb_spec name "height") as [->|N1]; [left; split; [reflexivity|split; reflexivity]|]. destruct (String.eqb_spec name "width") as [->|N2]; [right; left; split; [reflexivity|split; reflexivity]|].
    right; right. repeat split; auto; reflexivity.
Qed.
Lemma expects_eq : forall shape names x y x' y' u l, (x == x')%Q -> (y == y')%Q -> expects shape names x y u l -> expects shape names x' y' u l.
Proof.
  intros shape names x y x' y' u l HX HY H k n name A B. destruct (H k n name A B) as (s & un & C & D). exists s, un. split; [exact C|]. rewrite <- HX, <- HY. exact D.
Qed.
Definition ratio (v : value) (a b : Q) : Prop := v = VTuple [VNum a; VNum b].
Lemma res_ok : forall op k v a b q, lookup (str k) op = Some v -> ratio v a b -> ~ (a == 0)%Q -> resolution op k q = Ok (b / a * q)%Q.
Proof.
  intros op k v a b q H -> N. unfold resolution, key. rewrite H. cbn [bind elem nth_error number]. unfold divide. destruct (Qeq_bool a 0) eqn:Z; [apply Qeq_bool_iff in Z; contradiction|reflexivity].
Qed.
Lemma ress_ok : forall op vx vy a b c d q, lookup (str "XResolution") op = Some vx -> ratio vx a b -> ~ (a == 0)%Q -> lookup (str "YResolution") op = Some vy -> ratio vy c d -> ~ (c == 0)%Q ->
  resolutions op q = Ok ((d / c * q)%Q, (b / a * q)%Q).
Proof. intros. unfold resolutions. erewrite res_ok by eassumption. cbn [bind]. erewrite res_ok by eassumption. reflexivity. Qed.
(** Forced: pixels for an inch or a centimetre, in micrometres *)
Theorem C131_force : forall E f p op shape names how vx vy a b c d u, lookup (str "XResolution") op = Some vx -> ratio vx a b -> ~ (a == 0)%Q -> lookup (str "YResolution") op = Some vy -> ratio vy c d -> ~ (c == 0)%Q ->
  lookup (str "ResolutionUnit") op = Some (VNum (inject_Z u)) ->
  exists l, snd (parse_scale E f p op shape true (map Some names) how) = Ok l /\
    (u = 2 -> expects shape names (25400 * (d / c)) (25400 * (b / a)) (VText [181; 109]) l) /\
    (u = 3 -> expects shape names (10000 * (d / c)) (10000 * (b / a)) (VText [181; 109]) l) /\
    (u = 1 -> expects shape names 1 1 VNone l).
Proof.
  intros E f p op shape names how vx vy a b c d u HX RX NX HY RY NY HU. unfold parse_scale, has. rewrite HX, HU. cbn [andb fst snd]. unfold cal_force, key. rewrite HU. cbn [bind]. unfold is_unit.
  assert (Q1 : forall n m, Qeq_bool (inject_Z n) (inject_Z m) = (n =? m)). { intros n m. unfold Qeq_bool, inject_Z. cbn. rewrite !Z.mul_1_r. destruct (Z.eqb_spec n m) as [->|N]; [apply Zeq_is_eq_bool; reflexivity|]. destruct (Zeq_bool n m) eqn:Z; [apply Zeq_bool_eq in Z; contradiction|reflexivity]. }
  rewrite !Q1. destruct (Z.eqb_spec u 1) as [->|N1].
  - cbn [bind]. eexists. split; [reflexivity|]. split; [discriminate|]. split; [discriminate|]. intros _. change defaults with (with_xy (VNum 1) (VNum 1) VNone). apply expects_with.
  - erewrite ress_ok by eassumption. cbn [bind]. destruct (Z.eqb_spec u 2) as [->|N2]; [|destruct (Z.eqb_spec u 3) as [->|N3]]; (eexists; split; [reflexivity|]); repeat split; intro V; try discriminate; try contradiction.
    + eapply expects_eq; [| |apply expects_with]; field; auto.
    + eapply expects_eq; [| |apply expects_with]; field; auto.
Qed.
(** Zeiss: the stored size of pixels belongs to images 1024 pixels wide *)
Theorem C131_zeiss : forall E f p op shape names how m vals v rows cols rest, flag "fei" f = false -> flag "sem" f = true -> lookup (str "CZ_SEM") op = Some (VDict m) -> lookup [] m = Some (VTuple vals) ->
  nth_error vals 3 = Some (VNum v) -> f_shape f = rows :: cols :: rest -> 0 < cols ->
  exists l, snd (parse_scale E f p op shape false (map Some names) how) = Ok l /\ expects shape names (v * inject_Z 1024 / inject_Z cols) (v * inject_Z 1024 / inject_Z cols) (VText (str "m")) l.
Proof.
  intros E f p op shape names how m vals v rows cols rest H1 H2 H3 H4 H5 H6 H7. unfold parse_scale. cbn [andb]. rewrite H1, H2. cbn [fst snd]. unfold cal_zeiss, key. rewrite H3. cbn [bind sub]. unfold key. cbn [str map list_ascii_of_string]. rewrite H4. cbn [bind elem]. rewrite H5. cbn [bind number]. rewrite H6. cbn [nth_error bind].
  unfold divide. destruct (Qeq_bool (inject_Z cols) 0) eqn:Z; [apply Qeq_bool_iff in Z; unfold Qeq in Z; cbn in Z; lia|]. cbn [bind]. eexists. split; [reflexivity|]. apply expects_with.
Qed.
(** TVIPS without sizes of pixels: pixels for a centimetre, in metres *)
Theorem C131_tvips : forall E f p op shape names how m vx vy a b c d, flag "fei" f = false -> flag "sem" f = false -> flag "tvips" f = true -> lookup (str "TVIPS") op = Some (VDict m) ->
  lookup (str "PixelSizeX") m = None \/ lookup (str "PixelSizeY") m = None ->
  lookup (str "XResolution") op = Some vx -> ratio vx a b -> ~ (a == 0)%Q -> lookup (str "YResolution") op = Some vy -> ratio vy c d -> ~ (c == 0)%Q ->
  exists l, snd (parse_scale E f p op shape false (map Some names) how) = Ok l /\ expects shape names (d / c / 100) (b / a / 100) (VText (str "m")) l.
Proof.
  intros E f p op shape names how m vx vy a b c d H1 H2 H3 H4 H5 HX RX NX HY RY NY. unfold parse_scale. cbn [andb]. rewrite H1, H2, H3. cbn [fst snd]. unfold cal_tvips, key. rewrite H4. cbn [bind].
  assert (R : (let! p := resolutions op (1 # 100) in Ok (with_xy (VNum (fst p)) (VNum (snd p)) (VText (str "m")))) = Ok (with_xy (VNum (d / c * (1 # 100))) (VNum (b / a * (1 # 100))) (VText (str "m")))) by (erewrite ress_ok by eassumption; reflexivity).
  exists (axes_of shape (map Some names) (with_xy (VNum (d / c * (1 # 100))) (VNum (b / a * (1 # 100))) (VText (str "m")))). split.
  - destruct H5 as [H5|H5]; rewrite H5; [|destruct (lookup (str "PixelSizeX") m)]; rewrite R; reflexivity.
  - eapply expects_eq; [| |apply expects_with]; field; auto.
Qed.
(** JEOL, images: pixels for an inch or a centimetre of the detector, divided by the magnification, in nanometres (also the depth) *)
Theorem C131_jeol_image : forall E op m imaging mag vx vy a b c d u, sub m "Eos" = Ok (VDict [(str "EosMode", VText (str "eosTEM"))]) -> sub m "ImageFormingSystem" = Ok imaging -> sub imaging "ModeString" = Ok (VText (str "MAG")) ->
  (let! v := sub imaging "SelectorValue" in float E v) = Ok mag -> ~ (mag == 0)%Q ->
  lookup (str "XResolution") op = Some vx -> ratio vx a b -> ~ (a == 0)%Q -> lookup (str "YResolution") op = Some vy -> ratio vy c d -> ~ (c == 0)%Q ->
  lookup (str "ResolutionUnit") op = Some (VNum (inject_Z u)) ->
  exists y x, jeol_cal E op m = Ok ({| tx := VNum y; ty := VNum x; tz := VNum 1 |}, all3 (VNum 0), all3 (VText (str "nm"))) /\
    (u = 2 -> (y == 25400000 * (d / c) / mag)%Q /\ (x == 25400000 * (b / a) / mag)%Q) /\ (u <> 2 -> (y == 10000000 * (d / c) / mag)%Q /\ (x == 10000000 * (b / a) / mag)%Q).
Proof.
  intros E op m imaging mag vx vy a b c d u H1 H2 H3 H4 HM HX RX NX HY RY NY HU. unfold jeol_cal. rewrite H1, H2. cbn [bind]. change (sub (VDict [(str "EosMode", VText (str "eosTEM"))]) "EosMode") with (Ok (VText (str "eosTEM"))). cbn [bind]. unfold key. rewrite HU. cbn [bind].
  change (negb (is_text (VText (str "eosTEM")) "eosTEM")) with false. rewrite H3. cbn [bind]. change (is_text (VText (str "MAG")) "MAG") with true.
  destruct (sub imaging "SelectorValue") as [v|]; [cbn [bind] in H4|discriminate]. cbn [bind]. rewrite H4. cbn [bind]. unfold divide. destruct (Qeq_bool mag 0) eqn:Z; [apply Qeq_bool_iff in Z; contradiction|]. cbn [bind].
  erewrite ress_ok by eassumption. cbn [bind fst snd]. do 2 eexists. split; [reflexivity|]. unfold is_unit. change (inject_Z (10 ^ 9)) with (1000000000 # 1)%Q.
  assert (Q1 : Qeq_bool (inject_Z u) (inject_Z 2) = (u =? 2)). { unfold Qeq_bool, inject_Z. cbn. rewrite !Z.mul_1_r. destruct (Z.eqb_spec u 2) as [->|N]; [reflexivity|]. destruct (Zeq_bool u 2) eqn:Y; [apply Zeq_bool_eq in Y; contradiction|reflexivity]. }
  rewrite Q1. destruct (Z.eqb_spec u 2) as [->|N]; split; intro V; try contradiction; split; field; auto.
Qed.
(** JEOL, diffraction: angle by the camera length, divided by the wavelength *)
Theorem C131_jeol_diffraction : forall E op m imaging len ht vx vy a b c d u k, sub m "Eos" = Ok (VDict [(str "EosMode", VText (str "eosTEM"))]) -> sub m "ImageFormingSystem" = Ok imaging -> sub imaging "ModeString" = Ok (VText (str "DIFF")) ->
  (let! v := sub imaging "SelectorValue" in float E v) = Ok len -> (let! v := sub m "ElectronGun" in let! v := sub v "AccelerationVoltage" in float E v) = Ok ht ->
  sub imaging "SelectorUnitString" = Ok (VText (str u)) -> In (u, k) [("mm"%string, 1000%Q); ("cm"%string, 100%Q); ("m"%string, 1%Q)] -> ~ (len == 0)%Q -> ~ (e_wave E ht == 0)%Q ->
  lookup (str "XResolution") op = Some vx -> ratio vx a b -> ~ (a == 0)%Q -> lookup (str "YResolution") op = Some vy -> ratio vy c d -> ~ (c == 0)%Q ->
  lookup (str "ResolutionUnit") op = Some (VNum 3) ->
  exists y x, jeol_cal E op m = Ok ({| tx := VNum y; ty := VNum x; tz := VNum 1 |}, all3 (VNum 0), {| tx := VText (str "1 / nm"); ty := VText (str "1 / nm"); tz := VNone |}) /\
    (y == (d / c / 100) / (len / k) / e_wave E ht / 1000000000)%Q /\ (x == (b / a / 100) / (len / k) / e_wave E ht / 1000000000)%Q.
Proof.
  intros E op m imaging len ht vx vy a b c d u k H1 H2 H3 H4 H5 H6 HI HL HW HX RX NX HY RY NY HU. unfold jeol_cal. rewrite H1, H2. cbn [bind]. change (sub (VDict [(str "EosMode", VText (str "eosTEM"))]) "EosMode") with (Ok (VText (str "eosTEM"))). cbn [bind]. unfold key at 1. rewrite HU. cbn [bind].
  change (negb (is_text (VText (str "eosTEM")) "eosTEM")) with false. rewrite H3. cbn [bind]. change (is_text (VText (str "DIFF")) "MAG") with false. change (is_text (VText (str "DIFF")) "DIFF") with true.
  destruct (sub imaging "SelectorValue") as [v|]; [cbn [bind] in H4|discriminate]. cbn [bind]. rewrite H4. cbn [bind]. destruct (sub m "ElectronGun") as [g|]; [cbn [bind] in H5|discriminate]. cbn [bind]. destruct (sub g "AccelerationVoltage") as [g'|]; [cbn [bind] in H5|discriminate]. cbn [bind]. rewrite H5. cbn [bind]. rewrite H6. cbn [bind].
  change (is_unit (VNum 3) 2) with false. cbv iota.
  set (L := if is_text (VText (str u)) "mm" then (len / 1000)%Q else if is_text (VText (str u)) "cm" then (len / 100)%Q else len).
  assert (EL : (L == len / k)%Q /\ ~ (k == 0)%Q). { unfold L. destruct HI as [A|[A|[A|[]]]]; injection A as <- <-; (split; [|discriminate]); vm_compute is_text; cbv iota; try reflexivity. field. }
  destruct EL as [EL KZ]. assert (NL : ~ (L * e_wave E ht * inject_Z (10 ^ 9) == 0)%Q).
  { rewrite EL. intro Z. apply Qmult_integral in Z. destruct Z as [Z|Z]; [|discriminate Z]. apply Qmult_integral in Z. destruct Z as [Z|Z]; [|contradiction]. apply HL. setoid_replace len with (len / k * k)%Q by (field; exact KZ). rewrite Z. reflexivity. }
  unfold divide. destruct (Qeq_bool (L * e_wave E ht * inject_Z (10 ^ 9)) 0) eqn:Z; [apply Qeq_bool_iff in Z; contradiction|]. cbn [bind]. erewrite ress_ok by eassumption. cbn [bind fst snd]. do 2 eexists. split; [reflexivity|].
  change (inject_Z (10 ^ 9)) with (1000000000 # 1)%Q. split; rewrite EL; field; auto.
Qed.
(** FEI, TVIPS and Olympus: the width of pixels is given to the height of the image (lines 471-472, 539-540, 569-570 with 231-240) *)
Definition with_sizes (kind : string) (w h : pystr) (op : dict) : file * page * dict :=
  let f flags fei := {| f_name := []; f_flags := flags; f_fei := fei; f_imagej := VNone; f_shape := [2; 3]; f_bytes := [] |} in
  let pg sis v := {| p_axes := str "YX"; p_shape := [2; 3]; p_data := Regular U1 [2; 3] [1; 2; 3; 4; 5; 6]; p_rgb := false; p_tags := op; p_fei := false; p_sem := false; p_tvips := false; p_sis := sis; p_sis_tags := (None, v) |} in
  if String.eqb kind "fei" then (f ["fei"%string] (VDict [(str "Scan", VDict [(str "PixelWidth", VText w); (str "PixelHeight", VText h)])]), pg false None, put (str "FEI_HELIOS") VNone op)
  else (f [] VNone, pg true (Some (VDict [(str "pixelsizex", VText w); (str "pixelsizey", VText h)])), op).
Definition size_env : env := {| e_float := fun s => if eqb_str s (str "0.25") then Some (1 # 4)%Q else if eqb_str s (str "0.5") then Some (1 # 2)%Q else None; e_show := fun _ => []; e_xml := fun _ => Err OtherError; e_date := fun _ _ => None;
  e_guess := fun _ => None; e_single := fun _ => 0%Q; e_wave := fun _ => 1%Q; e_cubic := fun _ => (0, 0, 0, 0)%Q; e_unit := fun _ => None; e_six := fun q => q; e_lumispy := false |}.
Theorem C131_width_refuted : forall kind, In kind ["fei"; "olympus"]%string -> ~ forall w h ww hh op, e_float size_env w = Some ww -> e_float size_env h = Some hh ->
  let '(f, p, op) := with_sizes kind w h op in
  match snd (parse_scale size_env f p op [2; 3] false (map Some ["height"; "width"]%string) None) with Ok l => expects [2; 3] ["height"; "width"]%string hh ww (VText (str "m")) l | Err _ => True end.
Proof.
  intros kind [<-|[<-|[]]] H; specialize (H (str "0.25") (str "0.5") (1 # 4)%Q (1 # 2)%Q [] eq_refl eq_refl);
    match type of H with context [with_sizes ?a ?b ?c ?d] => let r := eval vm_compute in (with_sizes a b c d) in change (with_sizes a b c d) with r in H end; cbv iota beta in H;
    match type of H with match ?r with Ok l => _ | Err _ => _ end => let r' := eval vm_compute in r in change r with r' in H end; cbv iota beta in H;
    specialize (H 0%nat 2 "height"%string eq_refl eq_refl); destruct H as (s & un & A & [(_ & B & _)|[(B & _)|(B & _)]]); try discriminate B; try congruence; vm_compute in A; injection A as <- _; discriminate B.
Qed.
Lemma lookup_remove : forall k j d, str k <> j -> lookup j (remove k d) = lookup j d.
Proof.
  intros k j d N. induction d as [|[i v] d IH]; cbn [lookup remove]; [reflexivity|]. destruct (eqb_str (str k) i) eqn:Q.
  - apply eqb_str_spec in Q. subst i. destruct (eqb_str j (str k)) eqn:P; [apply eqb_str_spec in P; congruence|reflexivity].
  - cbn [lookup]. rewrite IH. reflexivity.
Qed.
(** With square pixels they are right *)
Theorem C131_fei : forall E f p op shape names how w h x y tag, flag "fei" f = true -> In tag ["FEI_HELIOS"; "FEI_SFEG"]%string -> has tag op = true ->
  (let! v := sub (f_fei f) "Scan" in sub v "PixelWidth") = Ok w -> (let! v := sub (f_fei f) "Scan" in sub v "PixelHeight") = Ok h -> float E w = Ok x -> float E h = Ok y -> (x == y)%Q ->
  exists op' l, parse_scale E f p op shape false (map Some names) how = (op', Ok l) /\ expects shape names y x (VText (str "m")) l /\ lookup (str "fei_metadata") op' = Some (f_fei f).
Proof.
  intros E f p op shape names how w h x y tag HF HT HH H1 H2 H3 H4 HE. unfold parse_scale. cbn [andb]. rewrite HF. unfold scale_fei.
  assert (C : cal_fei E (f_fei f) = Ok (with_xy (VNum x) (VNum y) (VText (str "m")))).
  { unfold cal_fei, float2. destruct (sub (f_fei f) "Scan") as [v|]; [cbn [bind] in H1, H2|discriminate]. cbn [bind]. rewrite H1. cbn [bind]. rewrite H3, H2. cbn [bind]. rewrite H4. reflexivity. }
  assert (K : forall k, k <> "fei_metadata"%string -> has k (put (str "fei_metadata") (f_fei f) op) = has k op).
  { intros k N. unfold has. rewrite lookup_put. destruct (eqb_str (str k) (str "fei_metadata")) eqn:Q; [|reflexivity]. apply eqb_str_spec in Q. exfalso. apply N.
    unfold str in Q. rewrite <- (string_of_list_ascii_of_string k). rewrite <- (string_of_list_ascii_of_string "fei_metadata"). f_equal.
    clear - Q. revert Q. generalize (list_ascii_of_string "fei_metadata"). induction (list_ascii_of_string k) as [|c l IH]; intros [|d m] Q; try discriminate; [reflexivity|]. cbn in Q. injection Q as A B. f_equal; [|apply IH; exact B].
    apply (f_equal (fun z => ascii_of_N (Z.to_N z))) in A. rewrite !N2Z.id in A. rewrite !ascii_N_embedding in A. exact A. }
  assert (L : lookup (str "fei_metadata") (put (str "fei_metadata") (f_fei f) op) = Some (f_fei f)) by (rewrite lookup_put, eqb_str_refl; reflexivity).
  rewrite !K by discriminate. destruct (has "FEI_HELIOS" op) eqn:P; [|destruct HT as [<-|[<-|[]]]; [congruence|rewrite HH]]; cbn [fst snd]; rewrite C; cbn [bind]; do 2 eexists; (split; [reflexivity|]);
    (split; [eapply expects_eq; [exact HE|symmetry; exact HE|apply expects_with]|rewrite lookup_remove by discriminate; exact L]).
Qed.
Theorem C131_tvips_nm : forall E f p op shape names how m x y, flag "fei" f = false -> flag "sem" f = false -> flag "tvips" f = true -> lookup (str "TVIPS") op = Some (VDict m) ->
  lookup (str "PixelSizeX") m = Some (VNum x) -> lookup (str "PixelSizeY") m = Some (VNum y) -> (x == y)%Q ->
  exists l, snd (parse_scale E f p op shape false (map Some names) how) = Ok l /\ expects shape names y x (VText (str "nm")) l.
Proof.
  intros E f p op shape names how m x y H1 H2 H3 H4 HX HY HE. unfold parse_scale. cbn [andb]. rewrite H1, H2, H3. cbn [fst snd]. unfold cal_tvips, key. rewrite H4. cbn [bind]. rewrite HX, HY. cbn [bind].
  eexists. split; [reflexivity|]. eapply expects_eq; [exact HE|symmetry; exact HE|apply expects_with].
Qed.
Lemma half_near : forall q, (2 * inject_Z (round_half q) <= 2 * q + 1 /\ 2 * q <= 2 * inject_Z (round_half q) + 1)%Q.
Proof.
  intros q. unfold round_half. pose proof (Qfloor_le q) as A. pose proof (Qlt_floor q) as B. set (n := Qfloor q) in *. rewrite inject_Z_plus in B. change (inject_Z 1) with 1%Q in B.
  destruct (Qcompare (q - inject_Z n) (1 # 2)) eqn:C.
  - apply Qeq_alt in C. assert (D : (q == inject_Z n + (1 # 2))%Q) by (rewrite <- C; ring). destruct (Z.even n); [|rewrite inject_Z_plus; change (inject_Z 1) with 1%Q]; rewrite D; split; ring_simplify; apply Qplus_le_compat || idtac; try apply Qle_refl; try discriminate.
    all: first [apply Qle_refl|discriminate|setoid_replace (2 * inject_Z n)%Q with (2 * inject_Z n + 0)%Q at 1 by ring; apply Qplus_le_compat; [apply Qle_refl|discriminate]|idtac].
  - apply Qlt_alt in C. split; apply Qlt_le_weak || idtac.
    + setoid_replace (2 * inject_Z n)%Q with (inject_Z n + inject_Z n)%Q by ring. apply (Qle_lt_trans _ (q + q)); [apply Qplus_le_compat; exact A|]. setoid_replace (q + q)%Q with (2 * q + 0)%Q by ring. apply Qplus_lt_r. reflexivity.
    + apply (Qplus_lt_l _ _ (inject_Z n)) in C. setoid_replace (q - inject_Z n + inject_Z n)%Q with q in C by ring. setoid_replace (2 * q)%Q with (q * 2)%Q by ring. setoid_replace (2 * inject_Z n + 1)%Q with (((1 # 2) + inject_Z n) * 2)%Q by ring. apply Qmult_lt_compat_r; [reflexivity|exact C].
  - apply Qgt_alt in C. rewrite inject_Z_plus. change (inject_Z 1) with 1%Q. split; apply Qlt_le_weak.
    + apply (Qplus_lt_l _ _ (inject_Z n)) in C. setoid_replace (q - inject_Z n + inject_Z n)%Q with q in C by ring. setoid_replace (2 * (inject_Z n + 1))%Q with (((1 # 2) + inject_Z n) * 2 + 1)%Q by ring. apply Qplus_lt_l. setoid_replace (2 * q)%Q with (q * 2)%Q by ring. apply Qmult_lt_compat_r; [reflexivity|exact C].
    + setoid_replace (2 * q)%Q with (q * 2)%Q by ring. apply (Qlt_trans _ ((inject_Z n + 1) * 2)); [apply Qmult_lt_compat_r; [reflexivity|exact B]|]. setoid_replace (2 * (inject_Z n + 1) + 1)%Q with ((inject_Z n + 1) * 2 + 1)%Q by ring. setoid_replace ((inject_Z n + 1) * 2)%Q with ((inject_Z n + 1) * 2 + 0)%Q at 1 by ring. apply Qplus_lt_r. reflexivity.
Qed.
(** Olympus: to the fifteenth digit *)
Theorem C131_olympus : forall E f p op shape names how m v x y a, flag "fei" f = false -> flag "sem" f = false -> flag "tvips" f = false -> p_sis p = true -> p_sis_tags p = (v, Some (VDict m)) \/ p_sis_tags p = (Some (VDict m), None) ->
  lookup (str "pixelsizex") m = Some x -> lookup (str "pixelsizey") m = Some y -> float E x = Ok a -> float E y = Ok a ->
  exists s l, snd (parse_scale E f p op shape false (map Some names) how) = Ok l /\ expects shape names s s (VText (str "m")) l /\ (2 * s * 1000000000000000 <= 2 * a * 1000000000000000 + 1)%Q /\ (2 * a * 1000000000000000 <= 2 * s * 1000000000000000 + 1)%Q.
Proof.
  intros E f p op shape names how m v x y a H1 H2 H3 H4 H5 HX HY FX FY. unfold parse_scale. cbn [andb]. rewrite H1, H2, H3, H4. cbn [fst snd scale_sis].
  assert (M : sis_metadata p = VDict m) by (unfold sis_metadata; destruct H5 as [-> | ->]; [destruct v|]; reflexivity). rewrite M. cbn [sub]. unfold key. rewrite HX. cbn [bind]. rewrite FX. cbn [bind]. rewrite HY. cbn [bind]. rewrite FY. cbn [bind].
  do 2 eexists. split; [reflexivity|]. split; [apply expects_with|]. unfold round15. change (inject_Z (10 ^ 15)) with (1000000000000000 # 1)%Q. destruct (half_near (a * (1000000000000000 # 1))) as [A B]. set (r := inject_Z (round_half _)) in *. split.
  - setoid_replace (2 * (r / (1000000000000000 # 1)) * 1000000000000000)%Q with (2 * r)%Q by field. setoid_replace (2 * a * 1000000000000000)%Q with (2 * (a * (1000000000000000 # 1)))%Q by ring. exact A.
  - setoid_replace (2 * (r / (1000000000000000 # 1)) * 1000000000000000)%Q with (2 * r)%Q by field. setoid_replace (2 * a * 1000000000000000)%Q with (2 * (a * (1000000000000000 # 1)))%Q by ring. exact B.
Qed.
Definition square_file : file := {| f_name := str "a/b.tif"; f_flags := ["fei"%string]; f_fei := VDict [(str "Scan", VDict [(str "PixelWidth", VText (str "0.25")); (str "PixelHeight", VText (str "0.25"))])];
  f_imagej := VNone; f_shape := [2; 512]; f_bytes := [] |}.
Definition zeiss_file : file := {| f_name := str "z.tif"; f_flags := ["sem"%string]; f_fei := VNone; f_imagej := VNone; f_shape := [2; 512]; f_bytes := [] |}.
Definition res_op : dict := [(str "XResolution", VTuple [VNum 300; VNum 1]); (str "YResolution", VTuple [VNum 150; VNum 1]); (str "ResolutionUnit", VNum 2)].
Example c131_force : option_map (map (fun a => (scale_of a, unit_of a))) (match snd (parse_scale size_env zeiss_file xpage res_op [2; 3] true hw None) with Ok l => Some l | Err _ => None end) =
  Some [(Some (508 # 3)%Q, VText [181; 109]); (Some (254 # 3)%Q, VText [181; 109])].
Proof. vm_compute. reflexivity. Qed.
Example c131_zeiss : scales (snd (parse_scale size_env zeiss_file xpage [(str "CZ_SEM", VDict [([], VTuple [VNum 1; VNum 2; VNum 3; VNum (1 # 8)])])] [2; 512] false hw None)) = [Some (1 # 4)%Q; Some (1 # 4)%Q].
Proof. vm_compute. reflexivity. Qed.
Example c131_fei : scales (snd (parse_scale size_env square_file xpage [(str "FEI_SFEG", VNone)] [2; 3] false hw None)) = [Some (1 # 4)%Q; Some (1 # 4)%Q].
Proof. vm_compute. reflexivity. Qed.
Example c131_axes : let p := {| p_axes := str "QYX"; p_shape := [1; 2; 3]; p_data := Regular U1 [1; 2; 3] [1; 2; 3; 4; 5; 6]; p_rgb := false; p_tags := [(str "PhotometricInterpretation", VNum 1)]; p_fei := false; p_sem := false; p_tvips := false; p_sis := false; p_sis_tags := (None, None) |} in
  match read_page size_env zeiss_file p false None with Ok s => s_axes s = [Plain 1 "None" (VNum 1) (VNum 0) VNone true; Plain 2 "height" (VNum 1) (VNum 0) VNone false; Plain 3 "width" (VNum 1) (VNum 0) VNone false] | Err _ => False end.
Proof. vm_compute. reflexivity. Qed.

(** * C132: what makes reading fail *)
Lemma parse_keeps : forall E f p op shape force names how j, is_jeol op = false -> j <> str "fei_metadata" -> j <> str "FEI_HELIOS" -> j <> str "FEI_SFEG" -> j <> str "Olympus_SIS_metadata" ->
  lookup j (fst (parse_scale E f p op shape force names how)) = lookup j op.
Proof.
  intros E f p op shape force names how j HJ N1 N2 N3 N4. unfold parse_scale. destruct (force && _ && _); [reflexivity|]. destruct (flag "fei" f).
  { unfold scale_fei. assert (P : lookup j (put (str "fei_metadata") (f_fei f) op) = lookup j op) by (rewrite lookup_put; destruct (eqb_str j (str "fei_metadata")) eqn:Q; [apply eqb_str_spec in Q; contradiction|reflexivity]).
    destruct (has "FEI_HELIOS" _); [cbn [fst]; rewrite lookup_remove by congruence; exact P|]. destruct (has "FEI_SFEG" _); [cbn [fst]; rewrite lookup_remove by congruence; exact P|exact P]. }
  destruct (flag "sem" f); [reflexivity|]. destruct (flag "tvips" f); [reflexivity|]. destruct (p_sis p); [cbn [fst scale_sis]; rewrite lookup_put; destruct (eqb_str j (str "Olympus_SIS_metadata")) eqn:Q; [apply eqb_str_spec in Q; contradiction|reflexivity]|].
  rewrite HJ. destruct (is_streak op) as [[|]|]; reflexivity.
Qed.
(** Whatever is wrong with the calibration, images in grey are read *)
Theorem C132_read : forall E f p force how, p_rgb p = false -> Forall (fun c => In c (str "XYSPIZCETRAFHLVQ_")) (p_axes p) -> has "PhotometricInterpretation" (p_tags p) = true -> how <> Some Wrong ->
  lookup (str "Make") (p_tags p) = None -> lookup (str "Artist") (p_tags p) = None -> lookup (str "TVIPS") (p_tags p) = None \/ (exists d, lookup (str "TVIPS") (p_tags p) = Some (VDict d)) ->
  lookup (str "DateTime") (p_tags p) = None \/ (exists s, lookup (str "DateTime") (p_tags p) = Some (VText s)) ->
  exists s, read_page E f p force how = Ok s /\ s_data s = Regular_ (p_data p) /\
    forall names, names_of (p_axes p) = Ok names -> forall e, snd (parse_scale E f p (p_tags p) (p_shape p) force names how) = Err e ->
      s_axes s = build (p_shape p) (map (fun n => (n, (VNum 1, VNum 0, VNone))) names).
Proof.
  intros E f p force how HR HA HP HH HM HT HV HD. unfold read_page. rewrite HR. cbn [bind].
  assert (exists names, names_of (p_axes p) = Ok names) as [names HN].
  { unfold names_of. clear - HA. induction (p_axes p) as [|c l IH]; [exists []; reflexivity|]. inversion HA as [|? ? I J]; subst. destruct (IH J) as [r R]. cbn [mapM].
    assert (exists n, label label_codes c = Ok n) as [n ->]. { vm_compute in I. repeat (destruct I as [<-|I]; [eexists; vm_compute; reflexivity|]). destruct I. } cbn [bind]. rewrite R. eexists. reflexivity. }
  rewrite HN. cbn [bind]. unfold key at 1. unfold has in HP. destruct (lookup (str "PhotometricInterpretation") (p_tags p)); [|discriminate]. cbn [bind].
  destruct (match how with Some Wrong => Err ValueError | _ => Ok tt end) eqn:W; [|destruct how as [[| | |]|]; congruence]. cbn [bind].
  assert (HJ : is_jeol (p_tags p) = false) by (unfold is_jeol; rewrite HM; reflexivity).
  pose proof (fun j => parse_keeps E f p (p_tags p) (p_shape p) force names how j HJ) as K.
  destruct (parse_scale E f p (p_tags p) (p_shape p) force names how) as [op axes] eqn:HS. cbn [fst] in K.
  assert (D : exists d, date_of E op = Ok d).
  { unfold date_of. rewrite K by discriminate. destruct HD as [-> |[s ->]]; [eexists; reflexivity|]. destruct (e_date E (str "%Y:%m:%d %H:%M:%S") s) as [[d0 t0]|]; [eexists; reflexivity|]. match goal with |- exists d, match ?r with Ok _ => _ | Err _ => _ end = _ => destruct r end; eexists; reflexivity. }
  destruct D as [d ->]. cbn [bind].
  assert (S : is_streak op = Ok false) by (unfold is_streak, text_start; rewrite K by discriminate; rewrite HT; reflexivity). rewrite S. cbn [bind].
  assert (M : exists m, mapping_of p op = Ok m).
  { unfold mapping_of. destruct (p_fei p); [eexists; reflexivity|]. destruct (p_sem p); [eexists; reflexivity|]. destruct (p_tvips p).
    - unfold key. rewrite K by discriminate. destruct HV as [-> |[v0 ->]]; cbn [bind sub]; [eexists; reflexivity|]. unfold key. destruct (lookup (str "TemMode") v0); eexists; reflexivity.
    - destruct (p_sis p); [eexists; reflexivity|]. unfold is_jeol. rewrite K by discriminate. rewrite HM. eexists. reflexivity. }
  destruct M as [m ->]. cbn [bind]. eexists. split; [reflexivity|]. split; [reflexivity|]. intros names' H e X. injection H as <-. rewrite HS in X. cbn [snd] in X. cbn [s_axes]. rewrite X. reflexivity.
Qed.
(** Colours which come first, in images more than four pixels wide, are not read *)
Theorem C132_colours : forall E f p force how rest w, p_rgb p = true -> p_shape p = rest ++ [w] -> 4 < w -> read_page E f p force how = Err ValueError.
Proof.
  intros E f p force how rest w H1 H2 H3. unfold read_page, colours. rewrite H1, H2, rev_app_distr. cbn [rev app]. destruct (Z.leb_spec w 4); [lia|]. reflexivity.
Qed.
(** A TIFF of JEOL is read, but not if reading of the resolution is forced *)
Definition jeol_xml : value := VDict [(str "TemReporter", VDict
  [(str "Eos", VDict [(str "EosMode", VText (str "eosTEM"))]); (str "IlluminationSystem", VDict [(str "ImageField", VText (str "modeBF"))]);
   (str "ImageFormingSystem", VDict [(str "ImageFormingMode", VText (str "modeMAG")); (str "SelectorString", VText (str "x 4")); (str "ModeString", VText (str "MAG")); (str "SelectorValue", VNum 4)])])].
Definition jeol_env : env := {| e_float := fun _ => None; e_show := fun _ => []; e_xml := fun s => if eqb_str s (str "<a/>") then Ok jeol_xml else Err OtherError; e_date := fun f s => if eqb_str f (str "%Y/%m/%d %H:%M") then Some (str "2020-01-02", s) else None;
  e_guess := fun _ => None; e_single := fun _ => 0%Q; e_wave := fun _ => 1%Q; e_cubic := fun _ => (0, 0, 0, 0)%Q; e_unit := fun _ => None; e_six := fun q => q; e_lumispy := false |}.
Definition jeol_page (more : dict) : page := {| p_axes := str "YX"; p_shape := [2; 3]; p_data := Regular U1 [2; 3] [1; 2; 3; 4; 5; 6]; p_rgb := false;
  p_tags := [(str "PhotometricInterpretation", VNum 1); (str "Make", VText (str "JEOL Ltd.")); (str "ImageDescription", VText (str " <a/>")); (str "XResolution", VTuple [VNum 5; VNum 1]); (str "YResolution", VTuple [VNum 10; VNum 1]); (str "ResolutionUnit", VNum 3)] ++ more;
  p_fei := false; p_sem := false; p_tvips := false; p_sis := false; p_sis_tags := (None, None) |}.
Definition no_flags : file := {| f_name := str "a.tif"; f_flags := []; f_fei := VNone; f_imagej := VNone; f_shape := [2; 3]; f_bytes := [] |}.
Definition is_ok {A} (r : res A) : Prop := match r with Ok _ => True | Err _ => False end.
Theorem C132_force_refuted : ~ forall E f p how, is_ok (read_page E f p false how) -> is_ok (read_page E f p true how).
Proof. intro H. specialize (H jeol_env no_flags (jeol_page []) None). vm_compute in H. exact (H I). Qed.
Example c132_jeol : match read_page jeol_env no_flags (jeol_page []) false None with
  | Ok s => (map (fun a => (scale_of a, unit_of a)) (s_axes s), m_title (s_md s)) = ([(Some 250000%Q, VText (str "nm")); (Some 500000%Q, VText (str "nm"))], Some (VText (str "TEM, BF, MAG, x 4"))) | Err _ => False end.
Proof. vm_compute. reflexivity. Qed.
(** A date with slashes is read only where there is no description *)
Theorem C132_date : forall E op s, lookup (str "DateTime") op = Some (VText s) -> e_date E (str "%Y:%m:%d %H:%M:%S") s = None ->
  (forall v, lookup (str "ImageDescription") op = Some (VText v) -> date_of E op = Ok None) /\
  (forall d t, lookup (str "ImageDescription") op = None -> e_date E (str "%Y/%m/%d %H:%M") s = Some (d, t) -> date_of E op = Ok (Some (d, t, None))).
Proof.
  intros E op s H1 H2. unfold date_of. rewrite H1, H2. split.
  - intros v HV. unfold has. rewrite HV. unfold jeol_date, key. rewrite HV. reflexivity.
  - intros d t HV HD. unfold has. rewrite HV. cbn [text_of bind]. rewrite HD. reflexivity.
Qed.
(** Notes and metadata never agree that an image is of the scanning kind *)
Theorem C132_mode : forall E m eos v notes, sub m "Eos" = Ok eos -> sub eos "EosMode" = Ok v -> jeol_notes m = Ok notes -> startswith (str "STEM") notes = true -> apply E Mode v = Ok (VText (str "TEM")).
Proof.
  intros E m eos v notes H1 H2 H3 H4. unfold jeol_notes in H3. rewrite H1 in H3. cbn [bind] in H3. rewrite H2 in H3. cbn [bind] in H3. peel H3. cbn [apply].
  destruct (is_text v "eosASID") eqn:A; [|reflexivity]. exfalso. destruct v; try discriminate A. cbn [is_text] in A. apply eqb_str_spec in A. subst s. change (is_text (VText (str "eosASID")) "modeASID") with false in *. cbv iota in H3. cbn [join_values] in H3.
  repeat match type of H3 with bind ?r _ = Ok _ => destruct r; [cbn [bind] in H3|discriminate] end. injection H3 as <-. discriminate H4.
Qed.
(** FEI without height of pixels: the width of pixels is kept, without unit *)
Theorem C132_fei_half : forall E m scan w x, sub m "Scan" = Ok (VDict scan) -> lookup (str "PixelWidth") scan = Some w -> float E w = Ok x -> lookup (str "PixelHeight") scan = None -> sub m "IRBeam" = Err KeyError ->
  cal_fei E m = Ok ({| tx := VNum x; ty := VNum 1; tz := VNum 1 |}, all3 (VNum 0), all3 VNone).
Proof.
  intros E m scan w x H1 H2 H3 H4 H5. unfold cal_fei, float2. rewrite H1. cbn [bind sub]. unfold key. rewrite H2. cbn [bind]. rewrite H3, H4. cbn [bind]. unfold fei_beam, ratio2, float2. rewrite H5. reflexivity.
Qed.
Example c132_date : match read_page jeol_env no_flags (jeol_page [(str "DateTime", VText (str "2020/01/02 03:04"))]) false None with Ok s => m_date (s_md s) = None | Err _ => False end.
Proof. vm_compute. reflexivity. Qed.
Print Assumptions C131_axes.
Print Assumptions C131_force.
Print Assumptions C131_zeiss.
Print Assumptions C131_tvips.
Print Assumptions C131_tvips_nm.
Print Assumptions C131_jeol_image.
Print Assumptions C131_jeol_diffraction.
Print Assumptions C131_fei.
Print Assumptions C131_olympus.
Print Assumptions C131_width_refuted.
Print Assumptions C132_read.
Print Assumptions C132_colours.
Print Assumptions C132_force_refuted.
Print Assumptions C132_date.
Print Assumptions C132_mode.
Print Assumptions C132_fei_half.
