(** Property C124: single spectra of Velox files. *)
From Coq Require Import QArith.
From Verif Require Import Base Text HierModel SfsModel RowMajor LogText VxModel VxProps VxImage.
Local Open Scope Z_scope.

Section Spectrum.
Variable E : env.
(** * Specification of the calibration: the first detector whose name contains the wanted one *)
Definition detector_called (w : pystr) (d : json) : Prop := exists n, item d (str "DetectorName") = Ok (JStr n) /\ occurs w n.
Definition detector_not_called (w : pystr) (d : json) : Prop := exists n, item d (str "DetectorName") = Ok (JStr n) /\ ~ occurs w n.

Lemma calibrated_first : forall w l1 k d l2 x y, Forall (fun p => detector_not_called w (snd p)) l1 -> detector_called w d ->
  item d (str "Dispersion") = Ok x -> item d (str "OffsetEnergy") = Ok y -> calibrated (Ok (JStr w)) (l1 ++ (k, d) :: l2) = Ok (Some (x, y)).
Proof.
  intros w l1 k d l2 x y N (n & I & O) X Y. induction N as [|[k' d'] l1 (n' & I' & O') N IH]; cbn [app calibrated bind].
  - rewrite I. cbn [bind member]. rewrite (proj2 (contains_spec w n) O). cbn [bind]. rewrite X, Y. reflexivity.
  - cbn [snd] in I'. rewrite I'. cbn [bind member]. destruct (contains w n') eqn:C; [exfalso; apply O', contains_spec; exact C|]. cbn [bind]. exact IH.
Qed.
Lemma calibrated_none : forall w l, Forall (fun p => detector_not_called w (snd p)) l -> calibrated (Ok (JStr w)) l = Ok None.
Proof.
  intros w l N. induction N as [|[k' d'] l1 (n' & I' & O') N IH]; cbn [calibrated bind]; [reflexivity|].
  cbn [snd] in I'. rewrite I'. cbn [bind member]. destruct (contains w n') eqn:C; [exfalso; apply O', contains_spec; exact C|]. cbn [bind]. exact IH.
Qed.
(** energies are stored in eV and given in keV *)
Theorem C124_calibration : forall rebin om l1 k d l2 b w x y qx qy,
  lookup (str "Detectors") om = Some (JDict (l1 ++ (k, d) :: l2)) -> lookup (str "BinaryResult") om = Some b -> item b (str "Detector") = Ok (JStr w) ->
  Forall (fun p => detector_not_called w (snd p)) l1 -> detector_called w d ->
  item d (str "Dispersion") = Ok x -> item d (str "OffsetEnergy") = Ok y -> float_of E x = Ok qx -> float_of E y = Ok qy ->
  exists scale offset, dispersion_offset E rebin om = Ok (scale, offset, Some (str "keV")) /\ (scale == qx / 1000 * inject_Z rebin)%Q /\ (offset == qy / 1000)%Q.
Proof.
  intros rebin om l1 k d l2 b w x y qx qy D B W N C X Y FX FY. unfold dispersion_offset. cbn [item]. rewrite D, B. cbn [bind entries]. rewrite W.
  rewrite (calibrated_first w l1 k d l2 x y N C X Y). rewrite FX, FY. cbn [bind]. do 2 eexists. split; [reflexivity|]. split; reflexivity.
Qed.
(** without such a detector, or without the metadata, there is no calibration *)
Theorem C124_uncalibrated : forall rebin om,
  (lookup (str "Detectors") om = None \/
   (exists l, lookup (str "Detectors") om = Some (JDict l) /\ l <> [] /\ lookup (str "BinaryResult") om = None) \/
   (exists l b w, lookup (str "Detectors") om = Some (JDict l) /\ lookup (str "BinaryResult") om = Some b /\ item b (str "Detector") = Ok (JStr w) /\ Forall (fun p => detector_not_called w (snd p)) l)) ->
  dispersion_offset E rebin om = Ok (1%Q, 0%Q, None).
Proof.
  intros rebin om [D|[(l & D & L & B)|(l & b & w & D & B & W & N)]]; unfold dispersion_offset; cbn [item].
  - rewrite D. reflexivity.
  - rewrite D, B. cbn [bind entries]. destruct l as [|[k d] l]; [contradiction|]. reflexivity.
  - rewrite D, B. cbn [bind entries]. rewrite W, (calibrated_none w l N). reflexivity.
Qed.

Lemma spectrum_parts : forall c sp s g, read_spectrum E c sp s = Ok g ->
  exists shape flat om scale offset u, transpose (sp_shape sp) (sp_flat sp) = Ok (shape, flat) /\ original E c (sp_meta sp) = Ok om /\
    dispersion_offset E (o_rebin (c_opt c)) om = Ok (scale, offset, u) /\ s_om g = om /\ m_title (s_md g) = r_detector s /\
    let shape := match shape with [n; m] => if n =? 1 then [m] else shape | _ => shape end in
    s_data g = Arr shape (map Real flat) [] /\
    s_axes g = match shape with [n; _] => [ax None (str "Stack") 0 (Some 1%Q) n None true] | _ => [] end ++ [ax None (str "Energy") offset (Some scale) (last shape 0) (Some (str "keV")) false].
Proof.
  intros c sp s g H. unfold read_spectrum in H. destruct (transpose (sp_shape sp) (sp_flat sp)) as [[shape flat]|] eqn:T; cbn [bind] in H; [|discriminate].
  destruct (original E c (sp_meta sp)) as [om|] eqn:O; cbn [bind] in H; [|discriminate].
  destruct (detector_information E om) as [info|]; cbn [bind] in H; [|discriminate].
  destruct (dispersion_offset E (o_rebin (c_opt c)) om) as [[[scale offset] u]|] eqn:D; cbn [bind] in H; [|discriminate]. cbv zeta in H.
  destruct (metadata_of E c (r_detector s) (str "EDS_TEM") om) as [md|] eqn:M; cbn [bind] in H; [|discriminate].
  destruct (mapping_of c true true) as [mp|]; cbn [bind] in H; [|discriminate]. injection H as <-.
  apply metadata_signal in M. exists shape, flat, om, scale, offset, u. repeat (split; [first [reflexivity|assumption|exact (proj1 (proj2 M))]|]). split; reflexivity.
Qed.
(** Spectrum j of a stack stored as (energy, spectrum) *)
Theorem C124_data : forall c sp s g n m, read_spectrum E c sp s = Ok g -> sp_shape sp = [n; m] -> 0 <= n -> 0 <= m ->
  exists flat, s_data g = Arr (if m =? 1 then [n] else [m; n]) flat [] /\ Z.of_nat (List.length flat) = m * n /\
    forall j i, 0 <= j < m -> 0 <= i < n -> element (Real 0) [m; n] [j; i] flat = Real (element 0 [n; m] [i; j] (sp_flat sp)).
Proof.
  intros c sp s g n m H SH Hn Hm. destruct (spectrum_parts _ _ _ _ H) as (shape & flat & om & scale & offset & u & T & _ & _ & _ & _ & D & _). rewrite SH in T. cbn [transpose] in T. injection T as <- <-. cbv zeta in D.
  eexists. split; [rewrite D; destruct (m =? 1); reflexivity|]. split.
  - rewrite map_length, (flat_map_len _ _ _ _ (Z.to_nat n)) by (intros; rewrite map_length, zseq_length; reflexivity). rewrite zseq_length. nia.
  - intros j i Hj Hi. unfold element. change (Real (nth ?k ?l 0)) with (Real (nth k l 0)). apply to_default.
    replace (Z.to_nat (row_major [m; n] [j; i])) with (Z.to_nat j * Z.to_nat n + Z.to_nat i)%nat by (cbn [row_major prodZ fold_right]; nia).
    apply map_nth_error. rewrite (nth_error_flat_map _ _ _ _ (Z.to_nat n) _ _ j); [|intros; rewrite map_length, zseq_length; reflexivity|rewrite nth_error_zseq by lia; f_equal; lia|lia].
    erewrite map_nth_error; [|rewrite nth_error_zseq by lia; reflexivity]. f_equal. f_equal. cbn [row_major prodZ fold_right]. lia.
Qed.
(** The axes have the sizes of the array, and the calibration of the energies *)
Theorem C124_axes : forall c sp s g n m, read_spectrum E c sp s = Ok g -> sp_shape sp = [n; m] ->
  exists om scale offset u, original E c (sp_meta sp) = Ok om /\ dispersion_offset E (o_rebin (c_opt c)) om = Ok (scale, offset, u) /\
    map x_size (s_axes g) = (if m =? 1 then [n] else [m; n]) /\ map x_name (s_axes g) = (if m =? 1 then [] else [str "Stack"]) ++ [str "Energy"] /\
    map x_navigate (s_axes g) = (if m =? 1 then [] else [true]) ++ [false] /\
    forall e, In e (s_axes g) -> x_navigate e = false -> x_scale e = Some scale /\ x_offset e = offset /\ x_units e = Some (str "keV").
Proof.
  intros c sp s g n m H SH. destruct (spectrum_parts _ _ _ _ H) as (shape & flat & om & scale & offset & u & T & O & D & _ & _ & _ & A). rewrite SH in T. cbn [transpose] in T. injection T as <- <-. cbv zeta in A.
  exists om, scale, offset, u. split; [exact O|]. split; [exact D|]. rewrite A. destruct (m =? 1); (split; [reflexivity|]; split; [reflexivity|]; split; [reflexivity|]).
  - intros e [<-|[]] _. repeat split.
  - intros e [<-|[<-|[]]] V; [discriminate V|]. repeat split.
Qed.
(** All single spectra are called EDS *)
Theorem C124_title : forall c d s s', read_single_spectrum E c true d s = Ok s' -> exists gs, r_out s' = r_out s ++ gs /\ Forall (fun g => m_title (s_md g) = Some (JStr (str "EDS"))) gs.
Proof.
  intros c d s s' H. unfold read_single_spectrum in H. cbn [negb] in H. destruct (d_spectrum d) as [l|]; [|injection H as <-; exists []; rewrite app_nil_r; split; [reflexivity|constructor]].
  assert (K : forall l s s', r_detector s = Some (JStr (str "EDS")) -> spectrum_loop E c l s = Ok s' -> exists gs, r_out s' = r_out s ++ gs /\ Forall (fun g => m_title (s_md g) = Some (JStr (str "EDS"))) gs).
  { clear. induction l as [|[k sp] l IH]; intros s s' D H; cbn [spectrum_loop] in H; [injection H as <-; exists []; rewrite app_nil_r; split; [reflexivity|constructor]|].
    destruct (read_spectrum E c sp s) as [g|] eqn:R; cbn [bind] in H; [|discriminate]. destruct (spectrum_parts _ _ _ _ R) as (_ & _ & _ & _ & _ & _ & _ & _ & _ & _ & T & _).
    destruct (IH (emit g s) s' D H) as (gs & O & F). exists (g :: gs). split; [rewrite O; cbn [emit r_out]; rewrite <- app_assoc; reflexivity|]. constructor; [congruence|exact F]. }
  exact (K l (set_detector (str "EDS") s) s' eq_refl H).
Qed.
End Spectrum.
Print Assumptions C124_calibration.
Print Assumptions C124_uncalibrated.
Print Assumptions C124_data.
Print Assumptions C124_axes.
Print Assumptions C124_title.
