(** Calibration of TIFF files written and read again (C129, C130). *)
From Coq Require Import QArith Qabs Qround.
From Verif Require Import Base Text HierModel SfsModel ArrayModel TifModel.
Local Open Scope Z_scope.

(** What tifffile is taken to do in between: tags are named by their number and keep their values, the two resolutions keep numerator and
    denominator, and the description of ImageJ is read line by line as numbers or texts *)
Section Between.
  Variable E : env.
  Definition number_or_text (s : pystr) : value := match e_float E s with Some q => VNum q | None => VText s end.
  Fixpoint lines_of (l : list pystr) : dict :=
    match l with [] => [] | s :: l => match split_char 61 s with [k; v] => (k, number_or_text v) :: lines_of l | _ => lines_of l end end.
  Definition file_of (name : pystr) (shape : list Z) (w : written) : file :=
    {| f_name := name; f_flags := ["imagej"%string]; f_fei := VNone; f_imagej := VDict (lines_of (split_char 10 (o_description w))); f_shape := shape; f_bytes := [] |}.
  Definition pair_of (p : Z * Z) : value := VTuple [VNum (inject_Z (fst p)); VNum (inject_Z (snd p))].
  Definition tags_of (w : written) : dict :=
    [(str "PhotometricInterpretation", VNum 1); (str "ImageDescription", VText (o_description w)); (str "XResolution", pair_of (fst (o_resolution w)));
     (str "YResolution", pair_of (snd (o_resolution w))); (str "ResolutionUnit", VNum 1); (str "Software", VText (str "hyperspy"))]
    ++ map (fun t => (str_int (fst t), snd t)) (o_tags w).
End Between.

(** Closer than one part in 10^8 of a unit, and not further from zero *)
Definition near (q s : Q) : Prop := (Qabs (q - s) < 1 # 100000000)%Q /\ (Qabs q <= Qabs s)%Q.
(** The unit of the second axis decides *)
Definition seen (second own u : pystr) : Prop :=
  (second = [181; 109] \/ second = str "micron") /\ u = [181; 109] \/ second <> [181; 109] /\ second <> str "micron" /\ u = own.
Definition one_line (s : pystr) : Prop := ~ In 10 s /\ ~ In 61 s.

Lemma split_first : forall c a b, ~ In c a -> split_char c (a ++ c :: b) = a :: split_char c b.
Proof.
  induction a as [|x a IH]; intros b H; cbn; [rewrite Z.eqb_refl; reflexivity|].
  destruct (Z.eqb_spec x c) as [->|N]; [exfalso; apply H; left; reflexivity|]. rewrite IH; [reflexivity|]. intro I. apply H. right. exact I.
Qed.
Lemma split_none : forall c a, ~ In c a -> split_char c a = [a].
Proof.
  induction a as [|x a IH]; intros H; cbn; [reflexivity|].
  destruct (Z.eqb_spec x c) as [->|N]; [exfalso; apply H; left; reflexivity|]. rewrite IH; [reflexivity|]. intro I. apply H. right. exact I.
Qed.
Definition named (v : pystr) : pystr := if eqb_str v micrometre then str "micron" else if eqb_str v [197] then str "angstrom" else v.
Lemma named_line : forall v, one_line v -> one_line (named v).
Proof.
  intros v H. unfold named. destruct (eqb_str v micrometre); [split; vm_compute; intuition lia|]. destruct (eqb_str v [197]); [split; vm_compute; intuition lia|exact H].
Qed.
Lemma described : forall E u s, one_line u -> match s with Some s => one_line s | None => True end ->
  lines_of E (split_char 10 (description u s)) = (str "ImageJ", number_or_text E (str "1.11a")) :: (str "unit", number_or_text E (named u)) ::
    match s with Some s => [(str "spacing", number_or_text E (named s))] | None => [] end.
Proof.
  intros E u s [H1 H2] Hs. pose proof (named_line u (conj H1 H2)) as [N1 N2]. unfold description. fold (named u).
  assert (L : forall a v r, ~ In 10 (str a) -> ~ In 10 v -> split_char 10 (str a ++ v ++ [10] ++ r) = (str a ++ v) :: split_char 10 r).
  { intros a v r A V. rewrite app_assoc. cbn [app]. apply split_first. rewrite in_app_iff. tauto. }
  change (str "ImageJ=1.11a" ++ [10] ++ ?x) with (str "ImageJ=" ++ str "1.11a" ++ [10] ++ x).
  rewrite L by (vm_compute; intuition lia). rewrite L by (exact N1 || (vm_compute; intuition lia)).
  assert (K : forall a v, ~ In 61 (str a) -> ~ In 61 v -> split_char 61 (str a ++ [61] ++ v) = [str a; v]).
  { intros a v A V. cbn [app]. rewrite split_first by exact A. rewrite split_none by exact V. reflexivity. }
  assert (KU : split_char 61 (str "unit=" ++ named u) = [str "unit"; named u]) by (change (str "unit=" ++ named u) with (str "unit" ++ [61] ++ named u); apply K; [vm_compute; intuition lia|exact N2]).
  destruct s as [s|].
  - pose proof (named_line s Hs) as [S1 S2]. fold (named s). rewrite <- (app_nil_r [10]) at 1. rewrite L by (exact S1 || (vm_compute; intuition lia)).
    assert (KS : split_char 61 (str "spacing=" ++ named s) = [str "spacing"; named s]) by (change (str "spacing=" ++ named s) with (str "spacing" ++ [61] ++ named s); apply K; [vm_compute; intuition lia|exact S2]).
    cbn [lines_of]. rewrite KU, KS. change (split_char 61 (str "ImageJ=" ++ str "1.11a")) with [str "ImageJ"; str "1.11a"]. reflexivity.
  - cbn [lines_of]. rewrite KU. change (split_char 61 (str "ImageJ=" ++ str "1.11a")) with [str "ImageJ"; str "1.11a"]. reflexivity.
Qed.
Lemma trunc_near : forall q, (Qabs (inject_Z (truncate q) - q) < 1)%Q /\ (Qabs (inject_Z (truncate q)) <= Qabs q)%Q.
Proof.
  intros [n d]. unfold truncate, Qabs, Qlt, Qle, Qminus, Qplus, Qopp, inject_Z. cbn [Qnum Qden].
  pose proof (Z.quot_rem' n (Zpos d)) as A. pose proof (Z.rem_bound_abs n (Zpos d) ltac:(lia)) as B.
  set (t := Z.quot n (Zpos d)) in *. set (r := Z.rem n (Zpos d)) in *.
  change (Z.abs (Zpos d)) with (Zpos d) in B.
  rewrite !Z.mul_1_r, !Pos.mul_1_l. split; [lia|].
  assert (C : Z.abs t = Z.abs n / Zpos d) by (unfold t; rewrite <- Z.quot_abs by lia; apply Z.quot_div_nonneg; lia).
  rewrite C. pose proof (Z.mul_div_le (Z.abs n) (Zpos d) ltac:(lia)). lia.
Qed.
Lemma near_fixed : forall s, near (inject_Z (truncate (s * inject_Z scale_factor)) / inject_Z scale_factor * 1)%Q s.
Proof.
  intros s. destruct (trunc_near (s * inject_Z scale_factor)%Q) as [A B]. set (t := inject_Z (truncate (s * inject_Z scale_factor))) in *.
  change (inject_Z scale_factor) with (100000000 # 1)%Q in *. unfold near.
  assert (F : (t / (100000000 # 1) * 1 - s == (t - s * (100000000 # 1)) * (1 # 100000000))%Q) by field.
  assert (G : (t / (100000000 # 1) * 1 == t * (1 # 100000000))%Q) by field. rewrite F, G, !Qabs_Qmult. rewrite Qabs_Qmult in B. change (Qabs (1 # 100000000)) with (1 # 100000000)%Q. change (Qabs (100000000 # 1)) with (100000000 # 1)%Q in B.
  split.
  - setoid_replace (1 # 100000000)%Q with (1 * (1 # 100000000))%Q at 2 by reflexivity. apply Qmult_lt_compat_r; [reflexivity|exact A].
  - setoid_replace (Qabs s) with (Qabs s * (100000000 # 1) * (1 # 100000000))%Q by field. apply Qmult_le_compat_r; [exact B|discriminate].
Qed.
Lemma micron_seen : forall E u, e_float E (str "micron") = None -> is_text (number_or_text E (named u)) "micron" = eqb_str u micrometre || eqb_str u (str "micron").
Proof.
  intros E u H. unfold named, number_or_text. destruct (eqb_str u micrometre) eqn:A; [rewrite H; reflexivity|].
  destruct (eqb_str u [197]) eqn:B.
  - apply eqb_str_spec in B. subst u. destruct (e_float E (str "angstrom")); reflexivity.
  - cbn [orb]. destruct (eqb_str u (str "micron")) eqn:C.
    + apply eqb_str_spec in C. subst u. rewrite H. reflexivity.
    + destruct (e_float E u); [reflexivity|]. exact C.
Qed.
Lemma seen_by : forall second own, seen second own (if eqb_str second micrometre || eqb_str second (str "micron") then micrometre else own).
Proof.
  intros second own. unfold seen. destruct (eqb_str second micrometre) eqn:A; [apply eqb_str_spec in A; left; split; [left; exact A|reflexivity]|].
  destruct (eqb_str second (str "micron")) eqn:B; [apply eqb_str_spec in B; left; split; [right; exact B|reflexivity]|].
  right. apply eqb_str_neq in A. apply eqb_str_neq in B. split; [exact A|split; [exact B|reflexivity]].
Qed.

(** An image: scales up to 10^-8, offsets as they were, units as they were unless that of x is micrometres *)
Theorem C129_image : forall E g p name how ay ax ny nx w, e_float E (str "micron") = None -> g_axes g = [ay; ax] -> w_navigate ay = false -> w_navigate ax = false ->
  tags_dict E g [] = Ok w -> one_line (unit_text ax) -> p_sis p = false ->
  exists sy sx uy ux, snd (parse_scale E (file_of E name [ny; nx] w) p (tags_of w) [ny; nx] false [Some "height"%string; Some "width"%string] how) =
      Ok [Plain ny "height" (VNum sy) (VNum (w_offset ay)) (VText uy) false; Plain nx "width" (VNum sx) (VNum (w_offset ax)) (VText ux) false] /\
    near sy (w_scale ay) /\ near sx (w_scale ax) /\ seen (unit_text ax) (unit_text ay) uy /\ seen (unit_text ax) (unit_text ax) ux.
Proof.
  intros E g p name how ay ax ny nx w HF HA Ny Nx HW HL HS. unfold tags_dict in HW. rewrite HA in HW. cbn [countZ from_end at_ rev app nth_error bind] in HW. rewrite Ny, Nx in HW.
  cbn [bind Z.add Z.eqb Z.ltb Z.compare] in HW. destruct (mapM _ _); [|discriminate]. cbn [bind] in HW. injection HW as <-.
  do 4 eexists. split; [|split; [apply (near_fixed (w_scale ay))|split; [apply (near_fixed (w_scale ax))|split; apply seen_by]]].
  unfold parse_scale. cbn [andb flag f_flags file_of existsb]. change (String.eqb "fei" "imagej") with false. change (String.eqb "sem" "imagej") with false. change (String.eqb "tvips" "imagej") with false. change (String.eqb "imagej" "imagej") with true. cbn [orb]. rewrite HS.
  match goal with |- context [tags_of ?w] => set (W := w) in *; set (T := tags_of W) end.
  assert (KJ : is_jeol T = false). { unfold T, tags_of, is_jeol. destruct (g_quantity g), (g_gain g) as [[[o|] [s|]]|]; reflexivity. }
  assert (KS : is_streak T = Ok false). { unfold T, tags_of, is_streak, text_start. destruct (g_quantity g), (g_gain g) as [[[o|] [s|]]|]; reflexivity. }
  assert (KD : is_dm T = true). { unfold T, tags_of, is_dm, dm_tags, has. destruct (g_quantity g), (g_gain g) as [[[o|] [s|]]|]; reflexivity. }
  rewrite KJ, KS, KD. cbn [fst snd].
  assert (KA : add_dm T defaults = ({| tx := VNum (w_scale ay); ty := VNum (w_scale ax); tz := VNum 1 |}, {| tx := VNum (w_offset ay); ty := VNum (w_offset ax); tz := VNum 0 |},
     {| tx := VText (unit_text ay); ty := VText (unit_text ax); tz := VNone |})).
  { unfold T, tags_of, add_dm, on, defaults. destruct (g_quantity g), (g_gain g) as [[[o|] [s|]]|]; reflexivity. }
  rewrite KA. unfold add_imagej. cbn [f_imagej file_of].
  replace (o_description W) with (description (unit_text ax) None) by reflexivity.
  rewrite described by (exact HL || exact I).
  assert (KR : resolutions T 1 = Ok ((inject_Z (truncate (w_scale ay * inject_Z scale_factor)) / inject_Z scale_factor * 1)%Q, (inject_Z (truncate (w_scale ax * inject_Z scale_factor)) / inject_Z scale_factor * 1)%Q)).
  { unfold T, tags_of, resolutions, resolution, key. reflexivity. }
  set (u := number_or_text E (named (unit_text ax))). set (v := number_or_text E (str "1.11a")).
  change (has "ImageJ" _) with true. change (lookup (str "unit") _) with (Some u). change (lookup (str "spacing") _) with (@None value). cbn [negb].
  rewrite KR. cbn [bind fst snd tz]. unfold u. rewrite micron_seen by exact HF.
  destruct (eqb_str (unit_text ax) micrometre || eqb_str (unit_text ax) (str "micron")); reflexivity.
Qed.
(** A stack of images: also the scale of the stack as it was; the unit of y decides *)
Theorem C129_stack : forall E g p name how az ay ax nz ny nx label w, e_float E (str "micron") = None -> e_float E (e_show E (w_scale az)) = Some (w_scale az) ->
  Forall (fun c => 32 < c < 127 /\ c <> 61) (e_show E (w_scale az)) ->
  g_axes g = [az; ay; ax] -> w_navigate az = true -> w_navigate ay = false -> w_navigate ax = false -> label = "depth"%string \/ label = "image series"%string \/ label = "time"%string ->
  tags_dict E g [] = Ok w -> one_line (unit_text ay) -> p_sis p = false ->
  exists sy sx uy ux, snd (parse_scale E (file_of E name [ny; nx] w) p (tags_of w) [nz; ny; nx] false [Some label; Some "height"%string; Some "width"%string] how) =
      Ok [Plain nz label (VNum (w_scale az)) (VNum (w_offset az)) (VText (unit_text az)) true;
          Plain ny "height" (VNum sy) (VNum (w_offset ay)) (VText uy) false; Plain nx "width" (VNum sx) (VNum (w_offset ax)) (VText ux) false] /\
    near sy (w_scale ay) /\ near sx (w_scale ax) /\ seen (unit_text ay) (unit_text ay) uy /\ seen (unit_text ay) (unit_text ax) ux.
Proof.
  intros E g p name how az ay ax nz ny nx label w HF HZ HC HA Nz Ny Nx HN HW HL HS. unfold tags_dict in HW. rewrite HA in HW. cbn [countZ from_end at_ rev app nth_error bind] in HW. rewrite Nz, Ny, Nx in HW.
  cbn [bind Z.add Z.eqb Z.ltb Z.compare Pos.compare Pos.compare_cont Pos.eqb] in HW. destruct (mapM _ _); [|discriminate]. cbn [bind] in HW. injection HW as <-.
  do 4 eexists. split; [|split; [apply (near_fixed (w_scale ay))|split; [apply (near_fixed (w_scale ax))|split; apply seen_by]]].
  unfold parse_scale. cbn [andb flag f_flags file_of existsb]. change (String.eqb "fei" "imagej") with false. change (String.eqb "sem" "imagej") with false. change (String.eqb "tvips" "imagej") with false. change (String.eqb "imagej" "imagej") with true. cbn [orb]. rewrite HS.
  match goal with |- context [tags_of ?w] => set (W := w) in *; set (T := tags_of W) end.
  assert (KJ : is_jeol T = false). { unfold T, tags_of, is_jeol. destruct (g_quantity g), (g_gain g) as [[[o|] [s|]]|]; reflexivity. }
  assert (KS : is_streak T = Ok false). { unfold T, tags_of, is_streak, text_start. destruct (g_quantity g), (g_gain g) as [[[o|] [s|]]|]; reflexivity. }
  assert (KD : is_dm T = true). { unfold T, tags_of, is_dm, dm_tags, has. destruct (g_quantity g), (g_gain g) as [[[o|] [s|]]|]; reflexivity. }
  rewrite KJ, KS, KD. cbn [fst snd].
  assert (KA : add_dm T defaults = ({| tx := VNum (w_scale ay); ty := VNum (w_scale ax); tz := VNum (w_scale az) |}, {| tx := VNum (w_offset ay); ty := VNum (w_offset ax); tz := VNum (w_offset az) |},
     {| tx := VText (unit_text ay); ty := VText (unit_text ax); tz := VText (unit_text az) |})).
  { unfold T, tags_of, add_dm, on, defaults. destruct (g_quantity g), (g_gain g) as [[[o|] [s|]]|]; reflexivity. }
  rewrite KA. unfold add_imagej. cbn [f_imagej file_of].
  replace (o_description W) with (description (unit_text ay) (Some (e_show E (w_scale az)))) by reflexivity.
  assert (HO : one_line (e_show E (w_scale az))). { split; intro I; rewrite Forall_forall in HC; apply HC in I; lia. }
  assert (HN' : named (e_show E (w_scale az)) = e_show E (w_scale az)).
  { unfold named. destruct (eqb_str _ micrometre) eqn:A; [apply eqb_str_spec in A; rewrite A in HC; inversion HC; lia|]. destruct (eqb_str _ [197]) eqn:B; [apply eqb_str_spec in B; rewrite B in HC; inversion HC; lia|reflexivity]. }
  rewrite described by (exact HL || exact HO). rewrite HN'.
  assert (KZ : number_or_text E (e_show E (w_scale az)) = VNum (w_scale az)) by (unfold number_or_text; rewrite HZ; reflexivity). rewrite KZ.
  assert (KR : resolutions T 1 = Ok ((inject_Z (truncate (w_scale ay * inject_Z scale_factor)) / inject_Z scale_factor * 1)%Q, (inject_Z (truncate (w_scale ax * inject_Z scale_factor)) / inject_Z scale_factor * 1)%Q)).
  { unfold T, tags_of, resolutions, resolution, key. reflexivity. }
  set (u := number_or_text E (named (unit_text ay))). set (v := number_or_text E (str "1.11a")).
  change (has "ImageJ" _) with true. change (lookup (str "unit") _) with (Some u). change (lookup (str "spacing") _) with (Some (VNum (w_scale az))). cbn [negb].
  rewrite KR. cbn [bind fst snd tz]. unfold u. rewrite micron_seen by exact HF.
  destruct HN as [->|[->| ->]]; destruct (eqb_str (unit_text ay) micrometre || eqb_str (unit_text ay) (str "micron")); reflexivity.
Qed.
(** A scale which is a multiple of 10^-8 comes back as it was *)
Theorem C129_exact : forall k : Z, let s := (k # 100000000)%Q in (inject_Z (truncate (s * inject_Z scale_factor)) / inject_Z scale_factor == s)%Q.
Proof.
  intros k s. unfold s, truncate, Qmult, inject_Z. cbn [Qnum Qden]. change scale_factor with 100000000. rewrite Pos.mul_1_r. rewrite Z.quot_mul by lia.
  unfold Qdiv, Qinv, Qmult, Qeq. cbn [Qnum Qden]. lia.
Qed.
(** The quantity measured and the model of its variance are stored as they are *)
Theorem C129_intensity : forall E g w, tags_dict E g [] = Ok w ->
  lookup (str "65022") (tags_of w) = option_map VText (g_quantity g) /\
  (forall o s, g_gain g = Some (Some o, Some s) -> lookup (str "65024") (tags_of w) = Some (VNum o) /\ lookup (str "65025") (tags_of w) = Some (VNum s)) /\
  (g_gain g = None -> lookup (str "65024") (tags_of w) = None /\ lookup (str "65025") (tags_of w) = None).
Proof.
  intros E g w H. unfold tags_dict in H. destruct (from_end _ 0) as [ax|]; [|discriminate]. cbn [bind] in H. destruct (from_end _ 1) as [ay|]; [|discriminate]. cbn [bind] in H.
  destruct (at_ _ 1); [|discriminate]. cbn [bind] in H. destruct (at_ _ 0) as [a0|]; [|discriminate]. cbn [bind] in H. destruct (mapM _ _); [|discriminate]. cbn [bind] in H. injection H as <-.
  destruct (0 <? countZ w_navigate (g_axes g)); destruct (g_quantity g), (g_gain g) as [[[o|] [s|]]|]; repeat split; intros; try discriminate; try reflexivity; match goal with H : Some _ = Some _ |- _ => injection H as <- <- end; reflexivity.
Qed.

(** Saving needs two axes and units in Latin-1 *)
Theorem C130_dimensions : forall E g extra, (List.length (g_axes g) < 2)%nat -> tags_dict E g extra = Err IndexError.
Proof. intros E g extra H. unfold tags_dict. destruct (g_axes g) as [|a [|b l]]; [reflexivity|reflexivity|cbn in H; lia]. Qed.
Lemma mapM_latin : forall l : list waxis, mapM (fun a => latin1 (unit_text a)) l = if forallb (fun a => forallb (fun c => c <? 256) (unit_text a)) l then Ok (map unit_text l) else Err UnicodeError.
Proof.
  induction l as [|a l IH]; cbn [mapM forallb map]; [reflexivity|]. unfold latin1 at 1. destruct (forallb _ (unit_text a)); cbn [bind andb]; [|reflexivity].
  rewrite IH. destruct (forallb _ l); reflexivity.
Qed.
Theorem C130_units : forall E g extra, (2 <= List.length (g_axes g))%nat ->
  ((exists w, tags_dict E g extra = Ok w) <-> forall a u c, In a (g_axes g) -> w_units a = Some u -> In c u -> c < 256) /\
  ((exists a u c, In a (g_axes g) /\ w_units a = Some u /\ In c u /\ 256 <= c) -> tags_dict E g extra = Err UnicodeError).
Proof.
  intros E g extra H. unfold tags_dict.
  assert (exists x, from_end (g_axes g) 0 = Ok x) as [ax ->]. { unfold from_end. destruct (nth_error (rev (g_axes g)) 0) eqn:N; [eexists; reflexivity|]. apply nth_error_None in N. rewrite rev_length in N. lia. }
  assert (exists x, from_end (g_axes g) 1 = Ok x) as [ay ->]. { unfold from_end. destruct (nth_error (rev (g_axes g)) 1) eqn:N; [eexists; reflexivity|]. apply nth_error_None in N. rewrite rev_length in N. lia. }
  assert (exists x, at_ (g_axes g) 1 = Ok x) as [a1 ->]. { unfold at_. destruct (nth_error (g_axes g) 1) eqn:N; [eexists; reflexivity|]. apply nth_error_None in N. lia. }
  assert (exists x, at_ (g_axes g) 0 = Ok x) as [a0 ->]. { unfold at_. destruct (nth_error (g_axes g) 0) eqn:N; [eexists; reflexivity|]. apply nth_error_None in N. lia. }
  cbn [bind]. rewrite mapM_latin. destruct (forallb _ (g_axes g)) eqn:F; cbn [bind].
  - rewrite forallb_forall in F. split.
    + split; [intros _ a u c I U C; specialize (F a I); rewrite forallb_forall in F; unfold unit_text in F; rewrite U in F; specialize (F c C); lia|intros _; eexists; reflexivity].
    + intros (a & u & c & I & U & C & L). specialize (F a I). rewrite forallb_forall in F. unfold unit_text in F. rewrite U in F. specialize (F c C). lia.
  - split; [|reflexivity]. split; [intros [w D]; discriminate|]. intros A. exfalso. assert (X : forallb (fun a => forallb (fun c => c <? 256) (unit_text a)) (g_axes g) = true).
    { apply forallb_forall. intros a I. apply forallb_forall. intros c C. unfold unit_text in C. destruct (w_units a) as [u|] eqn:U; [|destruct C]. specialize (A a u c I U C). lia. }
    rewrite X in F. discriminate.
Qed.
(** * What does not come back *)
Definition xE : env := {| e_float := fun s => if eqb_str s (str "2.5") then Some (5 # 2)%Q else None; e_show := fun _ => str "2.5"; e_xml := fun _ => Err OtherError; e_date := fun _ _ => None;
  e_guess := fun _ => None; e_single := fun _ => 0%Q; e_wave := fun _ => 1%Q; e_cubic := fun _ => (0, 0, 0, 0)%Q; e_unit := fun _ => None; e_six := fun q => q; e_lumispy := false |}.
Definition xpage : page := {| p_axes := str "YX"; p_shape := [2; 3]; p_data := Regular U1 [2; 3] [1; 2; 3; 4; 5; 6]; p_rgb := false; p_tags := []; p_fei := false; p_sem := false; p_tvips := false; p_sis := false;
  p_sis_tags := (None, None) |}.
Definition xaxis (s o : Q) (u : pystr) (nav : bool) : waxis := {| w_scale := s; w_offset := o; w_units := Some u; w_navigate := nav |}.
Definition back (l : list waxis) (shape : list Z) (names : list (option string)) : res (list axis) :=
  match tags_dict xE {| g_axes := l; g_quantity := Some (str "Counts"); g_gain := None |} [] with
  | Ok w => snd (parse_scale xE (file_of xE [] [2; 3] w) xpage (tags_of w) shape false names None)
  | Err e => Err e
  end.
Definition scale_of (a : axis) : option Q := match a with Plain _ _ (VNum q) _ _ _ => Some (Qred q) | _ => None end.
Definition unit_of (a : axis) : value := match a with Plain _ _ _ _ u _ => u | _ => VNone end.
Definition hw : list (option string) := [Some "height"%string; Some "width"%string].
Definition scales (r : res (list axis)) := match r with Ok l => map scale_of l | Err _ => [] end.
Definition units (r : res (list axis)) := match r with Ok l => map unit_of l | Err _ => [] end.
(** scales below 10^-8 are zero afterwards *)
Theorem C130_small_refuted : ~ forall l q, scales (back l [2; 3] hw) = q -> forall k a s, nth_error l k = Some a -> nth_error q k = Some (Some s) -> (s == w_scale a)%Q.
Proof.
  intro H. specialize (H [xaxis (1 # 1000000000) 0 (str "m") false; xaxis (1 # 1000000000) 0 (str "m") false] [Some 0%Q; Some 0%Q] ltac:(vm_compute; reflexivity) 0%nat _ 0%Q eq_refl eq_refl). discriminate H.
Qed.
(** the unit of y is lost when that of x is micrometres *)
Theorem C130_mixed_refuted : ~ forall a b, units (back [a; b] [2; 3] hw) = [VText (unit_text a); VText (unit_text b)].
Proof. intro H. specialize (H (xaxis 1 0 (str "nm") false) (xaxis 1 0 [181; 109] false)). vm_compute in H. discriminate H. Qed.
(** with two navigation axes the second decides about the units of the images, and its scale is lost *)
Theorem C130_four_refuted : ~ forall a b c d, w_navigate a = true -> w_navigate b = true -> w_navigate c = false -> w_navigate d = false ->
  let r := back [a; b; c; d] [4; 5; 2; 3] (Some "time"%string :: Some "depth"%string :: hw) in nth 2 (units r) VNone = VText (unit_text c) /\ nth 1 (scales r) None = Some (w_scale b).
Proof. intro H. specialize (H (xaxis 7 0 (str "s") true) (xaxis 2 0 [181; 109] true) (xaxis 1 0 (str "nm") false) (xaxis 1 0 (str "nm") false) eq_refl eq_refl eq_refl eq_refl). vm_compute in H. destruct H as [H _]. discriminate H. Qed.
Example c129_image : back [xaxis (1 # 4) 3 (str "nm") false; xaxis (1 # 3) 5 (str "nm") false] [2; 3] hw =
  Ok [Plain 2 "height" (VNum (25000000 # 100000000)) (VNum 3) (VText (str "nm")) false; Plain 3 "width" (VNum (33333333 # 100000000)) (VNum 5) (VText (str "nm")) false].
Proof. vm_compute. reflexivity. Qed.
Example c129_stack : e_float xE (e_show xE (5 # 2)) = Some (5 # 2)%Q /\
  match back [xaxis (5 # 2) 1 (str "s") true; xaxis (1 # 4) 3 [181; 109] false; xaxis (1 # 2) 5 [181; 109] false] [4; 2; 3] (Some "time"%string :: hw) with
  | Ok l => (map scale_of l, map unit_of l) = ([Some (5 # 2)%Q; Some (1 # 4)%Q; Some (1 # 2)%Q], [VText (str "s"); VText [181; 109]; VText [181; 109]]) | Err _ => False end.
Proof. split; vm_compute; reflexivity. Qed.
Example c130_greek : back [xaxis 1 0 [956; 109] false; xaxis 1 0 [956; 109] false] [2; 3] hw = Err UnicodeError.
Proof. vm_compute. reflexivity. Qed.
Print Assumptions C129_image.
Print Assumptions C129_stack.
Print Assumptions C129_exact.
Print Assumptions C129_intensity.
Print Assumptions C130_dimensions.
Print Assumptions C130_units.
Print Assumptions C130_small_refuted.
Print Assumptions C130_mixed_refuted.
Print Assumptions C130_four_refuted.
