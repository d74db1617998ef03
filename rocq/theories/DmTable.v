(** C141 and C142: functions and table of the metadata of Digital Micrograph files. *)
From Coq Require Import QArith.
From Verif Require Import Base Text HierModel HierProps SfsModel RplModel DmModel DmImageModel DmMetaModel LogText ProtoFile DmAxes.
Local Open Scope Z_scope.

(** * Functions applied to tags *)
Theorem C141_mode : forall t, exists m, mode (DStr t) = Ok (str m) /\
  (m = "STEM"%string /\ occurs (str "STEM") t \/ m = "SEM"%string /\ occurs (str "SEM") t /\ ~ occurs (str "STEM") t \/ m = "TEM"%string /\ ~ occurs (str "SEM") t /\ ~ occurs (str "STEM") t).
Proof.
  intro t. unfold mode. destruct (contains (str "STEM") t) eqn:A; [exists "STEM"%string; split; [reflexivity|left; split; [reflexivity|apply contains_spec; exact A]]|]. apply contains_not in A.
  destruct (contains (str "SEM") t) eqn:B; [exists "SEM"%string; split; [reflexivity|right; left; split; [reflexivity|split; [apply contains_spec; exact B|exact A]]]|]. apply contains_not in B. exists "TEM"%string. tauto.
Qed.
Example C141_mode_demo : mode (DStr (str "STEM NANOPROBE")) = Ok (str "STEM") /\ mode (DStr (str "SEM")) = Ok (str "SEM") /\ mode (DStr (str "EFTEM")) = Ok (str "TEM") /\ mode (DList []) = Ok (str "TEM").
Proof. repeat split; reflexivity. Qed.

Inductive measured (kind : pystr) : pystr -> Prop :=
| rays : kind = str "EDS_TEM" -> measured kind (str "X-rays")
| electrons : kind <> str "EDS_TEM" -> measured kind (str "Electrons").
Theorem C141_quantity : forall kind,
  (kind = str "EDS_TEM" -> quantity kind (DStr []) = Ok (str "X-rays") /\ quantity kind (DList []) = Ok (str "X-rays") /\ quantity kind (DStr (str "e-")) = Ok (str "X-rays (Counts)") /\ forall u, u <> [] -> u <> str "e-" -> quantity kind (DStr u) = Ok (str "X-rays (" ++ u ++ str ")")) /\
  (kind <> str "EDS_TEM" -> quantity kind (DStr []) = Ok (str "Intensity") /\ quantity kind (DList []) = Ok (str "Intensity") /\ quantity kind (DStr (str "e-")) = Ok (str "Electrons (Counts)") /\ forall u, u <> [] -> u <> str "e-" -> quantity kind (DStr u) = Ok (str "Intensity (" ++ u ++ str ")")).
Proof.
  assert (U : forall kind u q, u <> [] -> u <> str "e-" -> (if eqb_str kind (str "EDS_TEM") then str "X-rays" else str "Intensity") = q -> quantity kind (DStr u) = Ok (q ++ str " (" ++ u ++ str ")")).
  { intros kind u q N NE Q. unfold quantity. cbn [bind]. destruct (eqb_str u (str "e-")) eqn:E; [apply eqb_str_spec in E; contradiction|]. rewrite Q. destruct u; [contradiction|]. unfold zlen. cbn [List.length]. destruct (Z.eqb_spec (Z.of_nat (S (List.length u))) 0); [lia|reflexivity]. }
  intro kind. split.
  - intros ->. repeat split. intros u N NE. exact (U (str "EDS_TEM") u (str "X-rays") N NE eq_refl).
  - intro N. assert (E : eqb_str kind (str "EDS_TEM") = false) by (destruct (eqb_str kind (str "EDS_TEM")) eqn:K; [apply eqb_str_spec in K; contradiction|reflexivity]). split; [|split; [|split]].
    + unfold quantity. cbn [bind eqb_str]. rewrite E. reflexivity.
    + unfold quantity. cbn [bind eqb_str]. rewrite E. reflexivity.
    + unfold quantity. cbn [bind]. rewrite eqb_str_refl, E. reflexivity.
    + intros u NU NE. apply (U kind u (str "Intensity") NU NE). rewrite E. reflexivity.
Qed.

(** The first place with a name *)
Definition usable (p : list string) (tags v : dval) : Prop := below p tags v /\ ~ blank v /\ v <> DStr (str "[]").
Definition places : list (list string) := [["Session Info"; "Microscope"]; ["Microscope Info"; "Name"]; ["Microscope Info"; "Microscope"]]%string.
Lemma truthy_spec : forall v, truthy v = false <-> blank v.
Proof.
  intro v. unfold blank. split.
  - intro T. destruct v; cbn [truthy] in T; try discriminate; apply Bool.negb_false_iff, Z.eqb_eq in T.
    + subst. tauto.
    + subst. do 5 right. eexists. reflexivity.
    + destruct s; [tauto|unfold zlen in T; cbn [List.length] in T; lia].
    + destruct l; [tauto|unfold zlen in T; cbn [List.length] in T; lia].
    + destruct l; [tauto|unfold zlen in T; cbn [List.length] in T; lia].
    + destruct d; [tauto|unfold zlen in T; cbn [List.length] in T; lia].
  - intros [->|[->|[->|[->|[->|[n ->]]]]]]; reflexivity.
Qed.
Lemma pick_spec : forall p tags o, match get p tags with Some v => if truthy v && negb (is_text "[]" (Some v)) then Some v else None | None => None end = o ->
  match o with Some v => usable p tags v | None => forall v, ~ usable p tags v end.
Proof.
  intros p tags o <-. destruct (get p tags) as [v|] eqn:G.
  - destruct (truthy v) eqn:T; cbn [andb].
    + destruct (is_text "[]" (Some v)) eqn:I; cbn [negb].
      * intros w (B & _ & N). apply get_spec in B. rewrite G in B. injection B as <-. apply N. destruct v; try discriminate. cbn in I. apply eqb_str_spec in I. subst. reflexivity.
      * split; [apply get_spec; exact G|]. split; [intro B; apply truthy_spec in B; congruence|]. intros ->. discriminate.
    + intros w (B & N & _). apply get_spec in B. rewrite G in B. injection B as <-. apply N, truthy_spec. exact T.
  - intros w (B & _). apply get_spec in B. congruence.
Qed.
Theorem C141_microscope : forall tags,
  match microscope_name tags with
  | Some v => exists a p b, places = a ++ p :: b /\ usable p tags v /\ forall q w, In q a -> ~ usable q tags w
  | None => forall q w, In q places -> ~ usable q tags w
  end.
Proof.
  intro tags. unfold microscope_name.
  pose proof (pick_spec ["Session Info"; "Microscope"]%string tags _ eq_refl) as P1. pose proof (pick_spec ["Microscope Info"; "Name"]%string tags _ eq_refl) as P2. pose proof (pick_spec ["Microscope Info"; "Microscope"]%string tags _ eq_refl) as P3.
  match type of P1 with match ?x with _ => _ end => destruct x as [v|] end; [exists [], ["Session Info"; "Microscope"]%string; eexists; split; [reflexivity|]; split; [exact P1|intros q w []]|].
  match type of P2 with match ?x with _ => _ end => destruct x as [v|] end.
  { exists [["Session Info"; "Microscope"]%string], ["Microscope Info"; "Name"]%string. eexists. split; [reflexivity|]. split; [exact P2|]. intros q w [<-|[]]. apply P1. }
  match type of P3 with match ?x with _ => _ end => destruct x as [v|] end.
  { exists [["Session Info"; "Microscope"]; ["Microscope Info"; "Name"]]%string, ["Microscope Info"; "Microscope"]%string. eexists. split; [reflexivity|]. split; [exact P3|]. intros q w [<-|[<-|[]]]; [apply P1|apply P2]. }
  intros q w [<-|[<-|[<-|[]]]]; [apply P1|apply P2|apply P3].
Qed.
Example C141_microscope_demo : microscope_name (DDict [(str "Session Info", DDict [(str "Microscope", DStr (str "[]"))]); (str "Microscope Info", DDict [(str "Name", DStr []); (str "Microscope", DStr (str "Titan"))])]) = Some (DStr (str "Titan")).
Proof. reflexivity. Qed.

(** The time of a spectrum: given, or the number of frames times the time of one *)
Inductive lasting (E : env) (d : list (pystr * dval)) : Q -> Prop :=
| whole : forall v q, lookup (str "Integration_time_s") d = Some v -> to_float E v = Ok q -> lasting E d q
| counted : forall v w n q, lookup (str "Integration_time_s") d = None -> lookup (str "Exposure_s") d = Some v -> lookup (str "Number_of_frames") d = Some w -> to_float E v = Ok q -> to_float E w = Ok n -> lasting E d (q * n)
| single : forall v q, lookup (str "Integration_time_s") d = None -> lookup (str "Exposure_s") d = Some v -> lookup (str "Number_of_frames") d = None -> to_float E v = Ok q -> lasting E d (q * 1).
Theorem C141_exposure : forall E d o, exposure E d = Ok o -> match o with Some q => lasting E d q | None => lookup (str "Integration_time_s") d = None /\ lookup (str "Exposure_s") d = None end.
Proof.
  intros E d o H. unfold exposure in H. destruct (lookup (str "Integration_time_s") d) as [v|] eqn:A.
  - destruct (to_float E v) as [q|] eqn:F; [|discriminate]. cbn [bind] in H. injection H as <-. eapply whole; eassumption.
  - destruct (lookup (str "Exposure_s") d) as [v|] eqn:B; [|injection H as <-; split; reflexivity].
    destruct (lookup (str "Number_of_frames") d) as [w|] eqn:C.
    + destruct (to_float E w) as [n|] eqn:F; [|discriminate]. cbn [bind] in H. destruct (to_float E v) as [q|] eqn:G; [|discriminate]. cbn [bind] in H. injection H as <-. eapply counted; eassumption.
    + cbn [bind] in H. destruct (to_float E v) as [q|] eqn:G; [|discriminate]. cbn [bind] in H. injection H as <-. eapply single; eassumption.
Qed.
Theorem C141_texts : forall E s v, (parse_string v = Ok None -> blank v) /\ (forall w, parse_string v = Ok (Some w) -> w = v /\ ~ blank v) /\
  parse_float E [] = None /\ (s <> [] -> parse_float E s = e_float E s) /\
  (forall m, (forall l, v <> DTuple l) -> pixel_size m v = Ok v) /\ (forall m a b, pixel_size m (DTuple [a; b]) = Ok (if m a b then a else DTuple [a; b])).
Proof.
  intros E s v. split; [|split; [|split; [|split; [|split]]]]; try reflexivity.
  - intro H. apply truthy_spec. unfold parse_string in H. destruct v; try discriminate; match type of H with Ok (if ?b then _ else _) = _ => destruct b end; try discriminate; reflexivity.
  - intros w H. unfold parse_string in H. assert (B : truthy v = true /\ w = v) by (destruct v; try discriminate; match type of H with Ok (if ?b then _ else _) = _ => destruct b end; try discriminate; injection H as <-; split; reflexivity).
    destruct B as [B ->]. split; [reflexivity|]. intro K. apply truthy_spec in K. congruence.
  - intro N. unfold parse_float. destruct s; [contradiction|]. unfold zlen. cbn [List.length]. destruct (Z.eqb_spec (Z.of_nat (S (List.length s))) 0); [lia|reflexivity].
  - intros m N. destruct v; try reflexivity; exfalso; eapply N; reflexivity.
Qed.
Theorem C141_detector : forall d m, lookup (str "Acquisition_Mode") d = Some (DStr (str m)) ->
  (m = "Parallel dispersive"%string -> cl_detector d = Some "CCD"%string) /\ (m = "Serial dispersive"%string -> cl_detector d = Some "PMT"%string) /\
  (str m <> str "Parallel dispersive" -> str m <> str "Serial dispersive" -> cl_detector d = None).
Proof.
  intros d m L. unfold cl_detector. rewrite L. cbn [is_text]. split; [intros ->; reflexivity|]. split; [intros ->; reflexivity|]. intros A B.
  destruct (eqb_str (str m) (str "Parallel dispersive")) eqn:E1; [apply eqb_str_spec in E1; contradiction|]. destruct (eqb_str (str m) (str "Serial dispersive")) eqn:E2; [apply eqb_str_spec in E2; contradiction|]. reflexivity.
Qed.
Definition small : env := {| e_num := fun v => match v with DInt z => Some (inject_Z z) | _ => None end; e_float := fun s => match parse_int (strip s) with Ok z => Some (inject_Z z) | Err _ => None end; e_date := fun _ => None; e_time := fun _ => None |}.
Example C141_demo : exposure small [(str "Exposure_s", DInt 3); (str "Number_of_frames", DStr (str "4"))] = Ok (Some (3 * 4)%Q) /\ aperture small (str "5 mm") = Some 5%Q /\ aperture small (str "mm") = None /\
  parse_string (DList []) = Ok None /\ quantity (str "EDS_TEM") (DStr (str "ph")) = Ok (str "X-rays (ph)") /\ cl_detector [(str "Acquisition_Mode", DStr (str "Serial dispersive"))] = Some "PMT"%string.
Proof. repeat split; vm_compute; reflexivity. Qed.

(** * The table *)
Ltac cases f := destruct f as [src scan sem sc si kind]; unfold table; cbn [f_source f_scanning f_sem f_scope f_si f_kind].
Definition canonical (b : branch) : pystr := match b with Eels => str "EELS" | Eds => str "EDS_TEM" | Cl => str "CL" | Other => [] end.
(** the table depends on the kind only by its branch *)
Lemma table_kind : forall b src scan sem sc si kind kind', table_of b {| f_source := src; f_scanning := scan; f_sem := sem; f_scope := sc; f_si := si; f_kind := kind |} = table_of b {| f_source := src; f_scanning := scan; f_sem := sem; f_scope := sc; f_si := si; f_kind := kind' |}.
Proof. reflexivity. Qed.
Ltac kinds := match goal with |- context [branch_of ?k] => try rewrite (table_kind _ _ _ _ _ _ k []); destruct (branch_of k) end.
Definition home (f : flags) : string := if f_source f then "ImageList.TagGroup0.ImageTags.source.Tags at creation" else "ImageList.TagGroup0.ImageTags".
Definition instrument (f : flags) (s : string) : string := if f_sem f then ("Acquisition_instrument.SEM." ++ s)%string else ("Acquisition_instrument.TEM." ++ s)%string.
(** a tag becomes an entry of the metadata by a function *)
Definition becomes (f : flags) (source target : string) (c : conv) : Prop := lookup (str (home f ++ "." ++ source)) (table f) = Some (str target, c).
Definition unused (f : flags) (source : string) : Prop := lookup (str (home f ++ "." ++ source)) (table f) = None.
Ltac bool_cases :=
  repeat match goal with b : bool |- _ => destruct b end; repeat match goal with o : option (bool * bool) |- _ => destruct o as [[[] []]|] end.
(** All cases at once *)
Definition rekind (f : flags) : flags := {| f_source := f_source f; f_scanning := f_scanning f; f_sem := f_sem f; f_scope := f_scope f; f_si := f_si f; f_kind := [] |}.
Definition every : list (branch * flags) :=
  flat_map (fun b => flat_map (fun src => flat_map (fun scan => flat_map (fun sem => flat_map (fun sc => map (fun si =>
    (b, {| f_source := src; f_scanning := scan; f_sem := sem; f_scope := sc; f_si := si; f_kind := [] |})) [true; false])
    [None; Some (true, true); Some (true, false); Some (false, true); Some (false, false)]) [true; false]) [true; false]) [true; false]) [Eels; Eds; Cl; Other].
Lemma every_in : forall b f, In (b, rekind f) every.
Proof.
  intros b [src scan sem sc si kind]. unfold rekind, every. cbn [f_source f_scanning f_sem f_scope f_si].
  apply in_flat_map. exists b. split; [destruct b; cbn; tauto|]. apply in_flat_map. exists src. split; [destruct src; cbn; tauto|]. apply in_flat_map. exists scan. split; [destruct scan; cbn; tauto|].
  apply in_flat_map. exists sem. split; [destruct sem; cbn; tauto|]. apply in_flat_map. exists sc. split; [destruct sc as [[[] []]|]; cbn; tauto|]. apply (in_map (fun si => (b, {| f_source := src; f_scanning := scan; f_sem := sem; f_scope := sc; f_si := si; f_kind := [] |}))). destruct si; cbn; tauto.
Qed.
Lemma check_all : forall P : branch -> flags -> bool, forallb (fun '(b, f) => P b f) every = true -> forall f, P (branch_of (f_kind f)) (rekind f) = true.
Proof. intros P H f. rewrite forallb_forall in H. exact (H _ (every_in (branch_of (f_kind f)) f)). Qed.
Lemma table_rekind : forall f, table f = table_of (branch_of (f_kind f)) (rekind f).
Proof. intros [src scan sem sc si kind]. reflexivity. Qed.
Lemma conv_dec : forall a b : conv, {a = b} + {a <> b}.
Proof. decide equality. apply Z.eq_dec. Defined.
Definition same (a b : option (pystr * conv)) : bool :=
  match a, b with Some (s, c), Some (t, d) => eqb_str s t && (if conv_dec c d then true else false) | None, None => true | _, _ => false end.
Lemma same_spec : forall a b, same a b = true -> a = b.
Proof. intros [[s c]|] [[t d]|] H; try discriminate; [|reflexivity]. cbn in H. apply andb_prop in H. destruct H as [A B]. apply eqb_str_spec in A. destruct (conv_dec c d); [subst; reflexivity|discriminate]. Qed.
Definition goes (f : flags) (l : list (string * string * conv)) : Prop := Forall (fun '(s, t, c) => becomes f s t c) l.
Definition idle (f : flags) (l : list string) : Prop := Forall (unused f) l.
Definition chk (b : branch) (f : flags) (l : list (string * string * conv)) (u : list string) : bool :=
  let T := table_of b f in
  forallb (fun '(s, t, c) => same (lookup (str (home f ++ "." ++ s)) T) (Some (str t, c))) l && forallb (fun s => same (lookup (str (home f ++ "." ++ s)) T) None) u.
Lemma chk_spec : forall f l u, chk (branch_of (f_kind f)) (rekind f) l u = true -> goes f l /\ idle f u.
Proof.
  intros f l u H. unfold chk in H. apply andb_prop in H. destruct H as [A B]. rewrite forallb_forall in A, B. split; apply Forall_forall.
  - intros [[s t] c] I. specialize (A _ I). cbn beta iota in A. apply same_spec in A. unfold becomes. rewrite table_rekind. exact A.
  - intros s I. specialize (B _ I). cbn beta in B. apply same_spec in B. unfold unused. rewrite table_rekind. exact B.
Qed.
(** No tag is used twice *)
Fixpoint distinct (l : list pystr) : bool := match l with [] => true | x :: r => negb (existsb (eqb_str x) r) && distinct r end.
Lemma distinct_spec : forall l, distinct l = true -> NoDup l.
Proof.
  induction l as [|x l IH]; intro H; constructor; cbn in H; apply andb_prop in H; destruct H as [A B].
  - intro I. apply Bool.negb_true_iff in A. assert (existsb (eqb_str x) l = true); [|congruence]. apply existsb_exists. exists x. split; [exact I|apply eqb_str_refl].
  - apply IH. exact B.
Qed.
Theorem C142_once : forall f, NoDup (map fst (table f)).
Proof. intro f. apply distinct_spec. rewrite table_rekind. apply (check_all (fun b f => distinct (map fst (table_of b f)))). vm_compute. reflexivity. Qed.
(** Sources lie in the tags of the image, or are its calibration of brightness *)
Theorem C142_sources : forall f k t c, In (k, (t, c)) (table f) ->
  k = str (home f) \/ (exists r, k = str (home f) ++ str "." ++ r) \/ exists r, k = str "ImageList.TagGroup0.ImageData.Calibrations.Brightness." ++ r.
Proof.
  assert (S : forall p q k, startswith p k = true -> p = q -> exists r, k = q ++ r).
  { intros p q k H <-. revert k H. induction p as [|x p IH]; intros k H; [exists k; reflexivity|]. destruct k as [|y k]; [discriminate|]. cbn [startswith] in H. apply andb_prop in H. destruct H as [A B]. apply Z.eqb_eq in A. subst. destruct (IH k B) as [r ->]. exists r. reflexivity. }
  intros f k t c H.
  assert (A : forallb (fun '(k, _) => eqb_str k (str (home f)) || startswith (str (home f ++ ".")) k || startswith (str "ImageList.TagGroup0.ImageData.Calibrations.Brightness.") k) (table f) = true).
  { clear. rewrite table_rekind. change (home f) with (home (rekind f)).
    apply (check_all (fun b f => forallb (fun '(k, _) => eqb_str k (str (home f)) || startswith (str (home f ++ ".")) k || startswith (str "ImageList.TagGroup0.ImageData.Calibrations.Brightness.") k) (table_of b f))). vm_compute. reflexivity. }
  rewrite forallb_forall in A. specialize (A _ H). cbn beta iota in A. rewrite !Bool.orb_true_iff in A. destruct A as [[A|A]|A].
  - left. apply eqb_str_spec. exact A.
  - right. left. destruct (S _ (str (home f ++ ".")) _ A eq_refl) as [r ->]. exists r. rewrite app_assoc. f_equal. unfold home. destruct (f_source f); reflexivity.
  - right. right. exact (S _ _ _ A eq_refl).
Qed.
(** Date, time, person, sample, microscope *)
Definition general (f : flags) : list (string * string * conv) :=
  [("DataBar.Acquisition Date", "General.date", Date); ("DataBar.Acquisition Time", "General.time", Time); ("Session Info.Operator", "General.authors", Text); ("Session Info.Specimen", "Sample.description", Text);
   ("Microscope Info.Voltage", instrument f "beam_energy", Per 1000); ("Microscope Info.Probe Current (nA)", instrument f "beam_current", Keep); ("Microscope Info.Illumination Mode", instrument f "acquisition_mode", Mode);
   ("Microscope Info.Stage Position.Stage Alpha", instrument f "Stage.tilt_alpha", Keep); ("Microscope Info.Stage Position.Stage Beta", instrument f "Stage.tilt_beta", Keep);
   ("Microscope Info.Stage Position.Stage X", instrument f "Stage.x", Per 1000); ("Microscope Info.Stage Position.Stage Y", instrument f "Stage.y", Per 1000); ("Microscope Info.Stage Position.Stage Z", instrument f "Stage.z", Per 1000)]%string.
Theorem C142_general : forall f, goes f (general f).
Proof. intro f. apply (chk_spec f _ []). change (general f) with (general (rekind f)). apply (check_all (fun b f => chk b f (general f) [])). vm_compute. reflexivity. Qed.
(** Indicated magnification: a camera length for diffraction in a TEM *)
Definition magnified (f : flags) : list (string * string * conv) * list string :=
  match f_scope f with
  | Some (true, true) => ([("Microscope_Info.Indicated_Magnification", "Acquisition_instrument.TEM.camera_length", Keep)], ["Microscope Info.STEM Camera Length"; "Microscope Info.Indicated Magnification"])
  | Some (true, false) => ([("Microscope_Info.Indicated_Magnification", "Acquisition_instrument.TEM.magnification", Keep)], ["Microscope Info.STEM Camera Length"; "Microscope Info.Indicated Magnification"])
  | Some (false, _) => ([("Microscope Info.Indicated Magnification", instrument f "magnification", Keep); ("Microscope Info.STEM Camera Length", instrument f "camera_length", Keep)], ["Microscope_Info.Indicated_Magnification"])
  | None => ([], ["Microscope_Info.Indicated_Magnification"; "Microscope Info.Indicated Magnification"; "Microscope Info.STEM Camera Length"])
  end%string.
Theorem C142_magnification : forall f, goes f (fst (magnified f)) /\ idle f (snd (magnified f)) /\
  lookup (str (home f)) (table f) = match f_scope f with Some _ => Some (str (instrument f "microscope"), Scope) | None => None end.
Proof.
  intro f. assert (A : goes f (fst (magnified f)) /\ idle f (snd (magnified f))).
  { apply chk_spec. change (magnified f) with (magnified (rekind f)). apply (check_all (fun b f => chk b f (fst (magnified f)) (snd (magnified f)))). vm_compute. reflexivity. }
  destruct A as [A B]. split; [exact A|]. split; [exact B|]. rewrite table_rekind. apply same_spec.
  apply (check_all (fun b f => same (lookup (str (home f)) (table_of b f)) (match f_scope f with Some _ => Some (str (instrument f "microscope"), Scope) | None => None end))). vm_compute. reflexivity.
Qed.
(** All the places a date is taken from, in order *)
Definition dates (b : branch) (f : flags) : list string :=
  "DataBar.Acquisition Date"%string :: (if f_si f then cons "SI.Acquisition.Date"%string else fun l => l)
   match b with Eels => ["EELS.Acquisition.Date"]%string | Eds => ["EDS.Acquisition.Date"]%string | Cl => ["CL.Acquisition.Date"; "CL.Acquisition.Acquisition_begin"; "DataBar.Acquisition_Date"]%string | Other => [] end.
Definition times (b : branch) (f : flags) : list string :=
  "DataBar.Acquisition Time"%string :: (if f_si f then cons "SI.Acquisition.Start time"%string else fun l => l)
   match b with Eels => ["EELS.Acquisition.Start time"]%string | Eds => ["EDS.Acquisition.Start time"]%string | Cl => ["CL.Acquisition.Start_time"; "DataBar.Acquisition_Time"]%string | Other => [] end.
(** The branch is that of the kind *)
Theorem C142_branch : branch_of (str "EELS") = Eels /\ branch_of (str "EDS_TEM") = Eds /\ branch_of (str "CL") = Cl /\ branch_of [] = Other.
Proof. repeat split. Qed.
Definition feeds (t : string) (l : list (pystr * (pystr * conv))) : list pystr := map fst (filter (fun '(k, (u, c)) => eqb_str u (str t)) l).
Lemma eqb_list : forall a b, (fix go (a b : list pystr) := match a, b with [], [] => true | x :: a, y :: b => eqb_str x y && go a b | _, _ => false end) a b = true -> a = b.
Proof. induction a as [|x a IH]; intros [|y b] H; try discriminate; [reflexivity|]. apply andb_prop in H. destruct H as [A B]. apply eqb_str_spec in A. subst. f_equal. apply IH. exact B. Qed.
Theorem C142_dates : forall f, feeds "General.date" (table f) = map (fun s => str (home f ++ "." ++ s)) (dates (branch_of (f_kind f)) f) /\ feeds "General.time" (table f) = map (fun s => str (home f ++ "." ++ s)) (times (branch_of (f_kind f)) f).
Proof.
  intro f. rewrite table_rekind. split; apply eqb_list.
  - apply (check_all (fun b f => (fix go (a b : list pystr) := match a, b with [], [] => true | x :: a, y :: b => eqb_str x y && go a b | _, _ => false end) (feeds "General.date" (table_of b f)) (map (fun s => str (home f ++ "." ++ s)) (dates b f)))). vm_compute. reflexivity.
  - apply (check_all (fun b f => (fix go (a b : list pystr) := match a, b with [], [] => true | x :: a, y :: b => eqb_str x y && go a b | _, _ => false end) (feeds "General.time" (table_of b f)) (map (fun s => str (home f ++ "." ++ s)) (times b f)))). vm_compute. reflexivity.
Qed.
(** Each kind: energy loss, X-rays, light, other pictures *)
Definition under (p : string) (l : list (string * string * conv)) : list (string * string * conv) := map (fun '(s, t, c) => (s, p ++ t, c)%string) l.
Definition detail (b : branch) (f : flags) : list (string * string * conv) * list string :=
  match b with
  | Eels => (under "Acquisition_instrument.TEM." [("EELS.Experimental Conditions.Collection semi-angle (mrad)", "Detector.EELS.collection_angle", Keep); ("EELS.Experimental Conditions.Convergence semi-angle (mrad)", "convergence_angle", Keep);
       ("EELS.Acquisition", (if f_scanning f then "Detector.EELS.dwell_time" else "Detector.EELS.exposure"), Exposure); ("EELS.Acquisition.Number_of_frames", "Detector.EELS.frame_number", Keep);
       ("EELS_Spectrometer.Aperture_label", "Detector.EELS.aperture_size", Aperture); ("EELS Spectrometer.Instrument name", "Detector.EELS.spectrometer", Keep)], ["Acquisition.Parameters.Detector.exposure_s"; "DigiScan.Sample Time"])
  | Eds => (under "Acquisition_instrument.TEM.Detector.EDS." [("EDS.Detector_Info.Azimuthal_angle", "azimuth_angle", Keep); ("EDS.Detector_Info.Elevation_angle", "elevation_angle", Keep);
       ("EDS.Solid_angle", "solid_angle", Keep); ("EDS.Live_time", "live_time", Keep); ("EDS.Real_time", "real_time", Keep)], ["Acquisition.Parameters.Detector.exposure_s"; "DigiScan.Sample Time"])
  | Cl => (List.app (under "Acquisition_instrument.Spectrometer."
       [("Meta_Data.Acquisition_Mode", "acquisition_mode", Keep); ("Acquisition.Monarc_Spectrometer.Grating", "Grating.groove_density", Grating); ("CL.Acquisition.Dispersion_grating_(lines/mm)", "Grating.groove_density", Keep);
        ("Acquisition.Monarc_Spectrometer.Slit_Width", "entrance_slit_width", Keep); ("Acquisition.Monarc_Spectrometer.Bandpass", "bandpass", Keep); ("CL.Acquisition.Central_wavelength_(nm)", "central_wavelength", Keep);
        ("CL.Acquisition.Start_wavelength_(nm)", "start_wavelength", Keep); ("CL.Acquisition.Step-size_(nm)", "step_size", Keep)]) (List.app
      (under "Acquisition_instrument.Detector."
       [("Meta_Data", "detector_type", ClDetector); ("CL.Acquisition.Exposure_(s)", "exposure_per_frame", Keep); ("CL.Acquisition.Number_of_frames", "frames", Keep); ("CL.Acquisition", "integration_time", Exposure);
        ("CL.Acquisition.Saturation_fraction", "saturation_fraction", Keep); ("Acquisition.Parameters.High_Level.Binning", "binning", Keep); ("Acquisition.Parameters.High_Level.CCD_Read_Area", "sensor_roi", Keep);
        ("Acquisition.Parameters.High_Level.Processing", "processing", Keep); ("Acquisition.Device.CCD.Pixel_Size_um", "pixel_size", PixelSize); ("CL.Acquisition.Dwell_time_(s)", "integration_time", Keep); ("Acquisition.Monarc_Spectrometer.PMT_HV", "pmt_voltage", Keep)]) (List.app
      (under "Acquisition_instrument.Spectrum_image."
       [("SI.Acquisition.SI_Application_Mode.Name", "mode", Keep); ("SI.Acquisition.Artefact_Correction.Spatial_Drift.Periodicity", "drift_correction_periodicity", Keep); ("SI.Acquisition.Artefact_Correction.Spatial_Drift.Units", "drift_correction_units", Keep)])
      [("DigiScan.Sample Time", instrument f "dwell_time", Per 1000000); ("Meta_Data.Format", "Signal.format", Keep)])), ["Acquisition.Parameters.Detector.exposure_s"])
  | Other => if f_scanning f then ([("DigiScan.Sample Time", instrument f "dwell_time", Per 1000000)], ["Acquisition.Parameters.Detector.exposure_s"])
             else ([("Acquisition.Parameters.Detector.exposure_s", "Acquisition_instrument.TEM.Camera.exposure", Keep)], ["DigiScan.Sample Time"])
  end%string.
Theorem C142_kinds : forall f, goes f (fst (detail (branch_of (f_kind f)) f)) /\ idle f (snd (detail (branch_of (f_kind f)) f)).
Proof. intro f. apply chk_spec. change (detail (branch_of (f_kind f)) f) with (detail (branch_of (f_kind f)) (rekind f)). apply (check_all (fun b f => chk b f (fst (detail b f)) (snd (detail b f)))). vm_compute. reflexivity. Qed.
Theorem C142_brightness : forall f s t c, In (s, t, c) [("Units", "Signal.quantity", Quantity); ("Scale", "Signal.Noise_properties.Variance_linear_model.gain_factor", Keep); ("Origin", "Signal.Noise_properties.Variance_linear_model.gain_offset", Keep)]%string ->
  lookup (str ("ImageList.TagGroup0.ImageData.Calibrations.Brightness." ++ s)) (table f) = Some (str t, c).
Proof.
  intros f s t c I. rewrite table_rekind. apply same_spec.
  assert (A := check_all (fun b f => forallb (fun '(s, t, c) => same (lookup (str ("ImageList.TagGroup0.ImageData.Calibrations.Brightness." ++ s)) (table_of b f)) (Some (str t, c))) [("Units", "Signal.quantity", Quantity); ("Scale", "Signal.Noise_properties.Variance_linear_model.gain_factor", Keep); ("Origin", "Signal.Noise_properties.Variance_linear_model.gain_offset", Keep)]%string) ltac:(vm_compute; reflexivity) f).
  cbn beta in A. rewrite forallb_forall in A. exact (A _ I).
Qed.
(** Entries of a TEM are not given to a SEM and the other way round, for pictures and light *)
Theorem C142_instrument : forall f k t c, In (k, (t, c)) (table f) -> (f_sem f = false -> ~ exists r, t = str "Acquisition_instrument.SEM." ++ r) /\
  (f_sem f = true -> f_kind f = str "CL" \/ f_kind f = [] /\ f_scanning f = true -> (forall b, f_scope f <> Some (true, b)) -> ~ exists r, t = str "Acquisition_instrument.TEM." ++ r).
Proof.
  assert (P : forall p r, startswith p (p ++ r) = true) by (intro p; induction p as [|x p IH]; intro r; cbn [startswith app]; [reflexivity|]; rewrite Z.eqb_refl; apply IH).
  intros f k t c H. split.
  - intros S [r ->]. assert (A : forallb (fun '(_, (t, _)) => negb (startswith (str "Acquisition_instrument.SEM.") t)) (table f) = true).
    { clear H. rewrite table_rekind. pose proof (check_all (fun b f => f_sem f || forallb (fun '(_, (t, _)) => negb (startswith (str "Acquisition_instrument.SEM.") t)) (table_of b f)) ltac:(vm_compute; reflexivity) f) as Q. cbn beta in Q. change (f_sem (rekind f)) with (f_sem f) in Q. rewrite S in Q. exact Q. }
    rewrite forallb_forall in A. specialize (A _ H). cbn beta iota in A. rewrite P in A. discriminate.
  - intros S K N [r ->]. assert (A : forallb (fun '(_, (t, _)) => negb (startswith (str "Acquisition_instrument.TEM.") t)) (table f) = true).
    { clear H. rewrite table_rekind.
      pose proof (check_all (fun b f => negb (f_sem f) || (match b with Cl => false | Other => negb (f_scanning f) | _ => true end) || (match f_scope f with Some (true, _) => true | _ => false end) || forallb (fun '(_, (t, _)) => negb (startswith (str "Acquisition_instrument.TEM.") t)) (table_of b f)) ltac:(vm_compute; reflexivity) f) as Q.
      cbn beta in Q. change (f_sem (rekind f)) with (f_sem f) in Q. change (f_scanning (rekind f)) with (f_scanning f) in Q. change (f_scope (rekind f)) with (f_scope f) in Q. rewrite S in Q.
      assert (B : (match branch_of (f_kind f) with Cl => false | Other => negb (f_scanning f) | _ => true end) = false) by (destruct K as [-> | [-> ->]]; reflexivity). rewrite B in Q.
      destruct (f_scope f) as [[[] b]|]; [exfalso; exact (N b eq_refl)|exact Q|exact Q]. }
    rewrite forallb_forall in A. specialize (A _ H). cbn beta iota in A. rewrite P in A. discriminate.
Qed.
(** Spectra of a SEM get a detector of a TEM *)
Theorem C142_eds_refuted : exists f, f_sem f = true /\ f_kind f = str "EDS_TEM" /\ becomes f "EDS.Live_time" "Acquisition_instrument.TEM.Detector.EDS.live_time" Keep /\ becomes f "Microscope Info.Voltage" "Acquisition_instrument.SEM.beam_energy" (Per 1000).
Proof. exists {| f_source := false; f_scanning := true; f_sem := true; f_scope := Some (false, false); f_si := false; f_kind := str "EDS_TEM" |}. repeat split; vm_compute; reflexivity. Qed.

