(** Property C99: axes and data of TriVista files. *)
From Coq Require Import QArith.
From Verif Require Import Base Text HierModel SfsModel RowMajor XmlModel ImpProps MibImage TvModel.
Local Open Scope Z_scope.

(** * Specification *)
(** The first child of a tag *)
Definition first_child (e : xml) (tag : string) (c : xml) : Prop :=
  exists pre post, x_children e = pre ++ c :: post /\ x_tag c = str tag /\ Forall (fun d => x_tag d <> str tag) pre.
Section Spec.
  Variable float : pystr -> option Q.
  (** Texts of numbers without the sign c *)
  Definition numerals (c : Z) (texts : list pystr) (l : list Q) : Prop := Forall2 (fun t q => float t = Some q /\ ~ In c t) texts l.
  Definition calibrated (e : xml) (unit : pystr) (ws : list Q) : Prop :=
    exists dim cal rest n texts, first_child e "xDim" dim /\ x_children dim = cal :: rest /\ lookup (str "Unit") (x_attrs cal) = Some unit /\
      lookup (str "ValueArray") (x_attrs cal) = Some (join_char 124 (str_int n :: texts)) /\ numerals 124 texts ws.
  Definition frame (e : xml) (t : Z) (row : list Q) : Prop :=
    exists texts, lookup (str "TimeStamp") (x_attrs e) = Some (str_int t) /\ x_text e = join_char 59 texts /\ x_text e <> [] /\ numerals 59 texts row.
  Definition recorded (e : xml) (frames : list (Z * list Q)) : Prop :=
    exists data, first_child e "Data" data /\ Forall2 (fun e tr => frame e (fst tr) (snd tr)) (x_children data) frames.
  (** Entries that are numbers or texts of numbers *)
  Definition number_entry (d : list (pystr * value)) (k : string) (q : Q) : Prop := lookup (str k) d = Some (Num q) \/ exists s, lookup (str k) d = Some (Words s) /\ float s = Some q.
  Definition whole_entry (d : list (pystr * value)) (k : string) (n : Z) : Prop := lookup (str k) d = Some (Num (inject_Z n)) \/ lookup (str k) d = Some (Words (str_int n)).
  (** One direction of a scan: name, offset, step and number of points *)
  Definition direction (i : list (pystr * info)) (key name : string) (l : list (pystr * Q * Q * Z)) : Prop :=
    (lookup (str key) i = None /\ l = []) \/
    exists d o s n, lookup (str key) i = Some (Entries d) /\ number_entry d "From" o /\ number_entry d "Step" s /\ whole_entry d "Points" n /\ l = [(str name, o, s, n)].
  Definition scanned (i : list (pystr * info)) (dims : list (pystr * Q * Q * Z)) : Prop := exists ys xs, direction i "Y-Axis" "Y" ys /\ direction i "X-Axis" "X" xs /\ dims = ys ++ xs.
  Definition frame_number (i : list (pystr * info)) (n : Z) : Prop := exists d, lookup (str "Detector") i = Some (Entries d) /\ whole_entry d "No_of_Frames" n.
End Spec.
Definition points (d : pystr * Q * Q * Z) : Z := snd d.
(** Axes of the scan come in order of the array *)
Definition scan_axis (k : Z) (d : pystr * Q * Q * Z) (a : axis) : Prop :=
  let '(name, o, s, n) := d in a = {| a_name := name; a_units := [181; 109]; a_scale := Steps o s n; a_navigate := true; a_index := k |}.
Definition wavelengths (fit : list Q -> Q * Q) (uniform : bool) (unit : pystr) (ws : list Q) (k : Z) (a : axis) : Prop :=
  a_name a = str "Wavelength" /\ a_units a = (if eqb_str unit (str "Nanometer") then str "nm" else unit) /\ a_navigate a = false /\ a_index a = k /\
  a_scale a = (if uniform then Fitted (fst (fit ws)) (snd (fit ws)) (zlen ws) else Listed ws).

(** * Parts of the document *)
Section Proofs.
  Variable float : pystr -> option Q.
  Variable fit : list Q -> Q * Q.
  Lemma first_location : forall e tag c, first_child e tag c -> location e tag = Ok c.
  Proof.
    intros e tag c (pre & post & E & T & P). unfold location, findall. rewrite E, filter_app. replace (filter (fun d => eqb_str (x_tag d) (str tag)) pre) with (@nil xml); [cbn [app filter]; rewrite T, eqb_str_refl; reflexivity|].
    symmetry. clear E. induction pre as [|d pre IH]; [reflexivity|]. inversion P as [|d0 l0 H1 H2]; subst. cbn [filter]. rewrite (proj2 (eqb_str_neq _ _) H1). apply IH. exact H2.
  Qed.
  Lemma read_numerals : forall c texts l, numerals float c texts l -> mapM (parse_float float) texts = Ok l /\ Forall (fun w => ~ In c w) texts.
  Proof.
    intros c texts l H. induction H as [|t q texts l [F N] H [IH1 IH2]]; [split; [reflexivity|constructor]|]. cbn [mapM]. unfold parse_float at 1. rewrite F. cbn [bind]. rewrite IH1. split; [reflexivity|constructor; assumption].
  Qed.
  Theorem C99_axis : forall uniform e unit ws, calibrated float e unit ws -> exists a, signal_axis float fit uniform e = Ok a /\ wavelengths fit ((1 <? zlen ws) && uniform) unit ws 0 a.
  Proof.
    intros uniform e unit ws (dim & cal & rest & n & texts & FC & CH & U & V & N). destruct (read_numerals _ _ _ N) as [M NO]. unfold signal_axis. rewrite (first_location _ _ _ FC). cbn [bind]. rewrite CH. cbn [bind]. unfold attr at 1. rewrite V. cbn [bind]. cbv zeta.
    rewrite split_join; [|discriminate|constructor; [apply str_int_no; lia|exact NO]]. cbn [hd tl]. rewrite parse_int_str_int. cbn [bind]. rewrite M. cbn [bind]. unfold attr. rewrite U. cbn [bind]. eexists. split; [reflexivity|]. unfold wavelengths. cbn [a_name a_units a_navigate a_index a_scale]. repeat split.
  Qed.
  Lemma read_frames : forall es frames, Forall2 (fun e tr => frame float e (fst tr) (snd tr)) es frames -> mapM (read_frame float) es = Ok frames.
  Proof.
    intros es frames H. induction H as [|e [t row] es frames (texts & T & X & NE & N) H IH]; [reflexivity|]. cbn [mapM]. cbn [fst snd] in *. destruct (read_numerals _ _ _ N) as [M NO]. unfold read_frame at 1, attr. rewrite T. cbn [bind]. rewrite parse_int_str_int. cbn [bind].
    assert (E : match x_text e with [] => Err AttributeError | s => mapM (parse_float float) (split_char 59 s) end = Ok row). { destruct (x_text e) as [|c s] eqn:E; [congruence|]. rewrite X. rewrite split_join; [exact M| |exact NO]. intros ->. discriminate X. }
    rewrite E. cbn [bind]. rewrite IH. reflexivity.
  Qed.
  Lemma even_rows : forall A (l : list (list A)) n, Forall (fun r => List.length r = n) l -> even l = true.
  Proof. intros A l n H. destruct l as [|r l]; [reflexivity|]. inversion H as [|r0 l0 L F]; subst. cbn [even]. apply forallb_forall. intros x X. rewrite Forall_forall in F. rewrite (F x X). apply Nat.eqb_refl. Qed.
  (** All values in order, and times in seconds from the first *)
  Theorem C99_frames : forall e frames w, recorded float e frames -> frames <> [] -> Forall (fun tr => List.length (snd tr) = w) frames ->
    exists d ts, parse_data float e = Ok (d, ts) /\ d = List.concat (map snd frames) /\ List.length ts = List.length frames /\
    forall k t0 tk, nth_error (map fst frames) 0 = Some t0 -> nth_error (map fst frames) k = Some tk -> exists s, nth_error ts k = Some s /\ (s == inject_Z (tk - t0) / 10000000)%Q.
  Proof.
    intros e frames w (data & FC & F) NE W. unfold parse_data. rewrite (first_location _ _ _ FC). cbn [bind]. rewrite (read_frames _ _ F). cbn [bind]. rewrite (even_rows _ _ w) by (rewrite Forall_map; exact W). cbn [negb].
    destruct frames as [|[t0 r0] frames]; [congruence|]. cbn [map fst]. eexists. eexists. split; [reflexivity|]. split; [reflexivity|]. split; [cbn [List.length]; rewrite !map_length; reflexivity|].
    intros k t0' tk E0 EK. cbn [nth_error] in E0. injection E0 as <-. exists ((tk - t0) # 10000000). split; [exact (map_nth_error (fun t => (t - t0) # 10000000) k (t0 :: map fst frames) EK)|]. unfold Qeq, Qdiv, Qmult, Qinv, inject_Z. cbn [Qnum Qden]. lia.
  Qed.

  (** * Axes of the scan *)
  Lemma number_read : forall d k q, number_entry float d k q -> exists v, sub_item (Entries d) (str k) = Ok v /\ to_float float v = Ok q.
  Proof. intros d k q [H|(s & H & F)]; cbn [sub_item]; rewrite H; eexists; (split; [reflexivity|]); cbn [to_float]; [reflexivity|rewrite F; reflexivity]. Qed.
  Lemma whole_read : forall d k n, whole_entry d k n -> exists v, sub_item (Entries d) (str k) = Ok v /\ to_int v = Ok n.
  Proof. intros d k n [H|H]; cbn [sub_item]; rewrite H; eexists; (split; [reflexivity|]); cbn [to_int]; [cbn [inject_Z Qnum Qden]; rewrite Z.quot_1_r; reflexivity|apply parse_int_str_int]. Qed.
  Lemma direction_read : forall i key name l, direction float i key name l ->
    (lookup (str key) i = None /\ l = []) \/ exists v o s n a, lookup (str key) i = Some v /\ l = [(str name, o, s, n)] /\ nav_axis float name v = Ok a /\ scan_axis 0 (str name, o, s, n) a.
  Proof.
    intros i key name l [H|(d & o & s & n & L & O & S & N & ->)]; [left; exact H|right]. exists (Entries d), o, s, n. unfold nav_axis.
    destruct (number_read _ _ _ O) as (v1 & E1 & F1). destruct (number_read _ _ _ S) as (v2 & E2 & F2). destruct (whole_read _ _ _ N) as (v3 & E3 & F3).
    eexists. split; [exact L|]. split; [reflexivity|]. rewrite E1. cbn [bind]. rewrite F1. cbn [bind]. rewrite E2. cbn [bind]. rewrite F2. cbn [bind]. rewrite E3. cbn [bind]. rewrite F3. cbn [bind]. split; reflexivity.
  Qed.
  Definition axes_of (dims : list (pystr * Q * Q * Z)) (l : list axis) : Prop :=
    List.length l = List.length dims /\ forall k d, nth_error dims k = Some d -> exists a, nth_error l k = Some a /\ scan_axis (Z.of_nat k) d a.
  Lemma scan_axes : forall i dims, scanned float i dims -> exists l, map_axes float i = Ok l /\ axes_of dims l /\ map axis_size l = map points dims.
  Proof.
    intros i dims (ys & xs & Y & X & ->). unfold map_axes. destruct (direction_read _ _ _ _ Y) as [[LY ->]|(v & o & s & n & a & LY & -> & NA & SA)]; destruct (direction_read _ _ _ _ X) as [[LX ->]|(v' & o' & s' & n' & a' & LX & -> & NA' & SA')]; rewrite LY; cbn [bind].
    - rewrite LX. cbn [bind]. eexists. split; [reflexivity|]. split; [split; [reflexivity|]|reflexivity]. intros [|k] d H; discriminate H.
    - rewrite LX, NA'. cbn [bind]. eexists. split; [reflexivity|]. cbn [scan_axis] in SA'. subst a'. split; [split; [reflexivity|]|reflexivity]. intros [|[|k]] d H; [|discriminate H|discriminate H]. injection H as <-. eexists. split; reflexivity.
    - rewrite NA. cbn [bind]. rewrite LX. cbn [bind]. eexists. split; [reflexivity|]. cbn [scan_axis] in SA. subst a. split; [split; [reflexivity|]|reflexivity]. intros [|[|k]] d H; [|discriminate H|discriminate H]. injection H as <-. eexists. split; reflexivity.
    - rewrite NA. cbn [bind]. rewrite LX, NA'. cbn [bind]. eexists. split; [reflexivity|]. cbn [scan_axis] in SA, SA'. subst a a'. split; [split; [reflexivity|]|reflexivity]. intros [|[|[|k]]] d H; [| |discriminate H|discriminate H]; injection H as <-; (eexists; split; reflexivity).
  Qed.
  Lemma frame_number_read : forall i n, frame_number i n -> exists v, entry i "Detector" "No_of_Frames" = Ok v /\ to_int v = Ok n.
  Proof. intros i n (d & L & W). unfold entry. rewrite L. destruct (whole_read _ _ _ W) as (v & E & T). exists v. split; assumption. Qed.

  (** * Whole files *)
  Lemma reader_parts : forall uniform stack name f r, file_reader float fit false uniform stack name f = Ok r ->
    exists n p outer rs, (exists groups, f_info f = Some groups /\ r_info r = process_info groups) /\
      (exists c rest s, findall (f_data f) "Childs" = c :: rest /\ attr c "Count" = Ok s /\ parse_int s = Ok n) /\
      (if stack && negb (n =? 0) then get_stack float fit uniform (f_data f) = Ok p else exists d a, parse_data float (f_data f) = Ok d /\ signal_axis float fit uniform (f_data f) = Ok a /\ p = ([fst d], [snd d], [a])) /\
      outer_axes float (r_info r) (snd (fst p)) (stack && negb (n =? 0)) = Ok outer /\
      reshape_all uniform (stack && negb (n =? 0)) (set_axes (stack && negb (n =? 0)) outer (snd p)) (fst (fst p)) = Ok rs /\
      r_signals r = map (fun p => {| r_axes := snd p; r_shape := fst (fst p); r_data := snd (fst p) |}) (combine rs (set_axes (stack && negb (n =? 0)) outer (snd p))).
  Proof.
    intros uniform stack name f r H. unfold file_reader in H. destruct (f_info f) as [groups|] eqn:FI; [|discriminate H]. cbv zeta in H.
    apply bind_ok in H. destruct H as (h & _ & H). apply bind_ok in H. destruct H as (n & N & H). apply bind_ok in H. destruct H as ([[data times] signals] & P & H). apply bind_ok in H. destruct H as (outer & O & H). apply bind_ok in H. destruct H as (rs & R & H). apply bind_ok in H. destruct H as (m & _ & H). injection H as <-. cbn [r_signals r_info].
    exists n, (data, times, signals), outer, rs. split; [exists groups; split; reflexivity|]. split.
    { destruct (findall (f_data f) "Childs") as [|c rest]; [discriminate N|]. apply bind_ok in N. destruct N as (s & A & N). exists c, rest, s. repeat split; assumption. }
    split; [|split; [exact O|split; [exact R|reflexivity]]].
    destruct (stack && negb (n =? 0)); [exact P|]. apply bind_ok in P. destruct P as (d & D & P). apply bind_ok in P. destruct P as (a & A & P). injection P as <- <- <-. exists d, a. repeat split; assumption.
  Qed.
  Lemma zlen_concat : forall A (l : list (list A)) w, Forall (fun r => List.length r = w) l -> List.length (List.concat l) = (List.length l * w)%nat.
  Proof. intros A l w H. induction H as [|r l L F IH]; [reflexivity|]. cbn [List.concat List.length]. rewrite app_length, IH, L. reflexivity. Qed.
  Lemma prod_app : forall a b, prodZ (a ++ b) = prodZ a * prodZ b.
  Proof. intros a b. unfold prodZ. induction a as [|x a IH]; cbn [app fold_right]; [lia|]. rewrite IH. ring. Qed.
  Lemma removelast_snoc : forall A (l : list A) x, removelast (l ++ [x]) = l.
  Proof. intros A l x. rewrite removelast_app by discriminate. cbn [removelast]. apply app_nil_r. Qed.
  Lemma reshape_file : forall uniform outer a k data rs, reshape_all uniform false [outer ++ [at_index k a]] data = Ok rs -> exists w, signal_size uniform a = Ok w /\ mapM (reshape (map axis_size outer ++ [w])) data = Ok rs.
  Proof.
    intros uniform outer a k data rs H. unfold reshape_all in H. rewrite rev_app_distr, removelast_snoc in H. cbn [rev app] in H. apply bind_ok in H. destruct H as (w & W & H). exists w. split; [exact W|]. rewrite <- H. clear H. induction data as [|d data IH]; [reflexivity|]. cbn [mapM]. rewrite IH. unfold assign. destruct (reshape _ d); reflexivity.
  Qed.
  Lemma wavelength_size : forall uniform u unit ws k a w, wavelengths fit ((1 <? zlen ws) && u) unit ws k a -> signal_size uniform a = Ok w -> uniform = u -> w = zlen ws /\ (uniform = true -> 1 < zlen ws).
  Proof.
    intros uniform u unit ws k a w (_ & _ & _ & _ & S) H <-. unfold signal_size in H. rewrite S in H. destruct (1 <? zlen ws) eqn:L; destruct uniform; cbn [andb] in H; try discriminate H; injection H as <-; split; try reflexivity; intros; try discriminate; lia.
  Qed.
  (** Spectra, lines and maps: one signal, with the spectrum of each frame at its place *)
  Theorem C99_scan : forall uniform stack name f r frames unit ws dims n, file_reader float fit false uniform stack name f = Ok r ->
    (stack = false \/ exists c, first_child (f_data f) "Childs" c /\ lookup (str "Count") (x_attrs c) = Some (str "0")) ->
    recorded float (f_data f) frames -> calibrated float (f_data f) unit ws -> Forall (fun tr => List.length (snd tr) = List.length ws) frames -> frames <> [] ->
    scanned float (r_info r) dims -> frame_number (r_info r) n -> n = 1 \/ dims <> [] /\ n = prodZ (map points dims) ->
    exists s a l, r_signals r = [s] /\ r_axes s = l ++ [a] /\ axes_of dims l /\ wavelengths fit uniform unit ws (zlen dims) a /\ r_shape s = map points dims ++ [zlen ws] /\ r_data s = List.concat (map snd frames) /\
      (zlen ws <> 0 -> prodZ (map points dims) = zlen frames) /\
      forall p t row j, nth_error frames p = Some (t, row) -> (j < List.length ws)%nat -> nth_error (r_data s) (p * List.length ws + j) = nth_error row j.
  Proof.
    intros uniform stack name f r frames unit ws dims n H ST RE CA W NE SC FN NN. destruct (reader_parts _ _ _ _ _ H) as (cnt & p & outer & rs & _ & (c & rest & s & FA & AT & PI) & P & O & R & S).
    assert (SF : stack && negb (cnt =? 0) = false). { destruct ST as [->|(c' & FC & L)]; [reflexivity|]. pose proof (first_location _ _ _ FC) as Lc. unfold location in Lc. rewrite FA in Lc. injection Lc as ->. unfold attr in AT. rewrite L in AT. injection AT as <-. vm_compute in PI. injection PI as <-. destruct stack; reflexivity. }
    rewrite SF in *. destruct P as (d & a & PD & SA & ->). cbn [fst snd] in *. destruct (C99_frames _ _ _ RE NE W) as (d' & ts & PD' & D' & _ & _). rewrite PD in PD'. injection PD' as ->. cbn [fst snd] in *.
    destruct (C99_axis uniform _ _ _ CA) as (a' & SA' & WV). rewrite SA in SA'. injection SA' as <-.
    destruct (scan_axes _ _ SC) as (l & MA & AX & SZ). unfold outer_axes in O. rewrite MA in O. cbn [bind] in O. destruct (frame_number_read _ _ FN) as (v & EN & TI). rewrite EN in O. cbn [bind] in O. rewrite TI in O. cbn [bind] in O.
    assert (FI : (n - frames_in l =? 0) || (n =? 1) = true). { destruct NN as [->|[ND ->]]; [apply orb_true_r|]. unfold frames_in. rewrite SZ. destruct (map points dims) as [|z zs] eqn:E; [destruct dims; [congruence|discriminate E]|]. rewrite Z.sub_diag. reflexivity. }
    rewrite FI in O. injection O as <-. cbn [set_axes] in R, S. destruct (reshape_file _ _ _ _ _ _ R) as (w & SW & M). destruct (wavelength_size _ _ _ _ _ _ _ WV SW eq_refl) as [-> UN].
    cbn [mapM] in M. unfold reshape in M. destruct (forallb (fun n0 => 0 <=? n0) (map axis_size l ++ [zlen ws]) && (prodZ (map axis_size l ++ [zlen ws]) =? zlen d')) eqn:RS; [|discriminate M]. cbn [bind] in M. injection M as <-. cbn [combine map fst snd] in S.
    eexists. exists (at_index (zlen l) a), l. split; [exact S|]. cbn [r_axes r_shape r_data]. split; [reflexivity|]. split; [exact AX|]. split.
    { destruct WV as (W1 & W2 & W3 & _ & W5). unfold wavelengths, at_index. cbn [a_name a_units a_navigate a_index a_scale]. split; [exact W1|]. split; [exact W2|]. split; [exact W3|]. split; [unfold zlen; destruct AX as [-> _]; reflexivity|]. rewrite W5. destruct uniform; [replace (1 <? zlen ws) with true by (specialize (UN eq_refl); lia); reflexivity|rewrite andb_false_r; reflexivity]. }
    split; [rewrite SZ; reflexivity|]. split; [exact D'|]. assert (FW : Forall (fun r0 => List.length r0 = List.length ws) (map snd frames)) by (rewrite Forall_map; exact W). split.
    { intro Z0. apply andb_prop in RS. destruct RS as [_ RS]. rewrite SZ, prod_app in RS. cbn [prodZ fold_right] in RS. subst d'. unfold zlen in RS, Z0 |- *. rewrite (zlen_concat _ _ _ FW), map_length in RS. apply (Z.mul_reg_r _ _ (Z.of_nat (List.length ws))); [exact Z0|]. change (fold_right Z.mul 1 (map points dims)) with (prodZ (map points dims)). lia. }
    intros q t row j Q J. rewrite D'. apply (nth_concat _ _ _ _ _ row); [exact FW| |exact J]. exact (map_nth_error snd q frames Q).
  Qed.
  (** Series: the step is that of the first two frames *)
  Theorem C99_time : forall uniform name f r frames unit ws n t0 r0 t1 r1 more, file_reader float fit false uniform false name f = Ok r ->
    recorded float (f_data f) frames -> calibrated float (f_data f) unit ws -> Forall (fun tr => List.length (snd tr) = List.length ws) frames -> frames = (t0, r0) :: (t1, r1) :: more ->
    scanned float (r_info r) [] -> frame_number (r_info r) n -> n <> 0 -> n <> 1 ->
    exists s a t sc, r_signals r = [s] /\ r_axes s = [t; a] /\ wavelengths fit uniform unit ws 1 a /\ a_name t = str "time" /\ a_units t = str "s" /\ a_index t = 0 /\ a_navigate t = false /\ a_scale t = Steps 0 sc (zlen frames) /\ (sc == inject_Z (t1 - t0) / 10000000)%Q /\
      r_shape s = [zlen frames; zlen ws] /\ r_data s = List.concat (map snd frames).
  Proof.
    intros uniform name f r frames unit ws n t0 r0 t1 r1 more H RE CA W FR SC FN N0 N1. destruct (reader_parts _ _ _ _ _ H) as (cnt & p & outer & rs & _ & _ & P & O & R & S). cbn [andb] in *. destruct P as (d & a & PD & SA & ->). cbn [fst snd] in *.
    assert (NE : frames <> []) by (subst; discriminate). destruct (C99_frames _ _ _ RE NE W) as (d' & ts & PD' & D' & LT & TS). rewrite PD in PD'. injection PD' as ->. cbn [fst snd] in *.
    destruct (C99_axis uniform _ _ _ CA) as (a' & SA' & WV). rewrite SA in SA'. injection SA' as <-.
    destruct (scan_axes _ _ SC) as (l & MA & [AL _] & SZ). destruct l; [|discriminate AL]. unfold outer_axes in O. rewrite MA in O. cbn [bind] in O. destruct (frame_number_read _ _ FN) as (v & EN & TI). rewrite EN in O. cbn [bind] in O. rewrite TI in O. cbn [bind] in O.
    replace ((n - frames_in [] =? 0) || (n =? 1)) with false in O by (cbn [frames_in map]; lia). rewrite FR in LT. cbn [List.length] in LT. destruct ts as [|s0 [|s1 ts]]; [discriminate LT|discriminate LT|]. unfold time_axis in O. cbn [bind] in O. injection O as <-.
    destruct (TS 1%nat t0 t1) as (s & E1 & E2); [rewrite FR; reflexivity|rewrite FR; reflexivity|]. cbn [nth_error] in E1. injection E1 as <-.
    cbn [set_axes] in R, S. destruct (reshape_file _ _ _ _ _ _ R) as (w & SW & M). destruct (wavelength_size _ _ _ _ _ _ _ WV SW eq_refl) as [-> UN]. cbn [map axis_size a_scale] in M.
    assert (LL : zlen (s0 :: s1 :: ts ++ []) = zlen frames). { unfold zlen. rewrite app_nil_r, FR. cbn [List.length] in *. rewrite LT. reflexivity. } rewrite LL in M.
    cbn [mapM] in M. unfold reshape in M. destruct (forallb _ _ && _) in M; [|discriminate M]. cbn [bind] in M. injection M as <-. cbn [combine map fst snd app] in S.
    eexists. eexists. eexists. exists s1. split; [exact S|]. cbn [r_axes r_shape r_data]. split; [reflexivity|]. cbn [a_name a_units a_navigate a_index a_scale]. split.
    { destruct WV as (W1 & W2 & W3 & _ & W5). unfold wavelengths, at_index. cbn [a_name a_units a_navigate a_index a_scale]. split; [exact W1|]. split; [exact W2|]. split; [exact W3|]. split; [reflexivity|]. rewrite W5. destruct uniform; [replace (1 <? zlen ws) with true by (specialize (UN eq_refl); lia); reflexivity|rewrite andb_false_r; reflexivity]. }
    repeat (split; [reflexivity|]). split; [f_equal; exact LL|]. split; [exact E2|]. split; [cbn [app map axis_size a_scale]; rewrite ?LL; reflexivity|exact D'].
  Qed.
  (** Scans with more or fewer frames are refused *)
  Theorem C99_mixed : forall uniform stack name f r dims n, scanned float (r_info r) dims -> frame_number (r_info r) n -> dims <> [] -> n <> 1 -> n <> prodZ (map points dims) -> file_reader float fit false uniform stack name f <> Ok r.
  Proof.
    intros uniform stack name f r dims n SC FN ND N1 NP H. destruct (reader_parts _ _ _ _ _ H) as (cnt & p & outer & rs & _ & _ & _ & O & _). destruct (scan_axes _ _ SC) as (l & MA & [AL _] & SZ). unfold outer_axes in O. rewrite MA in O. cbn [bind] in O. destruct (frame_number_read _ _ FN) as (v & EN & TI). rewrite EN in O. cbn [bind] in O. rewrite TI in O. cbn [bind] in O.
    assert (FI : (n - frames_in l =? 0) || (n =? 1) = false). { unfold frames_in. rewrite SZ. destruct (map points dims) eqn:E; [destruct dims; [congruence|discriminate E]|]. lia. } rewrite FI in O. apply bind_ok in O. destruct O as (t & _ & O). destruct l; [destruct dims; [congruence|discriminate AL]|discriminate O].
  Qed.
  (** So are scans whose values do not fill the axes *)
  Theorem C99_misfit : forall uniform name f r frames unit ws dims n, recorded float (f_data f) frames -> calibrated float (f_data f) unit ws -> scanned float (r_info r) dims -> frame_number (r_info r) n -> n = 1 \/ dims <> [] /\ n = prodZ (map points dims) ->
    (forall w, Forall (fun tr => List.length (snd tr) = w) frames -> zlen frames * Z.of_nat w <> prodZ (map points dims) * zlen ws) -> file_reader float fit false uniform false name f <> Ok r.
  Proof.
    intros uniform name f r frames unit ws dims n RE CA SC FN NN MIS H. destruct (reader_parts _ _ _ _ _ H) as (cnt & p & outer & rs & _ & _ & P & O & R & S). cbn [andb] in *. destruct P as (d & a & PD & SA & ->). cbn [fst snd] in *.
    destruct RE as (data & FC & F). unfold parse_data in PD. rewrite (first_location _ _ _ FC) in PD. cbn [bind] in PD. rewrite (read_frames _ _ F) in PD. cbn [bind] in PD.
    destruct (even (map snd frames)) eqn:EV; [|discriminate PD]. cbn [negb] in PD. destruct frames as [|[t0 r0] frames]; [discriminate PD|]. cbn [map fst snd] in PD, EV. injection PD as <-. cbn [fst snd] in *. change (r0 ++ List.concat (map snd frames)) with (List.concat (map snd ((t0, r0) :: frames))) in R.
    assert (W : Forall (fun tr => List.length (snd tr) = List.length r0) ((t0, r0) :: frames)). { constructor; [reflexivity|]. cbn [even] in EV. rewrite forallb_forall in EV. apply Forall_forall. intros tr T. specialize (EV (snd tr) (in_map snd _ _ T)). apply Nat.eqb_eq in EV. exact EV. }
    specialize (MIS _ W). destruct (C99_axis uniform _ _ _ CA) as (a' & SA' & WV). rewrite SA in SA'. injection SA' as <-.
    destruct (scan_axes _ _ SC) as (l & MA & AX & SZ). unfold outer_axes in O. rewrite MA in O. cbn [bind] in O. destruct (frame_number_read _ _ FN) as (v & EN & TI). rewrite EN in O. cbn [bind] in O. rewrite TI in O. cbn [bind] in O.
    assert (FI : (n - frames_in l =? 0) || (n =? 1) = true). { destruct NN as [->|[ND ->]]; [apply orb_true_r|]. unfold frames_in. rewrite SZ. destruct (map points dims) as [|z zs] eqn:E; [destruct dims; [congruence|discriminate E]|]. rewrite Z.sub_diag. reflexivity. }
    rewrite FI in O. injection O as <-. cbn [set_axes] in R. destruct (reshape_file _ _ _ _ _ _ R) as (w & SW & M). destruct (wavelength_size _ _ _ _ _ _ _ WV SW eq_refl) as [-> _].
    cbn [mapM] in M. unfold reshape in M. destruct (forallb (fun n0 => 0 <=? n0) (map axis_size l ++ [zlen ws]) && (prodZ (map axis_size l ++ [zlen ws]) =? zlen (List.concat (map snd ((t0, r0) :: frames))))) eqn:RS; [|discriminate M]. apply andb_prop in RS. destruct RS as [_ RS]. rewrite SZ, prod_app in RS.
    assert (FW : Forall (fun x => List.length x = List.length r0) (map snd ((t0, r0) :: frames))) by (rewrite Forall_map; exact W). unfold zlen in RS, MIS. rewrite (zlen_concat _ _ _ FW), map_length in RS. cbn [prodZ fold_right] in RS. change (fold_right Z.mul 1 (map points dims)) with (prodZ (map points dims)) in RS. unfold zlen in MIS. lia.
  Qed.
  (** A uniform axis of one wavelength is never read *)
  Theorem C99_one_refuted : forall stack name f r unit q, calibrated float (f_data f) unit [q] -> stack = false -> file_reader float fit false true stack name f <> Ok r.
  Proof.
    intros stack name f r unit q CA -> H. destruct (reader_parts _ _ _ _ _ H) as (cnt & p & outer & rs & _ & _ & P & _ & R & _). cbn [andb] in *. destruct P as (d & a & _ & SA & ->). cbn [fst snd set_axes] in *. destruct (C99_axis true _ _ _ CA) as (a' & SA' & WV). rewrite SA in SA'. injection SA' as <-. destruct (reshape_file _ _ _ _ _ _ R) as (w & SW & _). destruct (wavelength_size _ _ _ _ _ _ _ WV SW eq_refl) as [_ U]. specialize (U eq_refl). unfold zlen in U. cbn [List.length] in U. lia.
  Qed.

  (** * Stacks of glued spectra: one signal for each part; the index of its axis is one too small *)
  Definition part (e : xml) (unit : pystr) (ws : list Q) (t : Z) (row : list Q) : Prop := calibrated float e unit ws /\ recorded float e [(t, row)].
  Lemma stack_parts : forall uniform es ps l, Forall2 (fun e p => let '(unit, ws, t, row) := p in part e unit ws t row) es ps ->
    mapM (fun c => let! a := signal_axis float fit uniform c in let! d := parse_data float c in Ok (d, a)) es = Ok l ->
    Forall2 (fun p x => let '(unit, ws, t, row) := p in fst (fst x) = row /\ wavelengths fit ((1 <? zlen ws) && uniform) unit ws 0 (snd x)) ps l.
  Proof.
    intros uniform es ps l F. revert l. induction F as [|e [[[unit ws] t] row] es ps [CA RE] F IH]; intros l H; [injection H as <-; constructor|]. cbn [mapM] in H. destruct (C99_axis uniform _ _ _ CA) as (a & SA & WV). rewrite SA in H. cbn [bind] in H.
    assert (NE : [(t, row)] <> []) by discriminate. assert (W : Forall (fun tr : Z * list Q => List.length (snd tr) = List.length row) [(t, row)]) by (constructor; [reflexivity|constructor]). destruct (C99_frames _ _ _ RE NE W) as (d & ts & PD & D & _). rewrite PD in H. cbn [bind] in H. apply bind_ok in H. destruct H as (l' & E & H). injection H as <-. constructor; [|apply IH; exact E]. cbn [fst snd]. split; [|exact WV]. rewrite D. cbn [map List.concat snd]. apply app_nil_r.
  Qed.
  Theorem C99_stack : forall uniform name f r c n ps, file_reader float fit false uniform true name f = Ok r -> first_child (f_data f) "Childs" c -> lookup (str "Count") (x_attrs c) = Some (str_int n) -> n <> 0 ->
    Forall2 (fun e p => let '(unit, ws, t, row) := p in part e unit ws t row) (x_children c) ps -> scanned float (r_info r) [] -> frame_number (r_info r) 1 ->
    Forall2 (fun p s => let '(unit, ws, t, row) := p in r_data s = row /\ r_shape s = [zlen row] /\ exists a, r_axes s = [a] /\ wavelengths fit ((1 <? zlen ws) && uniform) unit ws (-1) a) ps (r_signals r).
  Proof.
    intros uniform name f r c n ps H FC CO N0 F SC FN. destruct (reader_parts _ _ _ _ _ H) as (cnt & p & outer & rs & _ & (c' & rest & s & FA & AT & PI) & P & O & R & S).
    pose proof (first_location _ _ _ FC) as L. unfold location in L. rewrite FA in L. injection L as ->. unfold attr in AT. rewrite CO in AT. injection AT as <-. rewrite parse_int_str_int in PI. injection PI as <-. replace (true && negb (n =? 0)) with true in * by lia.
    unfold get_stack in P. rewrite (first_location _ _ _ FC) in P. cbn [bind] in P. apply bind_ok in P. destruct P as (l & E & P). destruct (even _ && even _) in P; [|discriminate P]. injection P as <-. cbn [fst snd] in *.
    destruct (scan_axes _ _ SC) as (l0 & MA & [AL _] & _). destruct l0; [|discriminate AL]. unfold outer_axes in O. rewrite MA in O. cbn [bind] in O. destruct (frame_number_read _ _ FN) as (v & EN & TI). rewrite EN in O. cbn [bind] in O. rewrite TI in O. cbn [bind] in O. injection O as <-.
    pose proof (stack_parts _ _ _ _ F E) as SP. rewrite S. clear S E H F. cbn [set_axes] in R. unfold set_axes in R |- *. cbn [app] in R |- *. change (zlen (@nil axis) - 1) with (-1) in *.
    destruct l as [|x0 l0].
    - inversion SP; subst. cbn [map combine]. destruct rs; constructor.
    - set (l := x0 :: l0) in *. assert (R2 : exists w, mapM (fun d => let! r := reshape [w] d in assign true r) (map (fun x => fst (fst x)) l) = Ok rs). { unfold l in R |- *. cbn [map reshape_all rev app] in R. apply bind_ok in R. destruct R as (w & _ & R). exists w. cbn [removelast map app] in R. exact R. }
      destruct R2 as (w & R2). clear R. clearbody l. clear x0 l0. revert rs R2. induction SP as [|[[[unit ws] t] row] x ps l [X1 X2] SP IH]; intros rs R2; cbn [map mapM] in R2; [injection R2 as <-; constructor|].
      + apply bind_ok in R2. destruct R2 as (y & Y & R2). apply bind_ok in R2. destruct R2 as (rs' & RS & R2). injection R2 as <-. cbn [map combine fst snd]. constructor; [|apply IH; exact RS].
        cbn [r_data r_shape r_axes]. apply bind_ok in Y. destruct Y as (y0 & Y0 & Y). unfold reshape in Y0. destruct (forallb _ _ && (prodZ [w] =? zlen (fst (fst x)))) eqn:EQ in Y0; [|discriminate Y0]. injection Y0 as <-. unfold assign in Y. cbn [fst snd] in Y.
        assert (DO : drop_ones [w] = [w]) by (unfold drop_ones; destruct w as [|[| |]|]; reflexivity). cbn [fst] in Y. rewrite DO in Y. injection Y as <-. cbn [fst snd]. split; [exact X1|]. split; [apply andb_prop in EQ; destruct EQ as [_ EQ]; cbn [prodZ fold_right] in EQ; rewrite X1 in EQ; f_equal; lia|]. eexists. split; [reflexivity|].
        destruct X2 as (W1 & W2 & W3 & _ & W5). unfold wavelengths, at_index. cbn [a_name a_units a_navigate a_index a_scale]. repeat split; assumption.
  Qed.
  (** Stacks of scans are never read *)
  Theorem C99_stack_refuted : forall uniform name f r c n dims m, first_child (f_data f) "Childs" c -> lookup (str "Count") (x_attrs c) = Some (str_int n) -> n <> 0 -> x_children c <> [] -> scanned float (r_info r) dims -> frame_number (r_info r) m ->
    dims <> [] -> Forall (fun d => 2 <= points d) dims -> file_reader float fit false uniform true name f <> Ok r.
  Proof.
    intros uniform name f r c n dims m FC CO N0 CH SC FN ND TWO H. destruct (reader_parts _ _ _ _ _ H) as (cnt & p & outer & rs & _ & (c' & rest & s & FA & AT & PI) & P & O & R & S).
    pose proof (first_location _ _ _ FC) as L. unfold location in L. rewrite FA in L. injection L as ->. unfold attr in AT. rewrite CO in AT. injection AT as <-. rewrite parse_int_str_int in PI. injection PI as <-. replace (true && negb (n =? 0)) with true in * by lia.
    unfold get_stack in P. rewrite (first_location _ _ _ FC) in P. cbn [bind] in P. apply bind_ok in P. destruct P as (l & E & P). destruct (even _ && even _) in P; [|discriminate P]. injection P as <-. cbn [fst snd] in *.
    destruct (scan_axes _ _ SC) as (l0 & MA & [AL _] & SZ). unfold outer_axes in O. rewrite MA in O. cbn [bind] in O. destruct (frame_number_read _ _ FN) as (v & EN & TI). rewrite EN in O. cbn [bind] in O. rewrite TI in O. cbn [bind] in O.
    destruct ((m - frames_in l0 =? 0) || (m =? 1)); [|apply bind_ok in O; destruct O as (t & _ & O); destruct l0; [destruct dims; [congruence|discriminate AL]|discriminate O]]. injection O as <-.
    destruct (x_children c) as [|e0 es]; [congruence|]. cbn [mapM] in E. apply bind_ok in E. destruct E as (x & _ & E). apply bind_ok in E. destruct E as (l' & _ & E). injection E as <-. cbn [map set_axes] in R. unfold reshape_all in R. rewrite rev_app_distr, removelast_snoc in R. cbn [rev app] in R. apply bind_ok in R. destruct R as (w & _ & R). cbn [mapM] in R. apply bind_ok in R. destruct R as (y & Y & _). apply bind_ok in Y. destruct Y as (y0 & Y0 & Y). unfold reshape in Y0. destruct (forallb _ _ && _) in Y0; [|discriminate Y0]. injection Y0 as <-. unfold assign in Y. cbn [fst snd] in Y. rewrite SZ in Y.
    destruct dims as [|d dims]; [congruence|]. inversion TWO as [|d0 dims0 D F2]; subst. cbn [map app] in Y. replace (drop_ones (points d :: map points dims ++ [w])) with (points d :: map points dims ++ [w]) in Y by (unfold drop_ones; destruct (points d) as [|[| |]|]; try reflexivity; lia).
    destruct (map points dims ++ [w]) eqn:E2; [destruct (map points dims); discriminate E2|discriminate Y].
  Qed.
  Theorem C99_lazy : forall uniform stack name f, file_reader float fit true uniform stack name f = Err NotImplementedError.
  Proof. reflexivity. Qed.
End Proofs.
