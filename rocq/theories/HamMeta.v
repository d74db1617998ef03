(** Property C91: metadata of Hamamatsu streak images. *)
From Coq Require Import QArith.
From Verif Require Import Base Text Bytes Utf8 SfsModel HierModel HierProps RowMajor RenModel RenPset RenData HamModel HamFile HamText.
Local Open Scope Z_scope.

(** * Specification *)
Definition has (c : comment) (name : string) (d : list (pystr * pystr)) : Prop := lookup (str name) c = Some (Entries d) \/ lookup (str name) c = None /\ d = [].
Definition is_entry (d : list (pystr * pystr)) (k : string) (v : pystr) : Prop := lookup (str k) d = Some v.
Definition no_entry (d : list (pystr * pystr)) (k : string) : Prop := lookup (str k) d = None.
(** Two words with a character between them; any other text *)
Definition two (c : Z) (a b s : pystr) : Prop := s = a ++ c :: b /\ ~ In c a /\ ~ In c b.
Definition not_two (c : Z) (s : pystr) : Prop := ~ In c s \/ exists a b r, s = a ++ c :: b ++ c :: r /\ ~ In c a /\ ~ In c b.
Definition whole (s : pystr) (n : Z) : Prop := parse_int s = Ok n.
(** The number of an entry; None when there is no entry, or no number in it *)
Definition counted (d : list (pystr * pystr)) (k : string) (n : option Z) : Prop := (exists s m, is_entry d k s /\ whole s m /\ n = Some m) \/ n = None /\ (no_entry d k \/ exists s, is_entry d k s /\ forall m, ~ whole s m).
Definition measured (float : pystr -> option Q) (d : list (pystr * pystr)) (k : string) (q : option Q) : Prop := (exists s, is_entry d k s /\ q = float s) \/ no_entry d k /\ q = None.
Definition switch (d : list (pystr * pystr)) (k : string) (b : option bool) : Prop :=
  is_entry d k (str "-1") /\ b = Some true \/ is_entry d k (str "0") /\ b = Some false \/ b = None /\ (no_entry d k \/ exists s, is_entry d k s /\ s <> str "-1" /\ s <> str "0").
Definition named (d : list (pystr * pystr)) (k : string) (t : option pystr) : Prop := (exists s, is_entry d k s /\ t = Some s) \/ no_entry d k /\ t = None.
(** The time of one exposure, in seconds or milliseconds, times the number of exposures *)
Definition exposed (float : pystr -> option Q) (d : list (pystr * pystr)) (n : option Z) (t : option Q) : Prop :=
  (exists s a u q m, is_entry d "ExposureTime" s /\ two 32 a u s /\ float a = Some q /\ n = Some m /\ (u = str "ms" /\ t = Some (q / 1000 * inject_Z m)%Q \/ u <> str "ms" /\ t = Some (q * inject_Z m)%Q)) \/
  t = None /\ (no_entry d "ExposureTime" \/ exists s, is_entry d "ExposureTime" s /\ not_two 32 s).
Definition binned (d : list (pystr * pystr)) (b : option (Z * Z)) : Prop :=
  (exists s x y n m, is_entry d "pntBinning" s /\ two 44 x y s /\ whole x n /\ whole y m /\ b = Some (n, m)) \/ b = None /\ (no_entry d "pntBinning" \/ exists s, is_entry d "pntBinning" s /\ not_two 44 s).
Definition ranged (float : pystr -> option Q) (d : list (pystr * pystr)) (q : option Q) (u : option pystr) : Prop :=
  (exists s a w, is_entry d "Time Range" s /\ two 32 a w s /\ q = float a /\ (w = str "us" /\ u = Some [181; 115] \/ w <> str "us" /\ u = Some w)) \/
  (exists s, is_entry d "Time Range" s /\ not_two 32 s /\ q = float s /\ u = None) \/ no_entry d "Time Range" /\ q = None /\ u = None.
Definition modes : list (Z * pystr) := [(1, str "live"); (2, str "acquire"); (3, str "photon_counting"); (4, str "analog_integration")].
Definition mode_ok (d : list (pystr * pystr)) (m : pystr) : Prop := exists s n, is_entry d "AcqMode" s /\ whole s n /\ (In (n, m) modes \/ ~ In n (map fst modes) /\ m = str "Unknown").
(** Lines per millimetre: a whole number and its unit, or a number alone *)
Definition grooved (float : pystr -> option Q) (d : list (pystr * pystr)) (q : option Q) : Prop :=
  (exists s a u n, is_entry d "Grating" s /\ two 32 a u s /\ whole a n /\ q = Some (inject_Z n)) \/ (exists s a u, is_entry d "Grating" s /\ two 32 a u s /\ (forall n, ~ whole a n) /\ q = None) \/
  (exists s, is_entry d "Grating" s /\ not_two 32 s /\ q = float s) \/ no_entry d "Grating" /\ q = None.

(** * Pieces *)
Lemma two_split : forall c a b s, two c a b s -> split_char c s = [a; b].
Proof. intros c a b s (-> & A & B). rewrite split_char_app by exact A. rewrite split_char_nosep by exact B. reflexivity. Qed.
Lemma not_two_split : forall c s, not_two c s -> (exists a, split_char c s = [a]) \/ exists a b d r, split_char c s = a :: b :: d :: r.
Proof.
  intros c s [H|(a & b & r & -> & A & B)]; [left; exists s; apply split_char_nosep; exact H|right]. rewrite split_char_app by exact A. rewrite split_char_app by exact B. pose proof (split_char_ne c r) as N. destruct (split_char c r) as [|d l]; [contradiction|]. exists a, b, d, l. reflexivity.
Qed.
Lemma counted_read : forall d k n, counted d k n -> num_int (get d k) = n.
Proof. intros d k n [(s & m & E & W & ->)|[-> [N|(s & E & W)]]]; unfold get, num_int, is_entry, no_entry, whole in *; [rewrite E, W; reflexivity|rewrite N; reflexivity|]. rewrite E. destruct (parse_int s) as [m|]; [exfalso; exact (W m eq_refl)|reflexivity]. Qed.
Lemma measured_read : forall float d k q, measured float d k q -> num_float float (get d k) = q.
Proof. intros float d k q [(s & E & ->)|[E ->]]; unfold get, num_float, is_entry, no_entry in *; rewrite E; reflexivity. Qed.
Lemma switch_read : forall d k b, switch d k b -> bool_of (get d k) = b.
Proof.
  intros d k b [[E ->]|[[E ->]|[-> [E|(s & E & A & B)]]]]; unfold get, is_entry, no_entry in *; rewrite E; try reflexivity. cbn [bool_of]. destruct (eqb_str s (str "-1")) eqn:X; [apply eqb_str_spec in X; contradiction|]. destruct (eqb_str s (str "0")) eqn:Y; [apply eqb_str_spec in Y; contradiction|]. reflexivity.
Qed.
Lemma named_read : forall d k t, named d k t -> get d k = t.
Proof. intros d k t [(s & E & ->)|[E ->]]; exact E. Qed.
Lemma mode_read : forall n m, In (n, m) modes \/ ~ In n (map fst modes) /\ m = str "Unknown" -> mode_name n = m.
Proof. intros n m [H|[H ->]]; unfold modes in H; [cbn [In] in H; destruct H as [H|[H|[H|[H|[]]]]]; injection H as <- <-; reflexivity|]. cbn [map fst In] in H. unfold mode_name. replace (n =? 1) with false by lia. replace (n =? 2) with false by lia. replace (n =? 3) with false by lia. replace (n =? 4) with false by lia. reflexivity. Qed.

(** * The detector *)
Theorem C91_detector : forall float c acq streak frames time bin sh bg cu de model gain range units mode, has c "Acquisition" acq -> has c "Streak camera" streak ->
  counted acq "NrExposure" frames -> exposed float acq frames time -> binned acq bin -> switch acq "ShadingCorr" sh -> switch acq "BacksubCorr" bg -> switch acq "CurveCorr" cu -> switch acq "DefectCorrection" de ->
  named streak "DeviceName" model -> measured float streak "MCP Gain" gain -> ranged float streak range units -> mode_ok acq mode ->
  map_detector float c = Ok {| d_frames := frames; d_time := time; d_binning := bin; d_shading := sh; d_background := bg; d_curvature := cu; d_defect := de; d_model := model; d_gain := gain; d_range := range; d_range_units := units; d_mode := mode |}.
Proof.
  intros float c acq streak frames time bin sh bg cu de model gain range units mode HA HS F T B S1 S2 S3 S4 M G R (ms & mn & ME & MW & MO). unfold map_detector.
  assert (A : match lookup (str "Acquisition") c with Some (Entries d) => Ok d | Some (Plain _) => Err AttributeError | None => Ok [] end = Ok acq) by (destruct HA as [->|[-> ->]]; reflexivity). rewrite A. cbn [bind]. cbv zeta. rewrite (counted_read _ _ _ F).
  assert (TR : match get acq "ExposureTime" with None => Ok None | Some s => match split_char 32 s with [a; u] => let t := float a in let! t := if eqb_str u (str "ms") then match t with Some q => Ok (Some (q / 1000)%Q) | None => Err TypeError end else Ok t in match t, frames with Some q, Some n => Ok (Some (q * inject_Z n)%Q) | _, _ => Err TypeError end | _ => Ok None end end = Ok time).
  { unfold get. destruct T as [(s & a & u & q & m & E & TW & FA & -> & T)|[-> [E|(s & E & N)]]]; unfold is_entry, no_entry in E; rewrite E; [|reflexivity|].
    - rewrite (two_split _ _ _ _ TW), FA. cbv zeta. destruct T as [[-> ->]|[U ->]]; [rewrite eqb_str_refl; reflexivity|]. destruct (eqb_str u (str "ms")) eqn:X; [apply eqb_str_spec in X; contradiction|]. reflexivity.
    - destruct (not_two_split _ _ N) as [(a & ->)|(a & b & d & r & ->)]; reflexivity. }
  cbv zeta in TR. rewrite TR. cbn [bind]. clear TR T.
  assert (BR : match get acq "pntBinning" with Some s => match split_char 44 s with [a; b] => let! a := parse_int a in let! b := parse_int b in Ok (Some (a, b)) | _ => Ok None end | None => Ok None end = Ok bin).
  { unfold get. destruct B as [(s & x & y & n & m & E & TW & X & Y & ->)|[-> [E|(s & E & N)]]]; unfold is_entry, no_entry in E; rewrite E; [|reflexivity|].
    - rewrite (two_split _ _ _ _ TW). unfold whole in X, Y. rewrite X, Y. reflexivity.
    - destruct (not_two_split _ _ N) as [(a & ->)|(a & b & d & r & ->)]; reflexivity. }
  rewrite BR. cbn [bind]. clear BR B. assert (SR : get_section c "Streak camera" = Ok streak) by (unfold get_section; destruct HS as [->|[-> ->]]; reflexivity). rewrite SR. cbn [bind].
  assert (RR : match get streak "Time Range" with None => (None, None) | Some s => match split_char 32 s with [a; u] => (float a, Some (if eqb_str u (str "us") then [181; 115] else u)) | _ => (float s, None) end end = (range, units)).
  { unfold get. destruct R as [(s & a & w & E & TW & -> & U)|[(s & E & N & -> & ->)|(E & -> & ->)]]; unfold is_entry, no_entry in E; rewrite E; [| |reflexivity].
    - rewrite (two_split _ _ _ _ TW). destruct U as [[-> ->]|[U ->]]; [reflexivity|]. destruct (eqb_str w (str "us")) eqn:X; [apply eqb_str_spec in X; contradiction|]. reflexivity.
    - destruct (not_two_split _ _ N) as [(a & ->)|(a & b & d & r & ->)]; reflexivity. }
  rewrite RR. unfold get at 1. unfold is_entry in ME. rewrite ME. cbn [int_of]. unfold whole in MW. rewrite MW. cbn [bind]. rewrite (mode_read _ _ MO), (switch_read _ _ _ S1), (switch_read _ _ _ S2), (switch_read _ _ _ S3), (switch_read _ _ _ S4), (named_read _ _ _ M), (measured_read _ _ _ _ G). reflexivity.
Qed.
(** Without the number of exposures or the mode, the file cannot be read *)
Theorem C91_frames_refuted : forall float c acq s a u, has c "Acquisition" acq -> no_entry acq "NrExposure" -> is_entry acq "ExposureTime" s -> two 32 a u s -> map_detector float c = Err TypeError.
Proof.
  intros float c acq s a u HA N E TW. unfold map_detector. assert (A : match lookup (str "Acquisition") c with Some (Entries d) => Ok d | Some (Plain _) => Err AttributeError | None => Ok [] end = Ok acq) by (destruct HA as [->|[-> ->]]; reflexivity). rewrite A. cbn [bind]. cbv zeta. unfold get at 1. unfold is_entry, no_entry in *. rewrite E, (two_split _ _ _ _ TW). unfold get at 1. rewrite N. cbn [num_int]. destruct (float a); destruct (eqb_str u (str "ms")); reflexivity.
Qed.
Theorem C91_mode_refuted : forall float c acq streak, has c "Acquisition" acq -> has c "Streak camera" streak -> no_entry acq "ExposureTime" -> no_entry acq "pntBinning" -> no_entry acq "AcqMode" -> map_detector float c = Err TypeError.
Proof.
  intros float c acq streak HA HS E B M. unfold map_detector. assert (A : match lookup (str "Acquisition") c with Some (Entries d) => Ok d | Some (Plain _) => Err AttributeError | None => Ok [] end = Ok acq) by (destruct HA as [->|[-> ->]]; reflexivity). rewrite A. cbn [bind]. unfold no_entry in *. unfold get at 1. rewrite E. cbn [bind]. unfold get at 1. rewrite B. cbn [bind].
  assert (SR : get_section c "Streak camera" = Ok streak) by (unfold get_section; destruct HS as [->|[-> ->]]; reflexivity). rewrite SR. cbn [bind]. destruct (match get streak "Time Range" with None => _ | _ => _ end) as [r u]. unfold get at 1. rewrite M. reflexivity.
Qed.

(** * The spectrometer *)
Theorem C91_spectrometer : forall float c d blaze groove model slit wl, has c "Spectrograph" d -> measured float d "Blaze" blaze -> grooved float d groove -> named d "DeviceName" model -> measured float d "Side Ent. Slitw." slit -> measured float d "Wavelength" wl ->
  (is_entry d "Ruling" (str "0") -> map_spectrometer float c = Ok {| p_grating := None; p_model := model; p_slit := slit; p_wavelength := wl |}) /\
  (~ is_entry d "Ruling" (str "0") -> map_spectrometer float c = Ok {| p_grating := Some (blaze, groove); p_model := model; p_slit := slit; p_wavelength := wl |}).
Proof.
  intros float c d blaze groove model slit wl H B G M S W. unfold map_spectrometer. assert (A : match lookup (str "Spectrograph") c with Some (Entries d) => Ok d | Some (Plain _) => Err TypeError | None => Ok [] end = Ok d) by (destruct H as [->|[-> ->]]; reflexivity). rewrite A. cbn [bind].
  assert (GR : match get d "Grating" with None => None | Some s => match split_char 32 s with [a; _] => match parse_int a with Ok n => Some (inject_Z n) | Err _ => None end | _ => float s end end = groove).
  { unfold get. destruct G as [(s & a & u & n & E & TW & X & ->)|[(s & a & u & E & TW & X & ->)|[(s & E & N & ->)|[E ->]]]]; unfold is_entry, no_entry in E; rewrite E; [| | |reflexivity].
    - rewrite (two_split _ _ _ _ TW). unfold whole in X. rewrite X. reflexivity.
    - rewrite (two_split _ _ _ _ TW). unfold whole in X. destruct (parse_int a) as [n|]; [exfalso; exact (X n eq_refl)|reflexivity].
    - destruct (not_two_split _ _ N) as [(a & ->)|(a & b & e & r & ->)]; reflexivity. }
  rewrite GR, (measured_read _ _ _ _ B), (measured_read _ _ _ _ S), (measured_read _ _ _ _ W), (named_read _ _ _ M). split; intro R; unfold is_entry, get in *.
  - rewrite R. reflexivity.
  - destruct (lookup (str "Ruling") d) as [s|]; [|reflexivity]. destruct (eqb_str s (str "0")) eqn:X; [apply eqb_str_spec in X; subst s; exfalso; apply R; reflexivity|reflexivity].
Qed.
(** A mirror without blaze wavelength (0) is still a grating *)
Theorem C91_blaze_refuted : forall float c d, lookup (str "Spectrograph") c = Some (Entries d) -> is_entry d "Blaze" (str "0") -> no_entry d "Ruling" -> exists s, map_spectrometer float c = Ok s /\ p_grating s <> None.
Proof. intros float c d H B R. unfold map_spectrometer. rewrite H. cbn [bind]. unfold no_entry in R. unfold get. rewrite R. eexists. split; [reflexivity|]. cbn [p_grating]. discriminate. Qed.

(** * Title, date and quantity *)
Definition three (c : Z) (x y z s : pystr) : Prop := s = x ++ c :: y ++ c :: z /\ ~ In c x /\ ~ In c y /\ ~ In c z.
Definition dated (s t : pystr) : Prop :=
  (exists d m y, three 47 d m y s /\ t = y ++ str "-" ++ m ++ str "-" ++ d) \/
  (forall d m y, ~ three 47 d m y s) /\ ((exists d m y, three 46 d m y s /\ t = y ++ str "-" ++ m ++ str "-" ++ d) \/ (forall d m y, ~ three 46 d m y s) /\ t = s).
Lemma three_split : forall c x y z s, three c x y z s -> split_char c s = [x; y; z].
Proof. intros c x y z s (-> & X & Y & Z0). rewrite split_char_app by exact X. rewrite split_char_app by exact Y. rewrite split_char_nosep by exact Z0. reflexivity. Qed.
Lemma split_cases : forall (c : Z) (s : pystr), ~ In c s \/ exists a b, s = a ++ c :: b /\ ~ In c a.
Proof.
  intros c s. induction s as [|x s IH]; [left; intros []|]. destruct (Z.eq_dec x c) as [->|N]; [right; exists [], s; split; [reflexivity|intros []]|]. destruct IH as [H|(a & b & -> & H)]; [left; intros [K|K]; [contradiction|exact (H K)]|]. right. exists (x :: a), b. split; [reflexivity|]. intros [K|K]; [contradiction|exact (H K)].
Qed.
Lemma split_three : forall c s x y z, split_char c s = [x; y; z] -> three c x y z s.
Proof.
  intros c s x y z H. destruct (split_cases c s) as [N|(a & b & -> & A)]; [rewrite split_char_nosep in H by exact N; discriminate H|]. rewrite split_char_app in H by exact A. injection H as <- H. destruct (split_cases c b) as [N|(a' & b' & -> & A')]; [rewrite split_char_nosep in H by exact N; discriminate H|]. rewrite split_char_app in H by exact A'. injection H as <- H. destruct (split_cases c b') as [N|(a'' & b'' & -> & A'')]; [rewrite split_char_nosep in H by exact N; injection H as <-; repeat split; assumption|]. rewrite split_char_app in H by exact A''. injection H as _ H. destruct (split_char_ne _ _ H).
Qed.
Lemma iso_three : forall c s, (exists x y z, three c x y z s /\ split_char c s = [x; y; z]) \/ (forall x y z, ~ three c x y z s) /\ forall A (f : pystr -> pystr -> pystr -> A) (e : A), match split_char c s with [x; y; z] => f x y z | _ => e end = e.
Proof.
  intros c s. destruct (split_char c s) as [|x [|y [|z [|w l]]]] eqn:E; try (right; split; [intros x' y' z' K; apply three_split in K; rewrite E in K; discriminate K|reflexivity]). left. exists x, y, z. split; [apply split_three; exact E|reflexivity].
Qed.
Theorem C91_date : forall s t, dated s t -> iso_date s = t.
Proof.
  intros s t H. unfold iso_date. cbv zeta. destruct H as [(d & m & y & T & ->)|[N H]]; [rewrite (three_split _ _ _ _ _ T); reflexivity|].
  destruct (iso_three 47 s) as [(x & y & z & T & _)|[_ R]]; [destruct (N _ _ _ T)|]. rewrite R. destruct H as [(d & m & y & T & ->)|[N' ->]]; [rewrite (three_split _ _ _ _ _ T); reflexivity|]. destruct (iso_three 46 s) as [(x & y & z & T & _)|[_ R']]; [destruct (N' _ _ _ T)|]. rewrite R'. reflexivity.
Qed.
(** what is before the first character c *)
Definition upto (c : Z) (s t : pystr) : Prop := ~ In c t /\ (s = t \/ exists r, s = t ++ c :: r).
Lemma upto_read : forall c s t, upto c s t -> hd [] (split_char c s) = t.
Proof. intros c s t [N [-> | [r ->]]]; [rewrite split_char_nosep by exact N; reflexivity|rewrite split_char_app by exact N; reflexivity]. Qed.
Theorem C91_general : forall name c app date time d t title, lookup (str "Application") c = Some (Entries app) -> is_entry app "Date" date -> is_entry app "Time" time -> dated date d -> upto 46 time t -> upto 46 name title ->
  map_general name c = Ok {| g_title := title; g_file := name; g_date := Some (d, t) |}.
Proof. intros name c app date time d t title HA HD HT DD UT UN. unfold map_general, item. rewrite HA. cbn [fold_right]. unfold get, is_entry in *. rewrite HD, HT. cbn [bind]. rewrite (C91_date _ _ DD), (upto_read _ _ _ UT), (upto_read _ _ _ UN). reflexivity. Qed.
Theorem C91_undated : forall name c app title, has c "Application" app -> no_entry app "Date" \/ no_entry app "Time" -> upto 46 name title -> map_general name c = Ok {| g_title := title; g_file := name; g_date := None |}.
Proof.
  intros name c app title HA H U. unfold map_general, item, no_entry, get in *. destruct HA as [->|[-> _]]; [|cbn [bind]; rewrite (upto_read _ _ _ U); reflexivity]. cbn [fold_right bind]. unfold get. rewrite (upto_read _ _ _ U). destruct H as [->|H]; [reflexivity|]. rewrite H. destruct (lookup (str "Date") app); reflexivity.
Qed.
Theorem C91_quantity : forall c acq label unit u, lookup (str "Acquisition") c = Some (Entries acq) -> is_entry acq "ZAxisLabel" label -> is_entry acq "ZAxisUnit" unit -> (unit = str "Count" /\ u = str "Counts" \/ unit <> str "Count" /\ u = unit) ->
  map_signal c = Ok (Some (label ++ str " (" ++ u ++ str ")")).
Proof.
  intros c acq label unit u HA HL HU H. unfold map_signal, item. rewrite HA. cbn [fold_right]. unfold get, is_entry in *. rewrite HL, HU. cbn [bind]. destruct H as [[-> ->]|[N ->]]; [reflexivity|]. destruct (eqb_str unit (str "Count")) eqn:X; [apply eqb_str_spec in X; contradiction|]. reflexivity.
Qed.
Theorem C91_unnamed : forall c acq, has c "Acquisition" acq -> no_entry acq "ZAxisLabel" \/ no_entry acq "ZAxisUnit" -> map_signal c = Ok None.
Proof. intros c acq HA H. unfold map_signal, item, no_entry, get in *. destruct HA as [->|[-> _]]; [|reflexivity]. cbn [fold_right bind]. unfold get. destruct H as [->|H]; [reflexivity|]. rewrite H. destruct (lookup (str "ZAxisLabel") acq); reflexivity. Qed.

(** * Examples *)
Definition ex_float (s : pystr) : option Q := match parse_int s with Ok n => Some (inject_Z n) | Err _ => None end.
Definition ex_acq : list (pystr * pystr) := [(str "NrExposure", str "60"); (str "ExposureTime", str "20 ms"); (str "pntBinning", str "2,1"); (str "ShadingCorr", str "0"); (str "BacksubCorr", str "-1"); (str "AcqMode", str "4"); (str "ZAxisLabel", str "Intensity"); (str "ZAxisUnit", str "Count")].
Definition ex_streak : list (pystr * pystr) := [(str "DeviceName", str "C5680"); (str "MCP Gain", str "50"); (str "Time Range", str "1 us")].
Definition ex_spec : list (pystr * pystr) := [(str "Grating", str "150 g/mm"); (str "Blaze", str "500"); (str "Ruling", str "150"); (str "Wavelength", str "488")].
Definition ex_comment : comment := [(str "Application", Entries [(str "Date", str "12/11/2021"); (str "Time", str "11:08:45.23")]); (str "Acquisition", Entries ex_acq); (str "Streak camera", Entries ex_streak); (str "Spectrograph", Entries ex_spec)].
Lemma two_dec : forall c a b s, s = a ++ c :: b -> forallb (fun d => negb (c =? d)) (a ++ b) = true -> two c a b s.
Proof. intros c a b s E H. apply not_in_dec in H. split; [exact E|]. split; intro K; apply H; apply in_or_app; [left|right]; exact K. Qed.
Example C91_detector_example : has ex_comment "Acquisition" ex_acq /\ has ex_comment "Streak camera" ex_streak /\ counted ex_acq "NrExposure" (Some 60) /\ exposed ex_float ex_acq (Some 60) (Some (20 / 1000 * 60)%Q) /\ binned ex_acq (Some (2, 1)) /\
  switch ex_acq "ShadingCorr" (Some false) /\ switch ex_acq "BacksubCorr" (Some true) /\ switch ex_acq "CurveCorr" None /\ named ex_streak "DeviceName" (Some (str "C5680")) /\ measured ex_float ex_streak "MCP Gain" (Some 50%Q) /\ ranged ex_float ex_streak (Some 1%Q) (Some [181; 115]) /\ mode_ok ex_acq (str "analog_integration") /\
  map_detector ex_float ex_comment = Ok {| d_frames := Some 60; d_time := Some (20 / 1000 * 60)%Q; d_binning := Some (2, 1); d_shading := Some false; d_background := Some true; d_curvature := None; d_defect := None; d_model := Some (str "C5680"); d_gain := Some 50%Q; d_range := Some 1%Q; d_range_units := Some [181; 115]; d_mode := str "analog_integration" |}.
Proof.
  repeat split.
  - left. reflexivity.
  - left. reflexivity.
  - left. exists (str "60"), 60. repeat split.
  - left. exists (str "20 ms"), (str "20"), (str "ms"), 20%Q, 60. split; [reflexivity|]. split; [apply two_dec; reflexivity|]. repeat split. left. split; reflexivity.
  - left. exists (str "2,1"), (str "2"), (str "1"), 2, 1. split; [reflexivity|]. split; [apply two_dec; reflexivity|]. repeat split.
  - right. left. split; reflexivity.
  - left. split; reflexivity.
  - right. right. split; [reflexivity|]. left. reflexivity.
  - left. eexists. split; reflexivity.
  - left. eexists. split; reflexivity.
  - left. exists (str "1 us"), (str "1"), (str "us"). split; [reflexivity|]. split; [apply two_dec; reflexivity|]. split; [reflexivity|]. left. split; reflexivity.
  - exists (str "4"), 4. split; [reflexivity|]. split; [reflexivity|]. left. cbn. auto 6.
Qed.
Example C91_frames_refuted_example : has [(str "Acquisition", Entries [(str "ExposureTime", str "5 s")])] "Acquisition" [(str "ExposureTime", str "5 s")] /\ two 32 (str "5") (str "s") (str "5 s") /\ map_detector ex_float [(str "Acquisition", Entries [(str "ExposureTime", str "5 s")])] = Err TypeError.
Proof. split; [left; reflexivity|]. split; [apply two_dec; reflexivity|reflexivity]. Qed.
Example C91_mode_refuted_example : map_detector ex_float [] = Err TypeError.
Proof. reflexivity. Qed.
Example C91_spectrometer_example : has ex_comment "Spectrograph" ex_spec /\ measured ex_float ex_spec "Blaze" (Some 500%Q) /\ grooved ex_float ex_spec (Some 150%Q) /\ ~ is_entry ex_spec "Ruling" (str "0") /\
  map_spectrometer ex_float ex_comment = Ok {| p_grating := Some (Some 500%Q, Some 150%Q); p_model := None; p_slit := None; p_wavelength := Some 488%Q |}.
Proof.
  repeat split.
  - left. reflexivity.
  - left. eexists. split; reflexivity.
  - left. exists (str "150 g/mm"), (str "150"), (str "g/mm"), 150. split; [reflexivity|]. split; [apply two_dec; reflexivity|]. split; reflexivity.
  - intro H. vm_compute in H. discriminate H.
Qed.
Example C91_blaze_refuted_example : map_spectrometer ex_float [(str "Spectrograph", Entries [(str "Blaze", str "0")])] = Ok {| p_grating := Some (Some 0%Q, None); p_model := None; p_slit := None; p_wavelength := None |}.
Proof. reflexivity. Qed.
Example C91_date_example : dated (str "12/11/2021") (str "2021-11-12") /\ dated (str "12.11.2021") (str "2021-11-12") /\ iso_date (str "12-11-2021") = str "12-11-2021".
Proof.
  split; [left; exists (str "12"), (str "11"), (str "2021"); split; [|reflexivity]; split; [reflexivity|]; repeat split; apply not_in_dec; reflexivity|]. split; [|reflexivity]. right. split; [intros d m y K; apply three_split in K; discriminate K|]. left. exists (str "12"), (str "11"), (str "2021"). split; [|reflexivity]. split; [reflexivity|]. repeat split; apply not_in_dec; reflexivity.
Qed.
Example C91_general_example : map_general (str "run.1.img") ex_comment = Ok {| g_title := str "run"; g_file := str "run.1.img"; g_date := Some (str "2021-11-12", str "11:08:45") |} /\ upto 46 (str "run.1.img") (str "run") /\ upto 46 (str "11:08:45.23") (str "11:08:45").
Proof. split; [reflexivity|]. split; (split; [apply not_in_dec; reflexivity|]); right; eexists; reflexivity. Qed.
Example C91_quantity_example : map_signal ex_comment = Ok (Some (str "Intensity (Counts)")).
Proof. reflexivity. Qed.

(** ** A whole file: two lines of three pixels, with descending wavelengths *)
Definition ex_fields : list part :=
  [ {| p_name := str "Acquisition"; p_body := Fields [fld "NrExposure" "2" false; fld "AcqMode" "1" false]; p_end := [13; 10] |};
    {| p_name := str "Scaling"; p_body := Fields [fld "ScalingXType" "2" false; fld "ScalingXUnit" "nm" true; fld "ScalingXScalingFile" "#253,3" true; fld "ScalingYType" "1" false; fld "ScalingYUnit" "us" true; fld "ScalingYScalingFile" "Focus mode" true]; p_end := [13; 10] |} ].
Definition ex_table : list Z := [1077936128; 1073741824; 1065353216].
Definition ex_image : image :=
  {| m_mark := str "IM"; m_x := -1; m_y := 7; m_type := 2; m_images := 1; m_channels := 0; m_channel := 0; m_time := 5; m_marker := [0; 0; 0; 0]; m_info := repeat 0 30; m_comment := comment_text ex_fields; m_width := 3; m_lines := 2; m_bytes := 2%nat;
     m_rows := [[1; 2; 300]; [4; 5; 65535]]; m_rest := words 4 ex_table ++ [9] |}.
Definition ex_fit (l : list Z) : number * number := (Word4 (hd 0 l), Word4 0).
Definition ex_scaling : list (pystr * pystr) := [(str "ScalingXType", str "2"); (str "ScalingXUnit", str "nm"); (str "ScalingXScalingFile", str "#253,3"); (str "ScalingYType", str "1"); (str "ScalingYUnit", str "us"); (str "ScalingYScalingFile", str "Focus mode")].
Example C89_example : image_ok ex_image /\ texts ex_image (str "IM") [0; 0; 0; 0] (repeat 0 30) (comment_text ex_fields) /\ In (m_type ex_image, Bit16) kinds /\
  process_comment (without_zeros (comment_text ex_fields)) = Ok [(str "Acquisition", Entries [(str "NrExposure", str "2"); (str "AcqMode", str "1")]); (str "Scaling", Entries ex_scaling)] /\
  calibrated (image_bytes ex_image) ex_scaling 88 (Tabulated 253 ex_table) /\ calibrated (image_bytes ex_image) ex_scaling 89 Uncalibrated /\ fits (m_width ex_image) (Tabulated 253 ex_table) /\ x_reversed (Tabulated 253 ex_table) = true /\
  file_reader ex_fit ex_float false (str "a.img") (image_bytes ex_image) =
  Ok {| s_header := {| h_mark := str "IM"; h_comment := 177; h_width := 3; h_lines := 2; h_x := -1; h_y := 7; h_type := Bit16; h_images := 1; h_channels := 0; h_channel := 0; h_time := 5; h_marker := []; h_info := [] |};
        s_comment := [(str "Acquisition", Entries [(str "NrExposure", str "2"); (str "AcqMode", str "1")]); (str "Scaling", Entries ex_scaling)];
        s_axes := [{| a_name := str "Vertical CCD Position"; a_units := Some (str "px"); a_size := 2; a_scaling := Pixels; a_index := 0 |}; {| a_name := str "Wavelength"; a_units := Some (str "nm"); a_size := 3; a_scaling := Table (rev ex_table); a_index := 1 |}];
        s_data := [300; 2; 1; 65535; 5; 4]; s_general := {| g_title := str "a"; g_file := str "a.img"; g_date := None |}; s_quantity := None;
        s_detector := {| d_frames := Some 2; d_time := None; d_binning := None; d_shading := None; d_background := None; d_curvature := None; d_defect := None; d_model := None; d_gain := None; d_range := None; d_range_units := None; d_mode := str "live" |};
        s_spectrometer := {| p_grating := Some (None, None); p_model := None; p_slit := None; p_wavelength := None |} |}.
Proof.
  split. { repeat split; try (vm_compute; congruence). - right. left. reflexivity. - repeat constructor; vm_compute; congruence. }
  split; [repeat split; vm_compute; reflexivity|]. split; [right; left; reflexivity|]. split; [vm_compute; reflexivity|].
  split. { split; [eexists; split; reflexivity|]. split; [reflexivity|]. split; [lia|]. split; [exists [9]; vm_compute; reflexivity|]. split; [repeat constructor; vm_compute; congruence|vm_compute; congruence]. }
  split; [eexists; split; reflexivity|]. split; [reflexivity|]. split; vm_compute; reflexivity.
Qed.
Example C89_misfit_example : reshape [{| a_name := []; a_units := None; a_size := 2; a_scaling := Pixels; a_index := 0 |}; {| a_name := []; a_units := None; a_size := 4; a_scaling := Pixels; a_index := 1 |}] false [1; 2; 300; 4; 5; 65535] = Err ValueError.
Proof. reflexivity. Qed.
Definition ex_one : list (pystr * pystr) := [(str "ScalingXType", str "2"); (str "ScalingXScalingFile", str "#253,1"); (str "ScalingYType", str "1")].
Example C89_column_refuted_example : skipn 253 (image_bytes ex_image) = le 4 1077936128 ++ (words 4 (tl ex_table) ++ [9]) /\ lookup (entry 88 "ScalingFile") ex_one = Some (str "#" ++ str_int 253 ++ str "," ++ str "1") /\
  get_axes ex_fit false (header_of ex_image Bit16 [] [] []) (image_bytes ex_image) [(str "Scaling", Entries ex_one)] = Err IndexError.
Proof. repeat split; vm_compute; reflexivity. Qed.

Print Assumptions C91_detector.
Print Assumptions C91_frames_refuted.
Print Assumptions C91_mode_refuted.
Print Assumptions C91_spectrometer.
Print Assumptions C91_blaze_refuted.
Print Assumptions C91_date.
Print Assumptions C91_general.
Print Assumptions C91_undated.
Print Assumptions C91_quantity.
Print Assumptions C91_unnamed.
