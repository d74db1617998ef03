(** C108: pictures of a Phenom ELID file, their metadata and units; all signals of a file. *)
From Coq Require Import QArith ZifyBool.
From Verif Require Import Base Text Bytes Utf8 HierModel HierProps XmlModel ArrayModel PhModel PhProps PhFile.
Local Open Scope Z_scope.

(** * XML metadata *)
(** the last child of that name *)
Definition last_child (t : pystr) (l : list xml) (c : xml) : Prop := exists a b, l = a ++ c :: b /\ x_tag c = t /\ Forall (fun d => x_tag d <> t) b.
Lemma update_last : forall l d k, lookup k (update d l) = match lookup k (rev l) with Some v => Some v | None => lookup k d end.
Proof.
  induction l as [|[k' v'] l IH] using rev_ind; intros d k; [reflexivity|]. unfold update in *. rewrite fold_left_app, rev_app_distr. cbn [rev app fold_left fst snd lookup].
  rewrite lookup_put. destruct (eqb_str k k') eqn:E; [reflexivity|]. apply IH.
Qed.
Lemma lookup_skip : forall A k (a b : list (pystr * A)), Forall (fun p => fst p <> k) a -> lookup k (a ++ b) = lookup k b.
Proof.
  induction 1 as [|[k' v'] l H _ IH]; [reflexivity|]. cbn. destruct (eqb_str k k') eqn:E; [|exact IH]. apply eqb_str_spec in E. cbn in H. congruence.
Qed.
Theorem C108_xml : forall tag attrs text tail children,
  (children = [] -> attrs = [] -> of_xml (Elem tag attrs text tail children) = match text with [] => Nothing | _ => Txt text end) /\
  (children = [] -> attrs <> [] -> exists d, of_xml (Elem tag attrs text tail children) = Dict d /\
     (forall k, lookup k d = match lookup k (rev attrs) with Some v => Some (Txt v) | None => if eqb_str k (str "value") then Some (match text with [] => Nothing | _ => Txt text end) else None end)) /\
  (children <> [] -> exists d, of_xml (Elem tag attrs text tail children) = Dict d /\
     (forall k c, last_child k children c -> lookup k d = Some (of_xml c)) /\ (forall k, Forall (fun c => x_tag c <> k) children -> lookup k d = None)).
Proof.
  intros tag attrs text tail children. split; [|split].
  - intros -> ->. destruct text; reflexivity.
  - intros -> N. exists (update [(str "value", text_of (Elem tag attrs text tail []))] (map (fun p => (fst p, Txt (snd p))) attrs)). split; [destruct attrs; [congruence|reflexivity]|].
    intros k. rewrite update_last, <- map_rev. clear N. unfold text_of. cbn [x_text]. induction (rev attrs) as [|[k' v'] l IH]; [cbn [map lookup]; destruct (eqb_str k (str "value")); [destruct text|]; reflexivity|]. cbn [map lookup fst snd].
    destruct (eqb_str k k'); [reflexivity|]. exact IH.
  - intros N. exists (update [] (map (fun c => (x_tag c, of_xml c)) children)). split; [destruct children; [congruence|reflexivity]|]. clear N. split.
    + intros k c (a & b & -> & <- & B). rewrite update_last, map_app, rev_app_distr. cbn [map rev]. rewrite <- app_assoc, lookup_skip.
      * cbn. rewrite eqb_str_refl. reflexivity.
      * apply Forall_rev. apply Forall_map. exact B.
    + intros k B. rewrite update_last. rewrite <- (app_nil_r (rev _)), lookup_skip; [reflexivity|]. apply Forall_rev, Forall_map. exact B.
Qed.

(** * Units *)
Theorem C108_units : forall q,
  (exists scale prefix, get_unit q = (scale, prefix) /\ unit_for q scale (prefix ++ [109]) /\ unit_factor (prefix ++ [109]) = Ok scale) /\
  (forall scale prefix, (1 # 1000000000 < q <= 1)%Q -> get_unit q = (scale, prefix) -> (1 < q / scale <= 1000)%Q).
Proof.
  assert (T : forall q t, above q t = true -> (t < q)%Q). { intros q t H. unfold above in H. apply Qnot_le_lt. intros L. apply Qle_bool_iff in L. rewrite L in H. discriminate. }
  assert (F : forall q t, above q t = false -> (q <= t)%Q). { intros q t H. unfold above in H. apply Qle_bool_iff. destruct (Qle_bool q t); [reflexivity|discriminate]. }
  intros q. split.
  - unfold get_unit, unit_for. destruct (above q 1) eqn:A1; [exists 1%Q, []; split; [reflexivity|]; split; [left; split; [apply T; exact A1|]; split; reflexivity|reflexivity]|].
    destruct (above q (1 # 1000)) eqn:A2; [exists (1 # 1000)%Q, [109]; split; [reflexivity|]; split; [right; left; split; [split; [apply T; exact A2|apply F; exact A1]|]; split; reflexivity|reflexivity]|].
    destruct (above q (1 # 1000000)) eqn:A3; [exists (1 # 1000000)%Q, [181]; split; [reflexivity|]; split; [right; right; left; split; [split; [apply T; exact A3|apply F; exact A2]|]; split; reflexivity|reflexivity]|].
    destruct (above q (1 # 1000000000)) eqn:A4; [exists (1 # 1000000000)%Q, [110]; split; [reflexivity|]; split; [right; right; right; left; split; [split; [apply T; exact A4|apply F; exact A3]|]; split; reflexivity|reflexivity]|].
    exists 1%Q, []. split; [reflexivity|]. split; [right; right; right; right; split; [apply F; exact A4|]; split; reflexivity|reflexivity].
  - intros scale prefix [L H]. unfold get_unit.
    destruct (above q 1) eqn:A1; [exfalso; apply (Qlt_not_le _ _ (T _ _ A1) H)|].
    destruct (above q (1 # 1000)) eqn:A2; [intros [= <- <-]; apply T in A2; apply F in A1; unfold Qlt, Qle, Qdiv, Qmult, Qinv in *; cbn in *; lia|].
    destruct (above q (1 # 1000000)) eqn:A3; [intros [= <- <-]; apply T in A3; apply F in A2; unfold Qlt, Qle, Qdiv, Qmult, Qinv in *; cbn in *; lia|].
    destruct (above q (1 # 1000000000)) eqn:A4; [intros [= <- <-]; apply T in A4; apply F in A3; unfold Qlt, Qle, Qdiv, Qmult, Qinv in *; cbn in *; lia|].
    apply F in A4. exfalso. apply (Qlt_not_le _ _ L A4).
Qed.
(** prefixes of units in the metadata *)
Definition prefixed (u : pystr) (f : Q) : Prop :=
  ((List.length u <= 1)%nat /\ f = 1%Q) \/
  exists p r, u = p :: r /\ r <> [] /\ In (p, f) [(77, 1000000%Q); (107, 1000%Q); (109, (1 # 1000)%Q); (117, (1 # 1000000)%Q); (181, (1 # 1000000)%Q); (110, (1 # 1000000000)%Q); (112, (1 # 1000000000000)%Q)].
Theorem C108_prefix : forall u f, unit_factor u = Ok f <-> prefixed u f.
Proof.
  intros u f. unfold prefixed. split.
  - destruct u as [|p [|c r]]; cbn [unit_factor]; [intros [= <-]; left; split; [cbn; lia|reflexivity]|intros [= <-]; left; split; [cbn; lia|reflexivity]|].
    intros H. right. exists p, (c :: r). split; [reflexivity|]. split; [discriminate|]. cbn [In].
    destruct (Z.eqb_spec p 77); [injection H as <-; subst; tauto|]. destruct (Z.eqb_spec p 107); [injection H as <-; subst; tauto|]. destruct (Z.eqb_spec p 109); [injection H as <-; subst; tauto|].
    destruct (Z.eqb_spec p 117); [injection H as <-; subst; tauto|]. destruct (Z.eqb_spec p 181); [injection H as <-; subst; tauto|]. cbn [orb] in H.
    destruct (Z.eqb_spec p 110); [injection H as <-; subst; tauto|]. destruct (Z.eqb_spec p 112); [injection H as <-; subst; tauto|]. discriminate.
  - intros [[L ->]|(p & r & -> & N & I)].
    + destruct u as [|p [|c r]]; [reflexivity|reflexivity|cbn in L; lia].
    + destruct r as [|c r]; [congruence|]. cbn [In] in I. repeat destruct I as [I|I]; try (injection I as <- <-; reflexivity). destruct I.
Qed.

Section Whole.
  Variable f64 : Z -> Q.
  Variable radians : Q -> Q.
  Variable float : pystr -> res Q.
  Variable tiff : list Z -> res (regular * option xml).
  Local Notation picture := (PhModel.picture float tiff).

  (** a number, or one with its unit as attribute *)
  Definition quantity (v : val) (q : Q) : Prop :=
    (exists s, v = Txt s /\ float s = Ok q) \/
    exists d s x u f, v = Dict d /\ lookup (str "value") d = Some (Txt s) /\ float s = Ok x /\ lookup (str "unit") d = Some (Txt u) /\ prefixed u f /\ q = (x * f)%Q.
  Lemma quantity_ok : forall v q, quantity v q -> value_with_unit float v = Ok q.
  Proof.
    intros v q [(s & -> & F)|(d & s & x & u & f & -> & V & F & U & P & ->)]; cbn [value_with_unit to_float]; [exact F|].
    unfold get. rewrite V. cbn [bind to_float]. rewrite F, U. cbn [bind]. apply C108_prefix in P. rewrite P. reflexivity.
  Qed.
  Definition bigger (a b m : Q) : Prop := ((b <= a)%Q /\ m = a) \/ ((a < b)%Q /\ m = b).
  Lemma bigger_ok : forall a b m, bigger a b m -> qmax a b = m.
  Proof.
    intros a b m [[H ->]|[H ->]]; unfold qmax, above.
    - apply Qle_bool_iff in H. rewrite H. reflexivity.
    - destruct (Qle_bool b a) eqn:E; [|reflexivity]. apply Qle_bool_iff in E. exfalso. apply (Qlt_not_le _ _ H E).
  Qed.
  (** metadata of a picture: that of its tag, with the size of the field *)
  Theorem C108_picture : forall b arr tag attrs text tail children d a s h w hq wq rows cols f,
    tiff b = Ok (arr, Some (Elem tag attrs text tail children)) -> tag = str "FeiImage" -> r_shape arr = [rows; cols] ->
    of_xml (Elem tag attrs text tail children) = Dict d ->
    lookup (str "pixelHeight") d = Some h -> quantity h hq -> lookup (str "pixelWidth") d = Some w -> quantity w wq ->
    lookup (str "acquisition") d = Some (Dict a) -> lookup (str "scan") a = Some (Dict s) ->
    bigger (hq * inject_Z rows) (wq * inject_Z cols) f ->
    picture b = Ok (put (str "acquisition") (Dict (put (str "scan") (Dict (put (str "fieldSize") (Num f) s)) a)) d, Grey arr).
  Proof.
    intros b arr tag attrs text tail children d a s h w hq wq rows cols f T -> Sh X H Hq W Wq A S B.
    unfold PhModel.picture. rewrite T. cbn [bind fst snd]. rewrite Sh. replace (Z.of_nat (List.length [rows; cols]) >? 2) with false by reflexivity. cbn [bind].
    unfold scanned. cbn [x_tag]. rewrite eqb_str_refl, X. cbn [bind shape_of]. rewrite Sh. unfold get. rewrite H. cbn [bind]. rewrite (quantity_ok _ _ Hq). cbn [bind item nth_error].
    rewrite W. cbn [bind]. rewrite (quantity_ok _ _ Wq). cbn [bind]. rewrite (bigger_ok _ _ _ B). unfold at_scan. cbn [set_in]. rewrite A, S. reflexivity.
  Qed.

  (** the signal of a picture *)
  Definition image_axes (am : dict) (rows cols : Z) (axes : list axis) : Prop :=
    (am = [] /\ axes = [along "y" 1 rows (str "points"); along "x" 1 cols (str "points")]) \/
    (exists a s f h w hq wq scale unit, lookup (str "acquisition") am = Some (Dict a) /\ lookup (str "scan") a = Some (Dict s) /\ lookup (str "fieldSize") s = Some (Num f) /\
      unit_for ((2 # 10) * f) scale unit /\ lookup (str "pixelHeight") am = Some h /\ quantity h hq /\ lookup (str "pixelWidth") am = Some w /\ quantity w wq /\
      axes = [along "y" (hq / scale) rows unit; along "x" (wq / scale) cols unit]).
  Definition image_shows (b : list Z) (label : pystr) (am : dict) (s : signal) : Prop := exists img rows cols rest axes d,
    picture b = Ok (am, img) /\ shape_of img = rows :: cols :: rest /\ image_axes am rows cols axes /\ dated am d /\
    s = {| s_data := img; s_axes := axes; s_type := []; s_title := label; s_date := d; s_om := am |}.
  Theorem C108_image : forall b label am s, image_shows b label am s -> exists img, picture b = Ok (am, img) /\ image_signal float am img label = Ok s.
  Proof.
    intros b label am s (img & rows & cols & rest & axes & d & Pc & Sh & A & D & ->). exists img. split; [exact Pc|]. unfold image_signal.
    destruct A as [[-> ->]|(a & sc & f & h & w & hq & wq & scale & unit & La & Ls & Lf & U & Lh & Hq & Lw & Wq & ->)].
    - cbn [bind]. rewrite Sh. cbn [item nth_error bind]. rewrite (date_ok _ _ D). reflexivity.
    - destruct am as [|p0 am0] eqn:E; [discriminate|]. rewrite <- E in *. cbn [get_in]. unfold at_scan. cbn [app get_in]. unfold get. rewrite La. cbn [bind]. rewrite Ls. cbn [bind]. rewrite Lf. cbn [bind].
      destruct (unit_ok _ _ _ U) as (prefix & -> & <-). cbn [bind]. rewrite Lw. cbn [bind]. rewrite (quantity_ok _ _ Wq). cbn [bind]. rewrite Lh. cbn [bind]. rewrite (quantity_ok _ _ Hq). cbn [bind].
      rewrite Sh. cbn [item nth_error bind]. rewrite (date_ok _ _ D). reflexivity.
  Qed.

  (** * Files *)
  Record image := { i_tiff : list Z; i_label : pystr; i_analyses : list analysis }.
  Definition image_bytes (v : Z) (i : image) : list Z := tiff_bytes (Some (i_tiff i)) ++ text (i_label i) ++ listed (analysis_bytes v) (i_analyses i).
  Definition analyses_ok (l : list analysis) : Prop := few l /\ Forall (fun a => common_ok (common_of a)) l.
  Definition image_ok (i : image) : Prop := tiff_ok (Some (i_tiff i)) /\ text_ok (i_label i) /\ analyses_ok (i_analyses i).
  (** an image's signals: the picture, then one for each analysis but the constructive ones *)
  Definition image_signals (v : Z) (i : image) (l : list (option signal)) : Prop := exists am s m, image_shows (i_tiff i) (i_label i) am s /\
    Forall2 (shows f64 radians float tiff v (i_label i) am) (i_analyses i) m /\ l = Some s :: m.
  Definition file_bytes (v : Z) (images : list image) (a b : list analysis) : list Z :=
    str "EID2" ++ i32 v ++ listed (image_bytes v) images ++ (if 1 <=? v then listed (analysis_bytes v) a ++ listed (analysis_bytes v) b else []).
  Lemma reads_all : forall A B (p : P A) (enc : B -> list Z) l m, Forall2 (fun x y => reads p (enc x) y) l m -> reads (times (List.length l) p) (flat_map enc l) m.
  Proof.
    induction 1 as [|x y l m Hx _ IH]; [apply reads_ret|]. cbn [List.length times flat_map]. eapply reads_bind; [exact Hx|]. eapply reads_end; [exact IH|]. apply reads_ret.
  Qed.
  Lemma reads_list : forall A B (p : P A) (enc : B -> list Z) l m, few l -> Forall2 (fun x y => reads p (enc x) y) l m -> reads (counted p) (listed enc l) m.
  Proof. intros A B p enc l m L H. unfold counted, listed. eapply reads_bind; [apply reads_u32, L|]. rewrite Nat2Z.id. apply reads_all. exact H. Qed.
  Lemma forall2_with : forall A B (R S : A -> B -> Prop) (T : A -> Prop) l m, (forall x y, T x -> R x y -> S x y) -> Forall T l -> Forall2 R l m -> Forall2 S l m.
  Proof. intros A B R S T l m H F F2. induction F2 as [|x y l m Hx F2 IH]; [constructor|]. inversion_clear F. constructor; [apply H; assumption|apply IH; assumption]. Qed.
  Lemma reads_analyses : forall v label am l m, analyses_ok l -> Forall2 (shows f64 radians float tiff v label am) l m ->
    reads (read_analyses f64 radians float tiff v label am) (listed (analysis_bytes v) l) m.
  Proof.
    intros v label am l m [L C] F. unfold read_analyses. apply reads_list; [exact L|]. eapply forall2_with; [|exact C|exact F].
    intros a s Ca Sa. apply C107_analysis; assumption.
  Qed.
  Lemma reads_image : forall v i l, image_ok i -> image_signals v i l -> reads (read_image f64 radians float tiff v) (image_bytes v i) l.
  Proof.
    intros v i l (T & X & A) (am & s & m & I & F & ->). unfold read_image, image_bytes. destruct (C108_image _ _ _ _ I) as (img & Pc & Is).
    eapply reads_bind; [apply reads_tiff; [exact T|]; intros b [= <-]; eexists; exact Pc|]. rewrite Pc.
    eapply reads_bind; [apply reads_text; exact X|]. eapply reads_lift; [exact Is|].
    apply (reads_last _ _ _ (fun l => Some s :: l)). apply reads_analyses; assumption.
  Qed.
  Theorem C107_file : forall v images a b signals sa sb rest, - 2 ^ 31 <= v <= 4 -> few images -> Forall image_ok images -> Forall2 (image_signals v) images signals ->
    (1 <= v -> analyses_ok a /\ analyses_ok b /\ Forall2 (shows f64 radians float tiff v [] []) a sa /\ Forall2 (shows f64 radians float tiff v [] []) b sb) ->
    read_elid f64 radians float tiff (file_bytes v images a b ++ rest) = Ok (flat_map (fun o => match o with Some s => [s] | None => [] end) (List.concat signals), rest).
  Proof.
    intros v images a b signals sa sb rest V L I F E. unfold file_bytes, read_elid. rewrite app_assoc, <- app_assoc. unfold pbind at 1.
    rewrite exactly_front by reflexivity.
    replace (firstn 4 (str "EID2" ++ i32 v)) with (str "EID2") by reflexivity. replace (skipn 4 (str "EID2" ++ i32 v)) with (i32 v) by reflexivity.
    replace (negb (eqb_str (str "EID2") (str "EID2"))) with false by (rewrite eqb_str_refl; reflexivity).
    rewrite (i32_val v) by lia.
    replace (v >? 4) with false by lia. cbv zeta. revert rest. apply (fun H => H : reads (read_project f64 radians float tiff v) _ _). unfold read_project.
    eapply reads_bind; [apply reads_list; [exact L|]; eapply forall2_with; [|exact I|exact F]; intros i l; apply reads_image|].
    eapply reads_end with (x := tt); [|apply reads_ret]. replace (v >=? 1) with (1 <=? v) by lia. destruct (1 <=? v) eqn:E1; [|apply reads_ret].
    destruct (E ltac:(lia)) as (A1 & A2 & F1 & F2). eapply reads_bind; [apply reads_analyses; eassumption|]. eapply reads_end; [apply reads_analyses; eassumption|]. apply reads_ret.
  Qed.

  (** * What is not read *)
  (** an image without a picture makes the file unreadable; so does one of the analyses with metadata of an image in the lists at the end *)
  Theorem C107_no_picture_refuted : forall v label rest, text_ok label ->
    read_image f64 radians float tiff v (tiff_bytes None ++ text label ++ rest) = Err AttributeError.
  Proof.
    intros v label rest T. unfold read_image, pbind at 1. rewrite reads_tiff; [|exact I|discriminate]. unfold pbind. rewrite reads_text by exact T. reflexivity.
  Qed.
  Theorem C107_spot_refuted : forall v label c x y o p q rest, common_ok c -> old_of float v [] o -> cutout float tiff c p -> with_detector p (common_meta f64 radians v o c) q -> small 64 x -> small 64 y ->
    read_analysis f64 radians float tiff v label [] (analysis_bytes v (ASpot c x y) ++ rest) = Err KeyError.
  Proof.
    intros v label c x y o p q rest C O K Q X Y. unfold read_analysis, analysis_bytes. rewrite <- !app_assoc. unfold pbind at 1. rewrite reads_u8. cbn [Z.eqb Pos.eqb].
    unfold some, pbind at 1, read_spot. unfold pbind at 1. rewrite (reads_common _ _ _ _ _ _ _ _ _ _ C O K Q). cbv beta iota.
    unfold pbind at 1. rewrite reads_f64 by exact X. unfold pbind at 1. rewrite reads_f64 by exact Y. rewrite (eds_known _ _ _ _ _ _ _ Q). unfold pbind at 1, lift at 1, ret at 1. reflexivity.
  Qed.
  Theorem C107_version : forall v f, 4 < v < 2 ^ 31 -> read_elid f64 radians float tiff (str "EID2" ++ i32 v ++ f) = Err OtherError.
  Proof.
    intros v f V. unfold read_elid. rewrite app_assoc. unfold pbind. rewrite exactly_front by reflexivity.
    replace (firstn 4 (str "EID2" ++ i32 v)) with (str "EID2") by reflexivity. replace (skipn 4 (str "EID2" ++ i32 v)) with (i32 v) by reflexivity.
    rewrite eqb_str_refl. cbn [negb].
    rewrite (i32_val v) by lia.
    replace (v >? 4) with true by lia. reflexivity.
  Qed.
  (** the settings of the image are lost for a spectrum from elsewhere without picture *)
  Theorem C107_msa_refuted : forall v o c am m, with_detector nothing_scanned (common_meta f64 radians v o c) m ->
    lookup (str "acquisition") (update am m) = Some (Dict [(str "scan", Dict [(str "detectors", Dict [(str "EDS", Dict (common_meta f64 radians v o c))])])]) /\
    (forall k, k <> str "acquisition" -> lookup k (update am m) = lookup k am).
  Proof.
    intros v o c am m (a & s & d & A & S & D & ->). injection A as <-. injection S as <-. injection D as <-. split.
    - rewrite update_last. reflexivity.
    - intros k N. rewrite update_last. cbn. apply eqb_str_neq in N. cbn in N. rewrite N. reflexivity.
  Qed.
End Whole.
(** * Compressed files *)
Theorem C107_recognised : forall lazy f, recognised lazy f = Ok tt <-> lazy = false /\ exists a b r, f = [66; 90; a; b; 49; 65; 89; 38; 83; 89] ++ r.
Proof.
  intros lazy f. unfold recognised, is_gzip, is_bzip2. split.
  - destruct lazy; [discriminate|]. intros H. split; [reflexivity|].
    do 10 (destruct f as [|? f]; [cbn in H; repeat (match goal with H : context [if ?b then _ else _] |- _ => destruct b; cbn in H end); discriminate|]).
    cbn [List.length Nat.ltb Nat.leb firstn skipn bind eqb_str] in H.
    match goal with H : (if ?b then _ else _) = _ |- _ => destruct b; [discriminate|] end.
    match goal with H : (if ?b then _ else _) = _ |- _ => destruct b eqn:E; [|discriminate] end.
    repeat (apply andb_prop in E; destruct E as [E ?]); repeat match goal with H : _ && _ = true |- _ => apply andb_prop in H; destruct H end.
    repeat match goal with H : (_ =? _) = true |- _ => apply Z.eqb_eq in H; subst end. eexists _, _, _. reflexivity.
  - intros (-> & a & b & r & ->). reflexivity.
Qed.

(** * Examples *)
Example ex_varuint : reads read_varuint32 [185; 10] 1337 /\ varint 1337 = [185; 10] /\ varint 127 = [127] /\ varint 128 = [128; 1].
Proof. split; [apply (C106_varuint [185] 10); split; [constructor; [lia|constructor]|lia]|]. repeat split; reflexivity. Qed.
Example ex_oxide : reads read_oxide [13; 2; 3] (str "Al2O3") /\ symbol_of 26 = str "Fe" /\ symbol_of 118 = str "Og" /\ read_element_family [79; 2; 9] = Ok ((str "Au", str "L"), [9]).
Proof. split; [apply (C106_oxide 13 2 3); unfold atomic; lia|]. repeat split; reflexivity. Qed.

Definition ex_f64 (w : Z) : Q := (w # 2).
Definition ex_float (s : pystr) : res Q := match s with [c] => Ok (inject_Z (c - 48)) | _ => Err ValueError end.
Definition ex_xml : xml := Elem (str "FeiImage") [] [] [] [
  Elem (str "time") [] (str "2021-03-04T05:06:07") [] []; Elem (str "pixelWidth") [(str "unit", str "um")] (str "2") [] []; Elem (str "pixelHeight") [(str "unit", str "um")] (str "3") [] [];
  Elem (str "acquisition") [] [] [] [Elem (str "scan") [] [] [] [Elem (str "scanScale") [] (str "1") [] []; Elem (str "detectors") [] [] [] [Elem (str "BSE") [] (str "on") [] []]]]].
Definition ex_tiff (b : list Z) : res (regular * option xml) := match b with [42] => Ok (Regular U1 [2; 3] [1; 2; 3; 4; 5; 6], Some ex_xml) | _ => Err ValueError end.
Definition ex_eds : eds := {| e_tension := 30000; e_elevation := 1; e_azimuth := 2; e_live := 3; e_real := 4; e_slow := 5; e_fast := 6; e_resolution := 7; e_id := str "id"; e_optical := 8; e_distance := 9; e_area := 10;
                             e_detector := 11; e_tilt := 12; e_ccorr := 13; e_type := 3; e_corr := 2 |}.
Definition ex_common (n : Z) : common := {| c_cutout := None; c_offset := 20; c_dispersion := 40; c_counts := [1; 300; 70000]; c_eds := ex_eds; c_included := [13; 26]; c_excluded := [6]; c_bins := [-5; 5];
  c_oxides := [(13, 2, 3)]; c_auto := true; c_nr := n; c_families := [(79, 2)]; c_drift := 1; c_ignored := [8] |}.
Definition ex_line : linescan := {| l_x1 := 1; l_y1 := 2; l_x2 := 3; l_y2 := 4; l_bins := 2; l_offset := 5; l_dispersion := 6; l_eds := ex_eds; l_rows := [[1; 2]; [300; 4]; [5; 6]]; l_real := Each [2; 4; 6]; l_live := Same 8; l_accurate := true |}.
Definition ex_map : mapscan := {| m_box := (1, 2, 3, 4); m_colours := [9]; m_width := 2; m_bins := 2; m_offset := 5; m_dispersion := 6; m_eds := ex_eds;
  m_rows := [[[1; 2]; [3; 4]]; [[5; 6]; [7; 200]]; [[9; 10]; [11; 12]]]; m_real := Same 2; m_live := Each [[2; 4]; [6; 8]; [10; 12]] |}.
Definition ex_image : image := {| i_tiff := [42]; i_label := [181; 109]; i_analyses := [ASpot (ex_common 1) 5 6; ALine (ex_common 2) ex_line; AConstructive (ex_common 9) (str "a") [(1, 2)]; AMap (ex_common 3) ex_map; AMsa (ex_common 4)] |}.
Lemma ex_common_ok : forall n, 0 <= n < 100 -> common_ok (ex_common n).
Proof.
  intros n N. unfold common_ok, ex_common, few, small, atomic, eds_ok, text_ok, small. cbn.
  repeat match goal with |- _ /\ _ => split | |- Forall _ _ => constructor | |- True => exact I | |- _ = _ => reflexivity end; try (cbn; lia); try (unfold small; lia).
Qed.
Definition ex_am : dict := [(str "time", Txt (str "2021-03-04T05:06:07")); (str "pixelWidth", Dict [(str "value", Txt (str "2")); (str "unit", Txt (str "um"))]); (str "pixelHeight", Dict [(str "value", Txt (str "3")); (str "unit", Txt (str "um"))]);
  (str "acquisition", Dict [(str "scan", Dict [(str "scanScale", Txt (str "1")); (str "detectors", Dict [(str "BSE", Txt (str "on"))]); (str "fieldSize", Num (6 # 1000000))])])].
Lemma ex_picture : picture ex_float ex_tiff [42] = Ok (ex_am, Grey (Regular U1 [2; 3] [1; 2; 3; 4; 5; 6])).
Proof. vm_compute. reflexivity. Qed.
Lemma ex_dated : dated ex_am (Some (str "2021-03-04", str "05:06:07")).
Proof. unfold dated. split; [intros H; vm_compute in H; intuition discriminate|]. split; [intros H; vm_compute in H; intuition discriminate|reflexivity]. Qed.
Ltac put_detector := eexists _, _, _; split; [reflexivity|]; split; [reflexivity|]; split; reflexivity.
Definition id_rad (q : Q) : Q := q.
Example ex_signals : exists l, image_signals ex_f64 id_rad ex_float ex_tiff 3 ex_image l /\ List.length l = 6%nat.
Proof.
  eexists. split.
  - exists ex_am. eexists _, _. split; [|split; [|reflexivity]].
    + exists (Grey (Regular U1 [2; 3] [1; 2; 3; 4; 5; 6])), 2, 3, [], [along "y" (3 * (1 # 1000000) / (1 # 1000000)) 2 [181; 109]; along "x" (2 * (1 # 1000000) / (1 # 1000000)) 3 [181; 109]]. eexists.
      split; [exact ex_picture|]. split; [reflexivity|]. split; [|split; [exact ex_dated|reflexivity]]. right. eexists _, _, _, _, _, _, _, _, _.
      split; [reflexivity|]. split; [reflexivity|]. split; [reflexivity|]. split; [right; right; left; split; [split; vm_compute; [reflexivity|discriminate]|split; reflexivity]|].
      split; [reflexivity|]. split; [right; eexists _, _, _, _, _; split; [reflexivity|]; split; [reflexivity|]; split; [reflexivity|]; split; [reflexivity|]; split; [right; exists 117, [109]; split; [reflexivity|]; split; [discriminate|cbn; tauto]|reflexivity]|].
      split; [reflexivity|]. split; [right; eexists _, _, _, _, _; split; [reflexivity|]; split; [reflexivity|]; split; [reflexivity|]; split; [reflexivity|]; split; [right; exists 117, [109]; split; [reflexivity|]; split; [discriminate|cbn; tauto]|reflexivity]|].
      reflexivity.
    + assert (O : old_of ex_float 3 ex_am None) by (left; discriminate).
      constructor; [|constructor; [|constructor; [|constructor; [|constructor; [|constructor]]]]].
      * eapply ShowSpot; [exact O|reflexivity|put_detector|unfold small; lia|unfold small; lia|put_detector|exact ex_dated].
      * eapply ShowLine; [exact O|reflexivity|put_detector| |put_detector|exact ex_dated]. unfold line_ok, ex_line, few, small, eds_ok, text_ok, small, stamps_ok, long. cbn.
        repeat match goal with |- _ /\ _ => split | |- Forall _ _ => constructor | |- True => exact I | |- _ = _ => reflexivity end; try (cbn; lia); try (unfold small; lia).
      * eapply ShowConstructive; [exact O|reflexivity|put_detector|split; [reflexivity|unfold small; cbn; lia]|unfold few, small; cbn; lia|constructor; [unfold small; cbn; lia|constructor]].
      * eapply ShowMap; [exact O|reflexivity|put_detector| |put_detector|exact ex_dated|reflexivity|reflexivity|reflexivity|reflexivity|reflexivity| |discriminate|discriminate].
        -- unfold map_ok, ex_map, few, small, eds_ok, text_ok, small, stamps_ok, long, box_ok. cbn.
           repeat match goal with |- _ /\ _ => split | |- Forall _ _ => constructor | |- True => exact I | |- _ = _ => reflexivity end; try (cbn; lia); try (unfold small; lia).
        -- right; right; left. split; [split; vm_compute; [reflexivity|discriminate]|split; reflexivity].
      * eapply ShowMsa with (d := Some (str "2021-03-04", str "05:06:07")); [exact O|reflexivity|put_detector|].
        split; [intros H; vm_compute in H; intuition discriminate|]. split; [intros H; vm_compute in H; intuition discriminate|reflexivity].
  - reflexivity.
Qed.
(** the file with that image is read *)
Definition ex_bytes : list Z := file_bytes 3 [ex_image] [AMsa (ex_common 5)] [].
Example ex_read : exists l, read_elid ex_f64 id_rad ex_float ex_tiff ex_bytes = Ok (l, []) /\
  map s_title l = [[181; 109]; [181; 109] ++ str ", Spot 1"; [181; 109] ++ str ", Line 2"; [181; 109] ++ str ", Map 3"; [181; 109] ++ str ", MSA 4"] /\
  map (fun s => match s_data s with Spectrum c => c | Line _ r => List.concat r | Map _ r => List.concat (List.concat r) | Grey a => r_flat a | Colour _ => [] end) l =
    [[1; 2; 3; 4; 5; 6]; [1; 300; 70000]; [1; 2; 300; 4; 5; 6]; [1; 2; 3; 4; 5; 6; 7; 200; 9; 10; 11; 12]; [1; 300; 70000]].
Proof. eexists. split; [vm_compute; reflexivity|]. split; vm_compute; reflexivity. Qed.
(** a file of version 0, with the working distance of the image *)
Example ex_old : exists m, old_of ex_float 0 [(str "workingDistance", Dict [(str "value", Txt (str "6")); (str "unit", Txt (str "mm"))]); (str "acquisition", Dict [(str "scan", Dict [(str "spotSize", Txt (str "5"))])])]
    (Some {| o_distance := 6 * (1 # 1000); o_large := true |}) /\ lookup (str "slow_peaking_time") (eds_meta ex_f64 id_rad 0 (Some {| o_distance := 6 * (1 # 1000); o_large := true |}) ex_eds) = Some (Num m) /\ m = (2 # 1000000)%Q.
Proof.
  eexists. split; [|split; [reflexivity|reflexivity]]. split; [reflexivity|]. eexists _, _, _, _, _. split; [reflexivity|]. split; [reflexivity|]. split; [reflexivity|]. split; [reflexivity|]. split; [reflexivity|]. split; [reflexivity|].
  split; [intros _; vm_compute; discriminate|reflexivity].
Qed.
Example ex_recognised : recognised false (str "BZh91AY&SY" ++ [1; 2; 3]) = Ok tt /\ recognised true (str "BZh91AY&SY") = Err NotImplementedError /\ recognised false [31; 139; 8] = Err OtherError.
Proof. repeat split; reflexivity. Qed.
Example ex_no_picture : read_image ex_f64 id_rad ex_float ex_tiff 1 (tiff_bytes None ++ text (str "empty") ++ listed (analysis_bytes 1) []) = Err AttributeError.
Proof. vm_compute. reflexivity. Qed.
Example ex_spot_kept : read_elid ex_f64 id_rad ex_float ex_tiff (file_bytes 1 [] [ASpot (ex_common 1) 5 6] []) = Err KeyError.
Proof. vm_compute. reflexivity. Qed.

Print Assumptions C106_varuint.
Print Assumptions C106_numbers.
Print Assumptions C106_texts.
Print Assumptions C106_elements.
Print Assumptions C106_oxide.
Print Assumptions C106_eds.
Print Assumptions C107_analysis.
Print Assumptions C107_file.
Print Assumptions C107_no_picture_refuted.
Print Assumptions C107_spot_refuted.
Print Assumptions C107_msa_refuted.
Print Assumptions C107_version.
Print Assumptions C107_recognised.
Print Assumptions C108_xml.
Print Assumptions C108_units.
Print Assumptions C108_prefix.
Print Assumptions C108_picture.
Print Assumptions C108_image.
