(** C107: the analyses of a Phenom ELID file become signals with the stored counts in their places, axes, title and
    metadata; the whole file becomes the signals of its images in their order. *)
From Coq Require Import QArith ZifyBool.
From Verif Require Import Base Text Bytes Utf8 HierModel HierProps XmlModel ArrayModel PhModel PhProps.
Local Open Scope Z_scope.

(** * How analyses are stored *)
Record common := { c_cutout : option (list Z); c_offset : Z; c_dispersion : Z; c_counts : list Z; c_eds : eds; c_included : list Z; c_excluded : list Z;
                   c_bins : list Z; c_oxides : list (Z * Z * Z); c_auto : bool; c_nr : Z; c_families : list (Z * Z); c_drift : Z; c_ignored : list Z }.
Definition tiff_bytes (t : option (list Z)) : list Z := match t with None => u32 0 | Some b => u32 (Z.of_nat (List.length b)) ++ b end.
Definition tiff_ok (t : option (list Z)) : Prop := match t with None => True | Some b => b <> [] /\ few b end.
Definition family_bytes (f : Z * Z) : list Z := [fst f; snd f].
Definition spectrum_bytes (o d : Z) (l : list Z) : list Z := w64 o ++ w64 d ++ listed varint l.
Definition common_bytes (v : Z) (c : common) : list Z :=
  tiff_bytes (c_cutout c) ++ spectrum_bytes (c_offset c) (c_dispersion c) (c_counts c) ++ eds_bytes v (c_eds c) ++ collection (c_included c) ++ collection (c_excluded c) ++
  listed i32 (c_bins c) ++ listed oxide_bytes (c_oxides c) ++ flag (c_auto c) ++ i32 (c_nr c) ++ listed family_bytes (c_families c) ++
  (if 2 <=? v then u8 (c_drift c) else []) ++ (if 4 <=? v then collection (c_ignored c) else []).
Definition common_ok (c : common) : Prop :=
  tiff_ok (c_cutout c) /\ small 64 (c_offset c) /\ small 64 (c_dispersion c) /\ few (c_counts c) /\ Forall (fun n => 0 <= n) (c_counts c) /\ eds_ok (c_eds c) /\
  (few (c_included c) /\ Forall atomic (c_included c)) /\ (few (c_excluded c) /\ Forall atomic (c_excluded c)) /\
  (few (c_bins c) /\ Forall (fun n => - 2 ^ 31 <= n < 2 ^ 31) (c_bins c)) /\ (few (c_oxides c) /\ Forall (fun o => atomic (fst (fst o))) (c_oxides c)) /\
  - 2 ^ 31 <= c_nr c < 2 ^ 31 /\ (few (c_families c) /\ Forall (fun f => atomic (fst f) /\ 1 <= snd f <= 6) (c_families c)) /\
  (few (c_ignored c) /\ Forall atomic (c_ignored c)).
(** times of all points, or one for all *)
Inductive stamps (A : Type) := Each (l : A) | Same (w : Z).
Arguments Each {A} l. Arguments Same {A} w.
Definition is_each {A} (t : stamps A) : bool := match t with Each _ => true | Same _ => false end.
Record linescan := { l_x1 : Z; l_y1 : Z; l_x2 : Z; l_y2 : Z; l_bins : Z; l_offset : Z; l_dispersion : Z; l_eds : eds; l_rows : list (list Z);
                     l_real : stamps (list Z); l_live : stamps (list Z); l_accurate : bool }.
Record mapscan := { m_box : Z * Z * Z * Z; m_colours : list Z; m_width : Z; m_bins : Z; m_offset : Z; m_dispersion : Z; m_eds : eds; m_rows : list (list (list Z));
                    m_real : stamps (list (list Z)); m_live : stamps (list (list Z)) }.
Inductive analysis :=
  | AMsa (c : common) | ASpot (c : common) (x y : Z) | ALine (c : common) (l : linescan) | AMap (c : common) (m : mapscan)
  | ADifference (c : common) (a b : Z) | ARegion (c : common) (le to ri bo : Z) | AConstructive (c : common) (s : pystr) (sources : list (Z * Z)).
Definition stamps_bytes {A} (enc : A -> list Z) (t : stamps A) : list Z := match t with Each l => enc l | Same w => w64 w end.
Definition line_bytes (v : Z) (l : linescan) : list Z :=
  w64 (l_x1 l) ++ w64 (l_y1 l) ++ w64 (l_x2 l) ++ w64 (l_y2 l) ++ u32 (Z.of_nat (List.length (l_rows l))) ++ u32 (l_bins l) ++ w64 (l_offset l) ++ w64 (l_dispersion l) ++
  eds_bytes v (l_eds l) ++ flag (is_each (l_real l)) ++ flag (is_each (l_live l)) ++ flat_map (flat_map varint) (l_rows l) ++
  stamps_bytes (flat_map w64) (l_real l) ++ stamps_bytes (flat_map w64) (l_live l) ++ flag (l_accurate l).
Definition box_bytes (b : Z * Z * Z * Z) : list Z := let '(le, to, ri, bo) := b in w64 le ++ w64 to ++ w64 ri ++ w64 bo.
Definition map_bytes (v : Z) (m : mapscan) : list Z :=
  box_bytes (m_box m) ++ listed w64 (m_colours m) ++ u32 (m_width m) ++ u32 (Z.of_nat (List.length (m_rows m))) ++ u32 (m_bins m) ++ w64 (m_offset m) ++ w64 (m_dispersion m) ++
  eds_bytes v (m_eds m) ++ flag (is_each (m_real m)) ++ flag (is_each (m_live m)) ++ flat_map (flat_map (flat_map varint)) (m_rows m) ++
  stamps_bytes (flat_map (flat_map w64)) (m_real m) ++ stamps_bytes (flat_map (flat_map w64)) (m_live m).
Definition source_bytes (s : Z * Z) : list Z := u32 (fst s) ++ w64 (snd s).
Definition analysis_bytes (v : Z) (a : analysis) : list Z :=
  match a with
  | AMsa c => u8 1 ++ common_bytes v c
  | ASpot c x y => u8 2 ++ common_bytes v c ++ w64 x ++ w64 y
  | ALine c l => u8 3 ++ common_bytes v c ++ line_bytes v l
  | AMap c m => u8 4 ++ common_bytes v c ++ map_bytes v m
  | ADifference c a b => u8 5 ++ common_bytes v c ++ u32 a ++ u32 b
  | ARegion c le to ri bo => u8 6 ++ common_bytes v c ++ box_bytes (le, to, ri, bo)
  | AConstructive c s l => u8 7 ++ common_bytes v c ++ text s ++ listed source_bytes l
  end.
Definition stamps_ok {A} (ok : A -> Prop) (t : stamps A) : Prop := match t with Each l => ok l | Same w => small 64 w end.
Definition long {A} (n : nat) (p : A -> Prop) (l : list A) : Prop := List.length l = n /\ Forall p l.
Definition line_ok (l : linescan) : Prop :=
  Forall (small 64) [l_x1 l; l_y1 l; l_x2 l; l_y2 l; l_offset l; l_dispersion l] /\ small 32 (l_bins l) /\ few (l_rows l) /\ eds_ok (l_eds l) /\
  Forall (long (Z.to_nat (l_bins l)) (small 32)) (l_rows l) /\
  stamps_ok (long (List.length (l_rows l)) (small 64)) (l_real l) /\ stamps_ok (long (List.length (l_rows l)) (small 64)) (l_live l).
Definition box_ok (b : Z * Z * Z * Z) : Prop := let '(le, to, ri, bo) := b in small 64 le /\ small 64 to /\ small 64 ri /\ small 64 bo.
Definition map_ok (m : mapscan) : Prop :=
  box_ok (m_box m) /\ (few (m_colours m) /\ Forall (small 64) (m_colours m)) /\ small 32 (m_width m) /\ small 32 (m_bins m) /\ small 64 (m_offset m) /\ small 64 (m_dispersion m) /\
  few (m_rows m) /\ eds_ok (m_eds m) /\ Forall (long (Z.to_nat (m_width m)) (long (Z.to_nat (m_bins m)) (small 32))) (m_rows m) /\
  stamps_ok (long (List.length (m_rows m)) (long (Z.to_nat (m_width m)) (small 64))) (m_real m) /\ stamps_ok (long (List.length (m_rows m)) (long (Z.to_nat (m_width m)) (small 64))) (m_live m).

(** * What they become *)
(** [m'] is [m] with [e] for the EDS detector *)
Definition with_detector (m e m' : dict) : Prop := exists a s d,
  lookup (str "acquisition") m = Some (Dict a) /\ lookup (str "scan") a = Some (Dict s) /\ lookup (str "detectors") s = Some (Dict d) /\
  m' = put (str "acquisition") (Dict (put (str "scan") (Dict (put (str "detectors") (Dict (put (str "EDS") (Dict e) d)) s)) a)) m.
(** a date and a time with a T between them *)
Definition dated (m : dict) (d : option (pystr * pystr)) : Prop :=
  match d with
  | None => lookup (str "time") m = None
  | Some (a, b) => ~ In 84 a /\ ~ In 84 b /\ lookup (str "time") m = Some (Txt (a ++ [84] ++ b))
  end.
(** metres, or thousandths, millionths, thousand-millionths of them *)
Definition unit_for (q scale : Q) (unit : pystr) : Prop :=
  ((1 < q)%Q /\ scale = 1%Q /\ unit = str "m") \/ ((1 # 1000 < q <= 1)%Q /\ scale = (1 # 1000)%Q /\ unit = str "mm") \/
  ((1 # 1000000 < q <= 1 # 1000)%Q /\ scale = (1 # 1000000)%Q /\ unit = [181; 109]) \/ ((1 # 1000000000 < q <= 1 # 1000000)%Q /\ scale = (1 # 1000000000)%Q /\ unit = str "nm") \/
  ((q <= 1 # 1000000000)%Q /\ scale = 1%Q /\ unit = str "m").
Definition nothing_scanned : dict := [(str "acquisition", Dict [(str "scan", Dict [(str "detectors", Dict [])])])].

Lemma unit_ok : forall q scale unit, unit_for q scale unit -> exists prefix, get_unit q = (scale, prefix) /\ prefix ++ [109] = unit.
Proof.
  assert (T : forall q t, (t < q)%Q -> above q t = true). { intros q t H. unfold above. destruct (Qle_bool q t) eqn:E; [|reflexivity]. apply Qle_bool_iff in E. exfalso. apply (Qlt_not_le _ _ H E). }
  assert (F : forall q t, (q <= t)%Q -> above q t = false). { intros q t H. unfold above. apply Qle_bool_iff in H. rewrite H. reflexivity. }
  intros q scale unit. unfold get_unit.
  intros [(H & -> & ->)|[([H K] & -> & ->)|[([H K] & -> & ->)|[([H K] & -> & ->)|(H & -> & ->)]]]].
  - rewrite (T q 1%Q) by assumption. exists []. split; reflexivity.
  - rewrite (F q 1%Q), (T q (1 # 1000)%Q) by assumption. exists [109]. split; reflexivity.
  - rewrite (F q 1%Q), (F q (1 # 1000)%Q), (T q (1 # 1000000)%Q); try assumption; [exists [181]; split; reflexivity|]. eapply Qle_trans; [exact K|]. unfold Qle; cbn; lia.
  - rewrite (F q 1%Q), (F q (1 # 1000)%Q), (F q (1 # 1000000)%Q), (T q (1 # 1000000000)%Q); try assumption; [exists [110]; split; reflexivity| |]; (eapply Qle_trans; [exact K|]; unfold Qle; cbn; lia).
  - rewrite (F q 1%Q), (F q (1 # 1000)%Q), (F q (1 # 1000000)%Q), (F q (1 # 1000000000)%Q); try assumption; [exists []; split; reflexivity| | |]; (eapply Qle_trans; [exact H|]; unfold Qle; cbn; lia).
Qed.

Section File.
  Variable f64 : Z -> Q.
  Variable radians : Q -> Q.
  Variable float : pystr -> res Q.
  Variable tiff : list Z -> res (regular * option xml).
  Local Notation picture := (picture float tiff).

  Definition common_meta (v : Z) (o : option old) (c : common) : dict :=
    eds_meta f64 radians v o (c_eds c) ++
    [(str "offset", Num (f64 (c_offset c))); (str "dispersion", Num (f64 (c_dispersion c))); (str "included_elements", Names (map symbol_of (c_included c)));
     (str "excluded_elements", Names (map symbol_of (c_excluded c))); (str "background_fit_bins", Ints (c_bins c)); (str "selected_oxides", Names (map oxide_text (c_oxides c)));
     (str "auto_id", Flag (c_auto c)); (str "order_nr", Int (c_nr c)); (str "family_overrides", Pairs (map (fun f => (symbol_of (fst f), shell_of (snd f))) (c_families c)));
     (str "drift_correction", Txt (if 2 <=? v then one_of ["unknown"; "on"; "off"]%string "unknown" (c_drift c) else str "unknown"));
     (str "ignored_elements", Names (if 4 <=? v then map symbol_of (c_ignored c) else []))].
  (** metadata of the cut-out picture of an analysis *)
  Definition cutout (c : common) (m : dict) : Prop :=
    match c_cutout c with
    | None => m = nothing_scanned
    | Some b => exists p d, picture b = Ok (p, d) /\ m = match p with [] => nothing_scanned | _ => p end
    end.
  Definition seconds {A B} (f : A -> B) (n : nat -> Q -> B) (k : nat) (t : stamps A) : B := match t with Each l => f l | Same w => n k (f64 w) end.
  Definition line_meta (v : Z) (o : option old) (c : common) (l : linescan) : dict :=
    let e := l_eds l in
    let e := {| e_tension := e_tension e; e_elevation := e_elevation e; e_azimuth := e_azimuth e; e_live := e_live (c_eds c); e_real := e_real (c_eds c); e_slow := e_slow e; e_fast := e_fast e;
                e_resolution := e_resolution e; e_id := e_id e; e_optical := e_optical e; e_distance := e_distance e; e_area := e_area e; e_detector := e_detector e; e_tilt := e_tilt e;
                e_ccorr := e_ccorr e; e_type := e_type e; e_corr := e_corr e |} in
    eds_meta f64 radians v o e ++
    [(str "begin", Dict [(str "x", Num (f64 (l_x1 l))); (str "y", Num (f64 (l_y1 l)))]); (str "end", Dict [(str "x", Num (f64 (l_x2 l))); (str "y", Num (f64 (l_y2 l)))]);
     (str "offset", Num (f64 (l_offset l))); (str "dispersion", Num (f64 (l_dispersion l)));
     (str "real_time_values", Nums match l_real l with Each t => map f64 t | Same w => repeat (f64 w) (List.length (l_rows l)) end);
     (str "live_time_values", Nums match l_live l with Each t => map f64 t | Same w => repeat (f64 w) (List.length (l_rows l)) end);
     (str "high_accuracy_quantification", Flag (l_accurate l))].
  Definition map_meta (v : Z) (o : option old) (c : common) (m : mapscan) : dict :=
    let e := m_eds m in
    let e := {| e_tension := e_tension e; e_elevation := e_elevation e; e_azimuth := e_azimuth e; e_live := e_live (c_eds c); e_real := e_real (c_eds c); e_slow := e_slow e; e_fast := e_fast e;
                e_resolution := e_resolution e; e_id := e_id e; e_optical := e_optical e; e_distance := e_distance e; e_area := e_area e; e_detector := e_detector e; e_tilt := e_tilt e;
                e_ccorr := e_ccorr e; e_type := e_type e; e_corr := e_corr e |} in
    eds_meta f64 radians v o e ++
    [(str "real_time_values", Grid match m_real m with Each t => map (map f64) t | Same w => repeat (repeat (f64 w) (Z.to_nat (m_width m))) (List.length (m_rows m)) end);
     (str "live_time_values", Grid match m_live m with Each t => map (map f64) t | Same w => repeat (repeat (f64 w) (Z.to_nat (m_width m))) (List.length (m_rows m)) end)].
  (** the axis of energies, as that of the sum spectrum *)
  Definition energies (name : string) (c : common) (n : Z) : axis :=
    {| x_name := str name; x_offset := (f64 (c_offset c) / 1000)%Q; x_scale := (f64 (c_dispersion c) / 1000)%Q; x_size := n; x_units := str "keV"; x_navigate := false |}.
  Definition along (name : string) (scale : Q) (n : Z) (units : pystr) : axis := {| x_name := str name; x_offset := 0%Q; x_scale := scale; x_size := n; x_units := units; x_navigate := true |}.
  Definition spectrum (c : common) (title : pystr) (d : option (pystr * pystr)) (m : dict) : signal :=
    {| s_data := Spectrum (c_counts c); s_axes := [energies "Energy" c (Z.of_nat (List.length (c_counts c)))]; s_type := str "EDS_SEM"; s_title := title; s_date := d; s_om := m |}.
  Definition titled (label : pystr) (what : string) (c : common) : pystr := label ++ str ", " ++ str what ++ str " " ++ str_int (c_nr c).

  (** the signal of an analysis of an image with metadata [am] *)
  Inductive shows (v : Z) (label : pystr) (am : dict) : analysis -> option signal -> Prop :=
    | ShowMsa : forall c o p m d, old_of float v am o -> cutout c p -> with_detector p (common_meta v o c) m -> dated (update am m) d ->
        shows v label am (AMsa c) (Some (spectrum c (titled label "MSA" c) d (update am m)))
    | ShowSpot : forall c x y o p q m d, old_of float v am o -> cutout c p -> with_detector p (common_meta v o c) q -> small 64 x -> small 64 y ->
        with_detector am (common_meta v o c ++ [(str "position", Dict [(str "x", Num (f64 x)); (str "y", Num (f64 y))])]) m -> dated am d ->
        shows v label am (ASpot c x y) (Some (spectrum c (titled label "Spot" c) d m))
    | ShowLine : forall c l o p q m d, old_of float v am o -> cutout c p -> with_detector p (common_meta v o c) q -> line_ok l ->
        with_detector am (line_meta v o c l) m -> dated am d ->
        shows v label am (ALine c l) (Some
          {| s_data := Line [Z.of_nat (List.length (l_rows l)); l_bins l] (l_rows l);
             s_axes := [along "i" 1 (Z.of_nat (List.length (l_rows l))) (str "points"); energies "X-ray energy" c (l_bins l)];
             s_type := str "EDS_SEM"; s_title := titled label "Line" c; s_date := d; s_om := m |})
    | ShowMap : forall c z o p q m d a s f t k scale unit, old_of float v am o -> cutout c p -> with_detector p (common_meta v o c) q -> map_ok z ->
        with_detector am (map_meta v o c z) m -> dated am d ->
        lookup (str "acquisition") am = Some (Dict a) -> lookup (str "scan") a = Some (Dict s) ->
        lookup (str "fieldSize") s = Some (Num f) -> lookup (str "scanScale") s = Some (Txt t) -> float t = Ok k -> unit_for (f * k) scale unit ->
        m_rows z <> [] -> m_width z <> 0 ->
        shows v label am (AMap c z) (Some
          {| s_data := Map [Z.of_nat (List.length (m_rows z)); m_width z; m_bins z] (m_rows z);
             s_axes := [along "y" (f * k / scale / inject_Z (Z.of_nat (List.length (m_rows z)))) (Z.of_nat (List.length (m_rows z))) unit;
                        along "x" (f * k / scale / inject_Z (m_width z)) (m_width z) unit; energies "X-ray energy" c (m_bins z)];
             s_type := str "EDS_SEM"; s_title := titled label "Map" c; s_date := d; s_om := m |})
    | ShowDifference : forall c a b o p q m d, old_of float v am o -> cutout c p -> with_detector p (common_meta v o c) q -> small 32 a -> small 32 b ->
        with_detector am (common_meta v o c) m -> dated am d ->
        shows v label am (ADifference c a b) (Some (spectrum c (label ++ str ", Difference " ++ str_int a ++ str " - " ++ str_int b) d m))
    | ShowRegion : forall c le to ri bo o p q m d, old_of float v am o -> cutout c p -> with_detector p (common_meta v o c) q -> box_ok (le, to, ri, bo) ->
        with_detector am (common_meta v o c ++ [(str "rectangle", Dict [(str "left", Num (f64 le)); (str "top", Num (f64 to)); (str "right", Num (f64 ri)); (str "bottom", Num (f64 bo))])]) m -> dated am d ->
        shows v label am (ARegion c le to ri bo) (Some (spectrum c (titled label "Region" c) d m))
    | ShowConstructive : forall c s l o p q, old_of float v am o -> cutout c p -> with_detector p (common_meta v o c) q -> text_ok s -> few l -> Forall (fun x => small 32 (fst x) /\ small 64 (snd x)) l ->
        shows v label am (AConstructive c s l) None.
  Definition common_of (a : analysis) : common :=
    match a with AMsa c => c | ASpot c _ _ => c | ALine c _ => c | AMap c _ => c | ADifference c _ _ => c | ARegion c _ _ _ _ => c | AConstructive c _ _ => c end.

  (** * Proofs *)
  Lemma set_detector : forall m e m', with_detector m e m' -> set_in at_detectors (str "EDS") (Dict e) (Dict m) = Ok (Dict m').
  Proof. intros m e m' (a & s & d & A & S & D & ->). unfold at_detectors, at_scan. cbn [app set_in]. rewrite A, S, D. reflexivity. Qed.
  Lemma get_detector : forall m e m', with_detector m e m' -> get_in at_eds (Dict m') = Ok (Dict e).
  Proof.
    intros m e m' (a & s & d & A & S & D & ->). unfold at_eds, at_detectors, at_scan. cbn [app get_in].
    unfold get at 1. rewrite lookup_put, eqb_str_refl. cbn [bind]. unfold get at 1. rewrite lookup_put, eqb_str_refl. cbn [bind]. unfold get at 1. rewrite lookup_put, eqb_str_refl. cbn [bind].
    unfold get. rewrite lookup_put, eqb_str_refl. reflexivity.
  Qed.
  Lemma with_eds_ok : forall am e m, with_detector am e m -> with_eds am e = Ok m.
  Proof. intros am e m H. unfold with_eds. rewrite (set_detector _ _ _ H). reflexivity. Qed.
  Lemma date_ok : forall m d, dated m d -> date_of m = Ok d.
  Proof.
    intros m [[a b]|] H; unfold dated, date_of in *; [|rewrite H; reflexivity].
    destruct H as (A & B & ->). cbn [app]. rewrite split_char_app by assumption. rewrite split_char_nosep by assumption. reflexivity.
  Qed.
  Lemma with_date : forall am e m d, with_detector am e m -> dated am d -> date_of m = Ok d.
  Proof.
    intros am e m d (a & s & t & _ & _ & _ & ->) H. apply date_ok. unfold dated in *. rewrite lookup_put. exact H.
  Qed.
  Lemma reads_tiff : forall t, tiff_ok t -> (forall b, t = Some b -> exists p, picture b = Ok p) ->
    reads (read_tiff float tiff) (tiff_bytes t) (match t with None => None | Some b => match picture b with Ok p => Some p | Err _ => None end end).
  Proof.
    clear f64 radians. intros [b|] T H; unfold read_tiff, tiff_bytes.
    - destruct T as [N L]. destruct (H b eq_refl) as [p E]. rewrite E. eapply reads_bind; [apply reads_u32, L|].
      replace (Z.of_nat (List.length b) =? 0) with false by (destruct b; [congruence|cbn [List.length]; lia]).
      eapply reads_end; [intros r; apply read_front; reflexivity|]. eapply reads_lift; [exact E|]. apply reads_ret.
    - rewrite <- (app_nil_r (u32 0)). eapply reads_bind; [apply reads_u32; unfold small; lia|]. apply reads_ret.
  Qed.
  Lemma reads_spectrum : forall o d l, small 64 o -> small 64 d -> few l -> Forall (fun n => 0 <= n) l -> reads (read_spectrum f64) (spectrum_bytes o d l) (f64 o, f64 d, l).
  Proof.
    intros o d l O D L H. unfold read_spectrum, spectrum_bytes. do 2 (eapply reads_bind; [apply reads_f64; assumption|]).
    eapply reads_end.
    - apply (reads_listed Z Z read_varuint32 varint (fun x => x)); [exact L|]. eapply Forall_impl; [|exact H]. intros n. apply reads_varint.
    - rewrite map_id_eq. apply reads_ret.
  Qed.
  Lemma set_new : forall k v d, lookup (str k) d = None -> set k v d = d ++ [(str k, v)].
  Proof.
    intros k v d. unfold set. induction d as [|[k' v'] d IH]; cbn; [reflexivity|]. destruct (eqb_str (str k) k'); [discriminate|]. intros H. rewrite IH by assumption. reflexivity.
  Qed.
  Lemma eds_cases : forall (F : dict -> Prop) v o e,
    (forall b, F (front f64 radians v o e ++
       (match o with Some o => [(str "working_distance", Num (o_distance o)); (str "detector_surface_area", Num (25 # 1000000))]
        | None => if b : bool then [(str "optical_working_distance", Num (f64 (e_optical e))); (str "working_distance", Num (f64 (e_distance e))); (str "detector_surface_area", Num (f64 (e_area e)));
                                (str "detector_distance", Num (f64 (e_detector e))); (str "sample_tilt_angle", Num (f64 (e_tilt e)))] else [] end) ++
       [(str "ccorrection", Num (f64 (e_ccorr e))); (str "detector_type", Txt (one_of ["Empty"; "FastSDD_C2"; "FastSDD_C5"; "FastSDD_WLS"]%string "Unknown" (e_type e)));
        (str "spectrum_correction", Txt (one_of ["unknown"; "linearized"; "raw"]%string "unknown" (e_corr e)))])) ->
    (forall b, F (front f64 radians v o e ++
       (match o with Some o => [(str "working_distance", Num (o_distance o)); (str "detector_surface_area", Num (25 # 1000000))]
        | None => if b : bool then [(str "optical_working_distance", Num (f64 (e_optical e))); (str "working_distance", Num (f64 (e_distance e))); (str "detector_surface_area", Num (f64 (e_area e)));
                                (str "detector_distance", Num (f64 (e_detector e))); (str "sample_tilt_angle", Num (f64 (e_tilt e)))] else [] end) ++
       [(str "ccorrection", Int 0); (str "detector_type", Txt (str "FastSDD_C2")); (str "spectrum_correction", Txt (str "unknown"))])) ->
    F (eds_meta f64 radians v o e).
  Proof. intros F v o e A B. unfold eds_meta. destruct (3 <=? v); [apply A|apply B]. Qed.
  Lemma reads_common : forall v am o c p m, common_ok c -> old_of float v am o -> cutout c p -> with_detector p (common_meta v o c) m ->
    reads (read_common f64 radians float tiff v am) (common_bytes v c) (m, c_counts c).
  Proof.
    intros v am o c p m (T & W1 & W2 & L & C & E & (I1 & I2) & (X1 & X2) & (B1 & B2) & (O1 & O2) & N & (F1 & F2) & (G1 & G2)) O K M.
    unfold read_common, common_bytes.
    eapply reads_bind; [apply reads_tiff; [exact T|]|].
    { intros b Eb. unfold cutout in K. rewrite Eb in K. destruct K as (q & d & -> & _). eexists. reflexivity. }
    eapply reads_bind; [apply reads_spectrum; assumption|]. cbv beta iota.
    eapply reads_bind; [apply C106_eds; [exact E|exact O]|].
    eapply reads_bind; [apply reads_collection; assumption|]. eapply reads_bind; [apply reads_collection; assumption|].
    eapply reads_bind; [apply (reads_listed Z Z read_int32 i32 (fun x => x)); [exact B1|]; eapply Forall_impl; [|exact B2]; intros n; apply reads_i32|]. rewrite map_id_eq.
    eapply reads_bind; [apply (reads_listed _ _ read_oxide oxide_bytes oxide_text); [exact O1|]; eapply Forall_impl; [|exact O2]; intros [[z a] b] Hz; apply C106_oxide; exact Hz|].
    eapply reads_bind; [apply reads_flag|]. eapply reads_bind; [apply reads_i32; exact N|].
    eapply reads_bind; [apply (reads_listed _ _ read_element_family family_bytes (fun f => (symbol_of (fst f), shell_of (snd f)))); [exact F1|]; eapply Forall_impl; [|exact F2]; intros f [Z1 Z2]; apply (C106_elements (fst f)); assumption|].
    eapply reads_bind with (x := if 2 <=? v then one_of ["unknown"; "on"; "off"]%string "unknown" (c_drift c) else str "unknown").
    { replace (v >=? 2) with (2 <=? v) by lia. destruct (2 <=? v); [|apply reads_ret]. rewrite <- drift_name. apply (reads_last _ _ read_uint8). apply reads_u8. }
    rewrite <- (app_nil_r (if 4 <=? v then collection (c_ignored c) else [])).
    eapply reads_bind with (x := if 4 <=? v then map symbol_of (c_ignored c) else []).
    { replace (v >=? 4) with (4 <=? v) by lia. destruct (4 <=? v); [apply reads_collection; assumption|apply reads_ret]. }
    cbv zeta. eapply reads_lift; [|apply reads_ret].
    match goal with |- context [set "ignored_elements" ?a ?d] => replace (set "ignored_elements" a d) with (common_meta v o c) end.
    2:{ unfold common_meta. apply (eds_cases (fun d => d ++ _ = set "ignored_elements" _ (set _ _ (set _ _ (set _ _ (set _ _ (set _ _ (set _ _ (set _ _ (set _ _ (set _ _ (set _ _ d))))))))))));
        intros b; destruct o; try destruct b; reflexivity. }
    replace (match _ with Some _ => _ | None => _ end) with p.
    { rewrite (set_detector _ _ _ M). reflexivity. }
    unfold cutout in K. destruct (c_cutout c) as [b|]; [|exact K]. destruct K as (q & d & -> & ->). destruct q; reflexivity.
  Qed.
  Lemma eds_known : forall v o c p m, with_detector p (common_meta v o c) m ->
    eds_of m = Ok (common_meta v o c, f64 (c_offset c), f64 (c_dispersion c), c_nr c).
  Proof.
    intros v o c p m H. unfold eds_of. rewrite (get_detector _ _ _ H). cbn [bind].
    assert (forall k x, lookup k (common_meta v o c) = Some x -> get k (Dict (common_meta v o c)) = Ok x) as G by (intros k x E; unfold get; rewrite E; reflexivity).
    rewrite (G (str "offset") (Num (f64 (c_offset c)))), (G (str "dispersion") (Num (f64 (c_dispersion c)))), (G (str "order_nr") (Int (c_nr c))); [reflexivity| | |];
      unfold common_meta; apply (eds_cases (fun d => lookup _ (d ++ _) = _)); intros b; destruct o; try destruct b; reflexivity.
  Qed.
  Lemma common_more : forall v o c k x, In k ["position"; "rectangle"]%string -> set k x (common_meta v o c) = common_meta v o c ++ [(str k, x)].
  Proof.
    intros v o c k x H. apply set_new. unfold common_meta. apply (eds_cases (fun d => lookup _ (d ++ _) = _)); intros b;
    (destruct H as [<-|[<-|[]]]; destruct o; try destruct b; reflexivity).
  Qed.
  Lemma common_times : forall v o c, lookup (str "live_time") (common_meta v o c) = Some (Num (f64 (e_live (c_eds c)))) /\ lookup (str "real_time") (common_meta v o c) = Some (Num (f64 (e_real (c_eds c)))).
  Proof. intros. split; unfold common_meta; apply (eds_cases (fun d => lookup _ (d ++ _) = _)); intros b; destruct o; try destruct b; reflexivity. Qed.
  Lemma reads_some : forall A (p : P A) e x, reads p e x -> reads (some p) e (Some x).
  Proof. intros A p e x H. unfold some. apply (reads_last _ _ p (fun a => Some a)). exact H. Qed.
  Lemma reads_nested : forall A B (p : P A) (enc : B -> list Z) (f : B -> A) (ok : B -> Prop) n k l, (forall x, ok x -> reads p (enc x) (f x)) ->
    long n (long k ok) l -> reads (times n (times k p)) (flat_map (flat_map enc) l) (map (map f) l).
  Proof.
    intros A B p enc f ok n k l H [<- L]. apply reads_times. eapply Forall_impl; [|exact L]. intros r [<- R]. apply reads_times. eapply Forall_impl; [|exact R]. exact H.
  Qed.
  Lemma reads_stamps : forall A B (ok : A -> Prop) (enc : A -> list Z) (p : P B) (f : A -> B) (k : Q -> B) t, (forall l, ok l -> reads p (enc l) (f l)) -> stamps_ok ok t ->
    reads (read_times f64 (is_each t) p k) (stamps_bytes enc t) (match t with Each l => f l | Same w => k (f64 w) end).
  Proof. intros A B ok enc p f k [l|w] H T; unfold read_times; cbn [is_each stamps_bytes stamps_ok] in *; [apply H; exact T|]. apply (reads_last _ _ (read_float64 f64) k). apply reads_f64. exact T. Qed.
  Lemma reads_words : forall n l, long n (small 64) l -> reads (times n (read_float64 f64)) (flat_map w64 l) (map f64 l).
  Proof. intros n l [<- H]. apply reads_times. eapply Forall_impl; [|exact H]. intros w. apply reads_f64. Qed.

  Theorem C107_analysis : forall v label am a s, common_ok (common_of a) -> shows v label am a s -> reads (read_analysis f64 radians float tiff v label am) (analysis_bytes v a) s.
  Proof.
    intros v label am a s C H. unfold read_analysis.
    destruct H as [c o p m d O K M D|c x y o p q m d O K Q X Y M D|c l o p q m d O K Q L M D|c z o p q m d a s f t k scale unit O K Q Z0 M D A S Fs Ts Fk U NR NW|c a b o p q m d O K Q A B M D|c le to ri bo o p q m d O K Q B M D|c s l o p q O K Q T L F];
      unfold analysis_bytes; (eapply reads_bind; [apply reads_u8|]); cbn [Z.eqb Pos.eqb common_of] in *.
    - apply reads_some. unfold read_msa. rewrite <- (app_nil_r (common_bytes v c)). eapply reads_bind; [eapply reads_common; eassumption|]. cbv beta iota.
      eapply reads_lift; [eapply eds_known; exact M|]. cbv beta iota. apply reads_done. unfold spot_signal. rewrite (date_ok _ _ D). reflexivity.
    - apply reads_some. unfold read_spot. eapply reads_bind; [eapply reads_common; eassumption|]. cbv beta iota.
      eapply reads_bind; [apply reads_f64; exact X|]. rewrite <- (app_nil_r (w64 y)). eapply reads_bind; [apply reads_f64; exact Y|].
      eapply reads_lift; [eapply eds_known; exact Q|]. cbv beta iota. rewrite common_more by (left; reflexivity).
      eapply reads_lift; [apply with_eds_ok; exact M|]. apply reads_done. unfold spot_signal. rewrite (with_date _ _ _ _ M D). reflexivity.
    - destruct L as (W & Lb & Lr & Le & Ld & L1 & L2). repeat match goal with H : Forall (small 64) (_ :: _) |- _ => inversion_clear H end.
      apply reads_some. unfold read_line. eapply reads_bind; [eapply reads_common; eassumption|]. cbv beta iota. unfold line_bytes.
      do 4 (eapply reads_bind; [apply reads_f64; assumption|]). do 2 (eapply reads_bind; [apply reads_u32; assumption|]). do 2 (eapply reads_bind; [apply reads_f64; assumption|]).
      eapply reads_bind; [apply C106_eds; [exact Le|exact O]|].
      eapply reads_lift; [eapply eds_known; exact Q|]. cbv beta iota.
      destruct (common_times v o c) as [CL CR].
      eapply reads_lift; [unfold get; rewrite CL; reflexivity|]. eapply reads_lift; [unfold get; rewrite CR; reflexivity|]. cbv zeta.
      do 2 (eapply reads_bind; [apply reads_flag|]). rewrite Nat2Z.id.
      eapply reads_bind.
      { apply (reads_nested Z Z read_cell varint (fun x => x) (small 32)); [intros x; apply reads_cell|]. split; [reflexivity|exact Ld]. }
      eapply reads_bind; [apply (reads_stamps _ _ (long (List.length (l_rows l)) (small 64)) _ _ (map f64)); [intros t; apply reads_words|exact L1]|].
      eapply reads_bind; [apply (reads_stamps _ _ (long (List.length (l_rows l)) (small 64)) _ _ (map f64)); [intros t; apply reads_words|exact L2]|].
      rewrite <- (app_nil_r (flag (l_accurate l))). eapply reads_bind; [apply reads_flag|]. cbv zeta.
      match goal with |- context [with_eds am ?e] => replace e with (line_meta v o c l) end.
      2:{ clear. unfold line_meta. cbv zeta. unfold eds_meta, front. cbn [e_tension e_elevation e_azimuth e_live e_real e_slow e_fast e_resolution e_id e_optical e_distance e_area e_detector e_tilt e_ccorr e_type e_corr].
          destruct o; [destruct (3 <=? v)|destruct (1 <=? v); destruct (3 <=? v)]; reflexivity. }
      eapply reads_lift; [apply with_eds_ok; exact M|]. apply reads_done. unfold line_signal. rewrite (with_date _ _ _ _ M D). cbn [bind].
      rewrite (map_ext _ (fun r => r)) by (intros; apply map_id_eq). rewrite map_id_eq. reflexivity.
    - destruct Z0 as (Bx & (C1 & C2) & Zw & Zb & Zo & Zd & Zr & Ze & Zn & Z1 & Z2). destruct (m_box z) as [[[le to] ri] bo] eqn:EB. destruct Bx as (B1 & B2 & B3 & B4).
      apply reads_some. unfold read_map. eapply reads_bind; [eapply reads_common; eassumption|]. cbv beta iota. unfold map_bytes, box_bytes. rewrite EB, <- !app_assoc.
      do 4 (eapply reads_bind; [apply reads_f64; assumption|]).
      eapply reads_bind; [apply (reads_listed _ _ (read_float64 f64) w64 f64); [exact C1|]; eapply Forall_impl; [|exact C2]; intros w; apply reads_f64|].
      do 3 (eapply reads_bind; [apply reads_u32; assumption|]). do 2 (eapply reads_bind; [apply reads_f64; assumption|]).
      eapply reads_bind; [apply C106_eds; [exact Ze|exact O]|].
      eapply reads_lift; [eapply eds_known; exact Q|]. cbv beta iota.
      destruct (common_times v o c) as [CL CR].
      eapply reads_lift; [unfold get; rewrite CL; reflexivity|]. eapply reads_lift; [unfold get; rewrite CR; reflexivity|]. cbv zeta.
      assert (exists m', with_detector am (set "real_time" (Num (f64 (e_real (c_eds c)))) (set "live_time" (Num (f64 (e_live (c_eds c)))) (eds_meta f64 radians v o (m_eds z)))) m') as [m' M'].
      { destruct M as (a' & s' & d' & Ma & Ms & Md & _). eexists. exists a', s', d'. repeat (split; [assumption|]). reflexivity. }
      eapply reads_lift; [apply with_eds_ok; exact M'|].
      do 2 (eapply reads_bind; [apply reads_flag|]). rewrite Nat2Z.id.
      eapply reads_bind.
      { apply (reads_times _ _ (times (Z.to_nat (m_width z)) (times (Z.to_nat (m_bins z)) read_cell)) (flat_map (flat_map varint)) (map (map (fun x => x)))).
        eapply Forall_impl; [|exact Zn]. intros r R. apply (reads_nested Z Z read_cell varint (fun x => x) (small 32)); [intros x; apply reads_cell|exact R]. }
      eapply reads_bind; [apply (reads_stamps _ _ (long (List.length (m_rows z)) (long (Z.to_nat (m_width z)) (small 64))) _ _ (map (map f64))); [intros u; apply (reads_nested _ _ (read_float64 f64) w64 f64 (small 64)); intros w; apply reads_f64|exact Z1]|].
      rewrite <- (app_nil_r (stamps_bytes _ (m_live z))).
      eapply reads_bind; [apply (reads_stamps _ _ (long (List.length (m_rows z)) (long (Z.to_nat (m_width z)) (small 64))) _ _ (map (map f64))); [intros u; apply (reads_nested _ _ (read_float64 f64) w64 f64 (small 64)); intros w; apply reads_f64|exact Z2]|].
      cbv beta. match goal with |- context [with_eds am (set "live_time_values" ?x ?y)] => replace (set "live_time_values" x y) with (map_meta v o c z) end.
      2:{ clear. unfold map_meta. cbv zeta. unfold eds_meta, front. cbn [e_tension e_elevation e_azimuth e_live e_real e_slow e_fast e_resolution e_id e_optical e_distance e_area e_detector e_tilt e_ccorr e_type e_corr].
          destruct o; [destruct (3 <=? v)|destruct (1 <=? v); destruct (3 <=? v)]; reflexivity. }
      eapply reads_lift; [apply with_eds_ok; exact M|]. apply reads_done. unfold map_signal.
      assert (forall k x, k <> str "detectors" -> lookup k s = Some x -> get_in (at_scan ++ [k]) (Dict m) = Ok x) as G.
      { intros k' x N E. destruct M as (a' & s' & d' & Ma & Ms & Md & ->). rewrite A in Ma. injection Ma as <-. rewrite S in Ms. injection Ms as <-.
        unfold at_scan. cbn [app get_in]. unfold get at 1. rewrite lookup_put, eqb_str_refl. cbn [bind]. unfold get at 1. rewrite lookup_put, eqb_str_refl. cbn [bind].
        unfold get. rewrite lookup_put. apply eqb_str_neq in N. rewrite N, E. reflexivity. }
      rewrite (G (str "fieldSize") (Num f)), (G (str "scanScale") (Txt t)) by (assumption || discriminate). cbn [bind to_float]. rewrite Fk. cbn [bind].
      destruct (unit_ok _ _ _ U) as (prefix & -> & <-). unfold bind at 1.
      replace ((Z.of_nat (List.length (m_rows z)) =? 0) || (m_width z =? 0)) with false by (destruct (m_rows z); [congruence|]; cbn [List.length]; lia).
      rewrite (with_date _ _ _ _ M D). cbn [bind].
      rewrite (map_ext _ (fun r => r)) by (intros; rewrite (map_ext _ (fun r => r)) by (intros; apply map_id_eq); apply map_id_eq). rewrite map_id_eq. reflexivity.
    - apply reads_some. unfold read_difference. eapply reads_bind; [eapply reads_common; eassumption|]. cbv beta iota.
      eapply reads_bind; [apply reads_u32; exact A|]. rewrite <- (app_nil_r (u32 b)). eapply reads_bind; [apply reads_u32; exact B|].
      eapply reads_lift; [eapply eds_known; exact Q|]. cbv beta iota.
      eapply reads_lift; [apply with_eds_ok; exact M|]. apply reads_done. unfold spot_signal. rewrite (with_date _ _ _ _ M D). reflexivity.
    - destruct B as (B1 & B2 & B3 & B4). apply reads_some. unfold read_region. eapply reads_bind; [eapply reads_common; eassumption|]. cbv beta iota. unfold box_bytes.
      do 3 (eapply reads_bind; [apply reads_f64; assumption|]). rewrite <- (app_nil_r (w64 bo)). eapply reads_bind; [apply reads_f64; assumption|].
      eapply reads_lift; [eapply eds_known; exact Q|]. cbv beta iota. rewrite common_more by (right; left; reflexivity).
      eapply reads_lift; [apply with_eds_ok; exact M|]. apply reads_done. unfold spot_signal. rewrite (with_date _ _ _ _ M D). reflexivity.
    - rewrite <- (app_nil_r (common_bytes v c ++ text s ++ listed source_bytes l)). eapply reads_bind; [|apply reads_ret]. unfold read_constructive.
      eapply reads_bind; [eapply reads_common; eassumption|]. eapply reads_bind; [apply reads_text; exact T|].
      rewrite <- (app_nil_r (listed source_bytes l)). eapply reads_bind; [|apply reads_ret].
      apply (reads_listed _ _ _ source_bytes (fun x => (fst x, f64 (snd x)))); [exact L|]. eapply Forall_impl; [|exact F]. intros [i w] [I W]. unfold source_bytes. cbn [fst snd] in *.
      eapply reads_bind; [apply reads_u32; exact I|]. apply (reads_last _ _ (read_float64 f64) (fun w => (i, w))). apply reads_f64. exact W.
  Qed.
End File.
