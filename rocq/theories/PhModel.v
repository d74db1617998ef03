(** Phenom ELID files: /repo/rsciio/phenom/_api.py.
    A file is the list of bytes behind the bzip2 compression (ElidReader._read, lines 217-224); reading beyond its end
    is an error, reading up to it gives what is there.
    The libraries are variables: the value of a 64-bit float, float() of a text, math.radians, and what tifffile makes
    of a picture, its elements and the XML tree of its FEI_TITAN tag.
    Simplifications: numbers are exact (no NaN, no infinity); units in metadata are texts; an empty XML text is None; the
    local time zone, the file's name and the mapping of metadata are left out. *)
From Coq Require Import QArith.
From Verif Require Import Base Text Bytes Utf8 HierModel XmlModel ArrayModel.
Local Open Scope Z_scope.

(** * Readers: from the bytes left to a value and the bytes left then *)
Definition P (A : Type) : Type := list Z -> res (A * list Z).
Definition ret {A} (a : A) : P A := fun b => Ok (a, b).
Definition fail {A} (e : exn) : P A := fun _ => Err e.
Definition pbind {A B} (p : P A) (k : A -> P B) : P B := fun b => match p b with Ok (a, b') => k a b' | Err e => Err e end.
Definition lift {A} (r : res A) : P A := match r with Ok a => ret a | Err e => fail e end.
Notation "'do' x <- p ; k" := (pbind p (fun x => k)) (at level 200, x name, p at level 100, k at level 200, right associativity).
Notation "'do' ' x <- p ; k" := (pbind p (fun y => match y with x => k end)) (at level 200, x pattern, p at level 100, k at level 200, right associativity).
Fixpoint times {A} (n : nat) (p : P A) : P (list A) :=
  match n with O => ret [] | S n => do a <- p; do l <- times n p; ret (a :: l) end.

(** _read (lines 217-224) *)
Definition read (n : Z) : P (list Z) := fun b =>
  match b with
  | [] => if n =? 0 then Ok ([], []) else Err OtherError
  | _ => Ok (firstn (Z.to_nat n) b, skipn (Z.to_nat n) b)
  end.
(** struct.unpack of as many bytes *)
Definition exactly (n : nat) : P (list Z) := do b <- read (Z.of_nat n); if Nat.eqb (List.length b) n then ret b else fail StructError.
(** _read_bool ... _read_string (lines 225-239) *)
Definition read_bool : P bool := do b <- exactly 1; ret (negb (le_val b =? 0)).
Definition read_uint8 : P Z := do b <- exactly 1; ret (le_val b).
Definition read_int32 : P Z := do b <- exactly 4; ret (signed 4 (le_val b)).
Definition read_uint32 : P Z := do b <- exactly 4; ret (le_val b).
Definition read_string : P pystr := do n <- read_uint32; do b <- read n; lift (utf8_decode b).
Definition counted {A} (p : P A) : P (list A) := do n <- read_uint32; times (Z.to_nat n) p.
(** _read_varuint32 (lines 319-328) *)
Fixpoint varuint (value shift : Z) (b : list Z) : res (Z * list Z) :=
  match b with
  | [] => Err OtherError
  | c :: b =>
      let value := Z.lor value (Z.shiftl (Z.land c 127) shift) in
      if Z.land c 128 =? 0 then Ok (value, b) else varuint value (shift + 7) b
  end.
Definition read_varuint32 : P Z := varuint 0 0.
(** assignment to an element of type uint32 *)
Definition read_cell : P Z := do n <- read_varuint32; if n <? 2 ^ 32 then ret n else fail OverflowError.

(** element_symbol, family_symbol (lines 52-183) *)
Definition elements : list pystr := map str
  [""; "H"; "He"; "Li"; "Be"; "B"; "C"; "N"; "O"; "F"; "Ne"; "Na"; "Mg"; "Al"; "Si"; "P"; "S"; "Cl"; "Ar"; "K"; "Ca"; "Sc"; "Ti"; "V"; "Cr"; "Mn"; "Fe"; "Co"; "Ni"; "Cu"; "Zn"; "Ga"; "Ge"; "As"; "Se"; "Br"; "Kr"; "Rb"; "Sr"; "Y"; "Zr"; "Nb"; "Mo"; "Tc"; "Ru"; "Rh"; "Pd"; "Ag"; "Cd"; "In"; "Sn"; "Sb"; "Te"; "I"; "Xe"; "Cs"; "Ba"; "La"; "Ce"; "Pr"; "Nd"; "Pm"; "Sm"; "Eu"; "Gd"; "Tb"; "Dy"; "Ho"; "Er"; "Tm"; "Yb"; "Lu"; "Hf"; "Ta"; "W"; "Re"; "Os"; "Ir"; "Pt"; "Au"; "Hg"; "Tl"; "Pb"; "Bi"; "Po"; "At"; "Rn"; "Fr"; "Ra"; "Ac"; "Th"; "Pa"; "U"; "Np"; "Pu"; "Am"; "Cm"; "Bk"; "Cf"; "Es"; "Fm"; "Md"; "No"; "Lr"; "Rf"; "Db"; "Sg"; "Bh"; "Hs"; "Mt"; "Ds"; "Rg"; "Cn"; "Nh"; "Fl"; "Mc"; "Lv"; "Ts"; "Og"]%string.
Definition families : list pystr := map str [""; "K"; "L"; "M"; "N"; "O"; "P"]%string.
Definition symbol (table : list pystr) (z : Z) : res pystr :=
  if (z <? 1) || (z >=? Z.of_nat (List.length table)) then Err OtherError else Ok (nth (Z.to_nat z) table []).
(** _read_oxide, _read_element_family, _read_element_collection (lines 336-363, 396-397) *)
Definition read_oxide : P pystr :=
  do e <- read_uint8; do ne <- read_uint8; do no <- read_uint8;
  do s <- lift (symbol elements e);
  ret (s ++ (if ne >? 1 then str_int ne else []) ++ str "O" ++ (if no >? 1 then str_int no else [])).
Definition read_element_family : P (pystr * pystr) :=
  do e <- read_uint8; do s <- lift (symbol elements e); do f <- read_uint8; do t <- lift (symbol families f); ret (s, t).
Fixpoint all {A} (l : list (res A)) : res (list A) := match l with [] => Ok [] | r :: l => let! a := r in let! m := all l in Ok (a :: m) end.
Definition read_element_collection : P (list pystr) := do l <- counted read_uint8; lift (all (map (symbol elements) l)).
(** _read_drift_correction, _read_detector_type, _read_spectrum_correction (lines 365-394) *)
Definition drift_correction (c : Z) : pystr := if c =? 1 then str "on" else if c =? 2 then str "off" else str "unknown".
Definition detector_type (c : Z) : pystr :=
  if c =? 0 then str "Empty" else if c =? 1 then str "FastSDD_C2" else if c =? 2 then str "FastSDD_C5" else if c =? 3 then str "FastSDD_WLS" else str "Unknown".
Definition spectrum_correction (c : Z) : pystr := if c =? 1 then str "linearized" else if c =? 2 then str "raw" else str "unknown".

(** * Metadata *)
Inductive val := Txt (s : pystr) | Nothing | Num (q : Q) | Int (z : Z) | Flag (b : bool) | Nums (l : list Q) | Grid (l : list (list Q)) | Ints (l : list Z)
  | Names (l : list pystr) | Pairs (l : list (pystr * pystr)) | Dict (d : list (pystr * val)).
Definition dict := list (pystr * val).
Definition update (d e : dict) : dict := fold_left (fun d p => put (fst p) (snd p) d) e d.
Definition set (k : string) (v : val) (d : dict) : dict := put (str k) v d.
(** d[k1][k2]..., and d[k1][k2]... = v *)
Definition get (k : pystr) (v : val) : res val :=
  match v with Dict d => match lookup k d with Some v => Ok v | None => Err KeyError end | _ => Err TypeError end.
Fixpoint get_in (path : list pystr) (v : val) : res val := match path with [] => Ok v | k :: path => let! w := get k v in get_in path w end.
Fixpoint set_in (path : list pystr) (k : pystr) (x : val) (v : val) : res val :=
  match path with
  | [] => match v with Dict d => Ok (Dict (put k x d)) | _ => Err TypeError end
  | p :: path => match v with
                 | Dict d => match lookup p d with Some w => let! w := set_in path k x w in Ok (Dict (put p w d)) | None => Err KeyError end
                 | _ => Err TypeError
                 end
  end.
Definition at_scan : list pystr := [str "acquisition"; str "scan"].
Definition at_detectors : list pystr := at_scan ++ [str "detectors"].
Definition at_eds : list pystr := at_detectors ++ [str "EDS"].
(** xml_element_to_dict: the value for the tag of an element (lines 266-279) *)
Definition text_of (e : xml) : val := match x_text e with [] => Nothing | t => Txt t end.
Fixpoint of_xml (e : xml) : val :=
  match e with
  | Elem tag attrs text tail [] =>
      match attrs with
      | [] => text_of e
      | _ => Dict (update [(str "value", text_of e)] (map (fun p => (fst p, Txt (snd p))) attrs))
      end
  | Elem tag attrs text tail children => Dict (update [] (map (fun c => (x_tag c, of_xml c)) children))
  end.
(** _get_unit_factor, _get_unit (lines 241-257, 602-612) *)
Definition unit_factor (u : pystr) : res Q :=
  match u with
  | [] | [_] => Ok 1%Q
  | c :: _ =>
      if c =? 77 then Ok 1000000%Q else if c =? 107 then Ok 1000%Q else if c =? 109 then Ok (1 # 1000)%Q
      else if (c =? 117) || (c =? 181) then Ok (1 # 1000000)%Q else if c =? 110 then Ok (1 # 1000000000)%Q
      else if c =? 112 then Ok (1 # 1000000000000)%Q else Err OtherError
  end.
Definition above (q t : Q) : bool := negb (Qle_bool q t).
Definition get_unit (q : Q) : Q * pystr :=
  if above q 1 then (1%Q, []) else if above q (1 # 1000) then ((1 # 1000)%Q, [109]) else if above q (1 # 1000000) then ((1 # 1000000)%Q, [181])
  else if above q (1 # 1000000000) then ((1 # 1000000000)%Q, [110]) else (1%Q, []).
Definition qmax (a b : Q) : Q := if above b a then b else a.

(** * Signals *)
Inductive data := Spectrum (l : list Z) | Line (shape : list Z) (l : list (list Z)) | Map (shape : list Z) (l : list (list (list Z))) | Grey (a : regular) | Colour (x : rgbx).
Record axis := { x_name : pystr; x_offset : Q; x_scale : Q; x_size : Z; x_units : pystr; x_navigate : bool }.
Record signal := { s_data : data; s_axes : list axis; s_type : pystr; s_title : pystr; s_date : option (pystr * pystr); s_om : dict }.
Definition shape_of (d : data) : list Z :=
  match d with Spectrum l => [Z.of_nat (List.length l)] | Line s _ => s | Map s _ => s | Grey a => r_shape a | Colour x => ArrayModel.x_shape x end.
Definition item (l : list Z) (i : nat) : res Z := match nth_error l i with Some x => Ok x | None => Err IndexError end.

Section Reader.
  Variable f64 : Z -> Q.
  Variable radians : Q -> Q.
  Variable float : pystr -> res Q.
  Variable tiff : list Z -> res (regular * option xml).

  Definition read_float64 : P Q := do b <- exactly 8; ret (f64 (le_val b)).
  (** float() and _get_value_with_unit (lines 259-263) *)
  Definition to_float (v : val) : res Q := match v with Txt s => float s | Num q => Ok q | Int z => Ok (inject_Z z) | _ => Err TypeError end.
  Definition value_with_unit (v : val) : res Q :=
    match v with
    | Dict d =>
        let! x := get (str "value") v in let! q := to_float x in
        let! u := get (str "unit") v in let! f := match u with Txt u => unit_factor u | _ => Err TypeError end in
        Ok (q * f)%Q
    | v => to_float v
    end.
  (** _read_tiff (lines 265-306): metadata and elements, or none *)
  Definition scanned (root : xml) (shape : list Z) : res dict :=
    let! m := if eqb_str (x_tag root) (str "FeiImage") then Ok (of_xml root) else Err KeyError in
    let! h := get (str "pixelHeight") m in let! h := value_with_unit h in let! rows := item shape 0 in
    let! w := get (str "pixelWidth") m in let! w := value_with_unit w in let! cols := item shape 1 in
    let! m := set_in at_scan (str "fieldSize") (Num (qmax (h * inject_Z rows) (w * inject_Z cols))) m in
    match m with Dict d => Ok d | _ => Err TypeError end.
  Definition picture (b : list Z) : res (dict * data) :=
    let! t := tiff b in
    let! d := if Z.of_nat (List.length (r_shape (fst t))) >? 2 then (let! x := regular_array2rgbx (fst t) in Ok (Colour x)) else Ok (Grey (fst t)) in
    let! m := match snd t with Some root => scanned root (shape_of d) | None => Ok [] end in
    Ok (m, d).
  Definition read_tiff : P (option (dict * data)) :=
    do n <- read_uint32;
    if n =? 0 then ret None else (do b <- read n; do t <- lift (picture b); ret (Some t)).
  (** _read_spectrum (lines 330-334) *)
  Definition read_spectrum : P (Q * Q * list Z) := do o <- read_float64; do d <- read_float64; do l <- counted read_varuint32; ret (o, d, l).
  (** _read_eds_metadata (lines 399-436) *)
  Definition read_eds (version : Z) (om : dict) : P dict :=
    do ht <- read_float64; do el <- read_float64; do az <- read_float64; do lt <- read_float64; do rt <- read_float64;
    do sp <- read_float64; do fp <- read_float64; do re <- read_float64; do id <- read_string;
    let m := [(str "high_tension", Num ht); (str "detector_elevation", Num (if version =? 0 then radians el else el)); (str "detector_azimuth", Num az);
              (str "live_time", Num lt); (str "real_time", Num rt); (str "slow_peaking_time", Num sp); (str "fast_peaking_time", Num fp);
              (str "detector_resolution", Num re); (str "instrument_id", Txt id)] in
    do m <- match (if version =? 0 then lookup (str "workingDistance") om else None) with
            | Some wd =>
                do wd <- lift (value_with_unit wd);
                do s <- lift (get_in (at_scan ++ [str "spotSize"]) (Dict om)); do s <- lift (to_float s);
                ret (set "detector_surface_area" (Num (25 # 1000000)) (set "fast_peaking_time" (Num (100 # 1000000000))
                      (set "slow_peaking_time" (Num (if above (45 # 10) s then 112 # 10000000 else 2 # 1000000)) (set "working_distance" (Num wd) m))))
            | None =>
                if version >? 0 then
                  do ow <- read_float64; do wd <- read_float64; do ar <- read_float64; do di <- read_float64; do ti <- read_float64;
                  ret (set "sample_tilt_angle" (Num ti) (set "detector_distance" (Num di) (set "detector_surface_area" (Num ar)
                        (set "working_distance" (Num wd) (set "optical_working_distance" (Num ow) m)))))
                else ret m
            end;
    if version >=? 3 then
      do cc <- read_float64; do ty <- read_uint8; do co <- read_uint8;
      ret (set "spectrum_correction" (Txt (spectrum_correction co)) (set "detector_type" (Txt (detector_type ty)) (set "ccorrection" (Num cc) m)))
    else ret (set "spectrum_correction" (Txt (str "unknown")) (set "detector_type" (Txt (str "FastSDD_C2")) (set "ccorrection" (Int 0) m))).
  (** _read_CommonAnalysis (lines 438-466) *)
  Definition as_dict (v : val) : res dict := match v with Dict d => Ok d | _ => Err TypeError end.
  Definition read_common (version : Z) (am : dict) : P (dict * list Z) :=
    do t <- read_tiff;
    do sp <- read_spectrum; let '(offset, dispersion, counts) := sp in
    do m <- read_eds version am;
    do inc <- read_element_collection; do exc <- read_element_collection;
    do bins <- counted read_int32; do oxides <- counted read_oxide; do auto <- read_bool; do nr <- read_int32; do fam <- counted read_element_family;
    do dc <- (if version >=? 2 then do c <- read_uint8; ret (drift_correction c) else ret (str "unknown"));
    do ign <- (if version >=? 4 then read_element_collection else ret []);
    let m := set "ignored_elements" (Names ign) (set "drift_correction" (Txt dc) (set "family_overrides" (Pairs fam) (set "order_nr" (Int nr)
              (set "auto_id" (Flag auto) (set "selected_oxides" (Names oxides) (set "background_fit_bins" (Ints bins) (set "excluded_elements" (Names exc)
              (set "included_elements" (Names inc) (set "dispersion" (Num dispersion) (set "offset" (Num offset) m)))))))))) in
    do om <- lift (let! v := set_in at_detectors (str "EDS") (Dict m)
                     (Dict (match t with
                            | Some (p :: r, _) => p :: r
                            | _ => [(str "acquisition", Dict [(str "scan", Dict [(str "detectors", Dict [])])])]
                            end)) in as_dict v);
    ret (om, counts).

  (** _get_datetime (lines 564-568), as used by _make_metadata_dict (lines 468-485) *)
  Definition date_of (om : dict) : res (option (pystr * pystr)) :=
    match lookup (str "time") om with
    | None => Ok None
    | Some (Txt s) => match split_char 84 s with d :: t :: _ => Ok (Some (d, t)) | _ => Err IndexError end
    | Some _ => Err AttributeError
    end.
  Definition energy (name : string) (offset dispersion : Q) (size : Z) : axis :=
    {| x_name := str name; x_offset := (offset / 1000)%Q; x_scale := (dispersion / 1000)%Q; x_size := size; x_units := str "keV"; x_navigate := false |}.
  Definition place (name : string) (scale : Q) (size : Z) (units : pystr) : axis :=
    {| x_name := str name; x_offset := 0%Q; x_scale := scale; x_size := size; x_units := units; x_navigate := true |}.
  (** _make_spot_spectrum_dict ... _make_image_dict (lines 542-700) *)
  Definition spot_signal (om : dict) (offset dispersion : Q) (l : list Z) (title : pystr) : res signal :=
    let! d := date_of om in
    Ok {| s_data := Spectrum l; s_axes := [energy "Energy" offset dispersion (Z.of_nat (List.length l))]; s_type := str "EDS_SEM"; s_title := title; s_date := d; s_om := om |}.
  Definition line_signal (om : dict) (offset dispersion : Q) (size bins : Z) (l : list (list Z)) (title : pystr) : res signal :=
    let! d := date_of om in
    Ok {| s_data := Line [size; bins] l; s_axes := [place "i" 1 size (str "points"); energy "X-ray energy" offset dispersion bins];
          s_type := str "EDS_SEM"; s_title := title; s_date := d; s_om := om |}.
  Definition map_signal (om : dict) (offset dispersion : Q) (height width bins : Z) (l : list (list (list Z))) (title : pystr) : res signal :=
    let! f := get_in (at_scan ++ [str "fieldSize"]) (Dict om) in let! f := match f with Num q => Ok q | _ => Err TypeError end in
    let! s := get_in (at_scan ++ [str "scanScale"]) (Dict om) in let! s := to_float s in
    let size := (f * s)%Q in
    let '(scale, prefix) := get_unit size in
    let size := (size / scale)%Q in
    if (height =? 0) || (width =? 0) then Err ZeroDivisionError else
    let! d := date_of om in
    Ok {| s_data := Map [height; width; bins] l;
          s_axes := [place "y" (size / inject_Z height) height (prefix ++ [109]); place "x" (size / inject_Z width) width (prefix ++ [109]); energy "X-ray energy" offset dispersion bins];
          s_type := str "EDS_SEM"; s_title := title; s_date := d; s_om := om |}.
  Definition image_signal (om : dict) (img : data) (title : pystr) : res signal :=
    let! t := match om with
              | [] => Ok (1%Q, 1%Q, str "points")
              | _ =>
                  let! f := get_in (at_scan ++ [str "fieldSize"]) (Dict om) in let! f := match f with Num q => Ok q | _ => Err TypeError end in
                  let '(scale, prefix) := get_unit ((2 # 10) * f) in
                  let! w := get (str "pixelWidth") (Dict om) in let! w := value_with_unit w in
                  let! h := get (str "pixelHeight") (Dict om) in let! h := value_with_unit h in
                  Ok ((w / scale)%Q, (h / scale)%Q, prefix ++ [109])
              end in
    let '(scale_x, scale_y, unit) := t in
    let! rows := item (shape_of img) 0 in let! cols := item (shape_of img) 1 in
    let! d := date_of om in
    Ok {| s_data := img; s_axes := [place "y" scale_y rows unit; place "x" scale_x cols unit]; s_type := []; s_title := title; s_date := d; s_om := om |}.

  (** the sum spectrum's EDS metadata, its offset, dispersion and number *)
  Definition number (v : val) : res Q := match v with Num q => Ok q | _ => Err TypeError end.
  Definition integer (v : val) : res Z := match v with Int z => Ok z | _ => Err TypeError end.
  Definition eds_of (om : dict) : res (dict * Q * Q * Z) :=
    let! e := get_in at_eds (Dict om) in
    let! o := get (str "offset") e in let! o := number o in
    let! d := get (str "dispersion") e in let! d := number d in
    let! n := get (str "order_nr") e in let! n := integer n in
    let! e := as_dict e in
    Ok (e, o, d, n).
  (** am with other EDS metadata *)
  Definition with_eds (am : dict) (e : dict) : res dict := let! v := set_in at_detectors (str "EDS") (Dict e) (Dict am) in as_dict v.
  Definition named (label : pystr) (kind : string) (n : pystr) : pystr := label ++ str ", " ++ str kind ++ str " " ++ n.
  Definition point (x y : Q) : val := Dict [(str "x", Num x); (str "y", Num y)].
  (** real or live times: [n] of them, or one for all (lines 762-775, 826-843) *)
  Definition read_times {A} (variable : bool) (values : P A) (const : Q -> A) : P A := if variable then values else do q <- read_float64; ret (const q).

  (** _read_MsaAnalysis ... _read_ConstructiveAnalysis (lines 702-908) *)
  Definition read_msa (version : Z) (label : pystr) (am : dict) : P signal :=
    do c <- read_common version am; let '(om, l) := c in
    do e <- lift (eds_of om); let '(_, o, d, n) := e in
    lift (spot_signal (update am om) o d l (named label "MSA" (str_int n))).
  Definition read_spot (version : Z) (label : pystr) (am : dict) : P signal :=
    do c <- read_common version am; let '(om, l) := c in
    do x <- read_float64; do y <- read_float64;
    do e <- lift (eds_of om); let '(eds, o, d, n) := e in
    do m <- lift (with_eds am (set "position" (point x y) eds));
    lift (spot_signal m o d l (named label "Spot" (str_int n))).
  Definition read_line (version : Z) (label : pystr) (am : dict) : P signal :=
    do c <- read_common version am; let '(om, _) := c in
    do x1 <- read_float64; do y1 <- read_float64; do x2 <- read_float64; do y2 <- read_float64;
    do size <- read_uint32; do bins <- read_uint32; do offset <- read_float64; do dispersion <- read_float64;
    do m <- read_eds version am;
    do e <- lift (eds_of om); let '(eds, o, d, n) := e in
    do lt <- lift (get (str "live_time") (Dict eds)); do rt <- lift (get (str "real_time") (Dict eds));
    let m := set "dispersion" (Num dispersion) (set "offset" (Num offset) (set "end" (point x2 y2) (set "begin" (point x1 y1) (set "real_time" rt (set "live_time" lt m))))) in
    do vr <- read_bool; do vl <- read_bool;
    do l <- times (Z.to_nat size) (times (Z.to_nat bins) read_cell);
    do rts <- read_times vr (times (Z.to_nat size) read_float64) (fun q => repeat q (Z.to_nat size));
    do lts <- read_times vl (times (Z.to_nat size) read_float64) (fun q => repeat q (Z.to_nat size));
    do acc <- read_bool;
    let m := set "high_accuracy_quantification" (Flag acc) (set "live_time_values" (Nums lts) (set "real_time_values" (Nums rts) m)) in
    do m <- lift (with_eds am m);
    lift (line_signal m o d size bins l (named label "Line" (str_int n))).
  Definition read_map (version : Z) (label : pystr) (am : dict) : P signal :=
    do c <- read_common version am; let '(om, _) := c in
    do _ <- read_float64; do _ <- read_float64; do _ <- read_float64; do _ <- read_float64; do _ <- counted read_float64;
    do width <- read_uint32; do height <- read_uint32; do bins <- read_uint32; do _ <- read_float64; do _ <- read_float64;
    do m <- read_eds version am;
    do e <- lift (eds_of om); let '(eds, o, d, n) := e in
    do lt <- lift (get (str "live_time") (Dict eds)); do rt <- lift (get (str "real_time") (Dict eds));
    let m := set "real_time" rt (set "live_time" lt m) in
    do _ <- lift (with_eds am m);
    do vr <- read_bool; do vl <- read_bool;
    let h := Z.to_nat height in let w := Z.to_nat width in
    do l <- times h (times w (times (Z.to_nat bins) read_cell));
    do rts <- read_times vr (times h (times w read_float64)) (fun q => repeat (repeat q w) h);
    do lts <- read_times vl (times h (times w read_float64)) (fun q => repeat (repeat q w) h);
    do m <- lift (with_eds am (set "live_time_values" (Grid lts) (set "real_time_values" (Grid rts) m)));
    lift (map_signal m o d height width bins l (named label "Map" (str_int n))).
  Definition read_difference (version : Z) (label : pystr) (am : dict) : P signal :=
    do c <- read_common version am; let '(om, l) := c in
    do a <- read_uint32; do b <- read_uint32;
    do e <- lift (eds_of om); let '(eds, o, d, _) := e in
    do m <- lift (with_eds am eds);
    lift (spot_signal m o d l (named label "Difference" (str_int a ++ str " - " ++ str_int b))).
  Definition read_region (version : Z) (label : pystr) (am : dict) : P signal :=
    do c <- read_common version am; let '(om, l) := c in
    do le <- read_float64; do to <- read_float64; do ri <- read_float64; do bo <- read_float64;
    do e <- lift (eds_of om); let '(eds, o, d, n) := e in
    do m <- lift (with_eds am (set "rectangle" (Dict [(str "left", Num le); (str "top", Num to); (str "right", Num ri); (str "bottom", Num bo)]) eds));
    lift (spot_signal m o d l (named label "Region" (str_int n))).
  Definition read_constructive (version : Z) (am : dict) : P unit :=
    do _ <- read_common version am; do _ <- read_string; do _ <- counted (do i <- read_uint32; do w <- read_float64; ret (i, w)); ret tt.
  Definition some {A} (p : P A) : P (option A) := do a <- p; ret (Some a).
  (** _read_Analysis, _read_Analyses, _read_Image, _read_Images, _read_Project, __init__ (lines 199-215, 910-957) *)
  Definition read_analysis (version : Z) (label : pystr) (am : dict) : P (option signal) :=
    do type <- read_uint8;
    if type =? 1 then some (read_msa version label am) else if type =? 2 then some (read_spot version label am)
    else if type =? 3 then some (read_line version label am) else if type =? 4 then some (read_map version label am)
    else if type =? 5 then some (read_difference version label am) else if type =? 6 then some (read_region version label am)
    else if type =? 7 then (do _ <- read_constructive version am; ret None) else fail OtherError.
  Definition read_analyses (version : Z) (label : pystr) (am : dict) : P (list (option signal)) := counted (read_analysis version label am).
  Definition read_image (version : Z) : P (list (option signal)) :=
    do t <- read_tiff; do label <- read_string;
    match t with
    | None => fail AttributeError
    | Some (am, img) => do s <- lift (image_signal am img label); do l <- read_analyses version label am; ret (Some s :: l)
    end.
  Definition present (l : list (option signal)) : list signal := flat_map (fun o => match o with Some s => [s] | None => [] end) l.
  Definition read_project (version : Z) : P (list signal) :=
    do l <- counted (read_image version);
    do _ <- (if version >=? 1 then (do _ <- read_analyses version [] []; do _ <- read_analyses version [] []; ret tt) else ret tt);
    ret (present (List.concat l)).
  Definition read_elid : P (list signal) :=
    do h <- exactly 8;
    if negb (eqb_str (firstn 4 h) (str "EID2")) then fail OtherError else
    let version := signed 4 (le_val (skipn 4 h)) in
    if version >? 4 then fail OtherError else read_project version.
End Reader.
(** file_reader (lines 960-976): lazy reading, and the first bytes of the compressed file (lines 186-203) *)
Definition is_gzip (f : list Z) : res bool := if Nat.ltb (List.length f) 2 then Err StructError else Ok (eqb_str (firstn 2 f) [31; 139]).
Definition is_bzip2 (f : list Z) : res bool :=
  if Nat.ltb (List.length f) 10 then Err StructError else Ok (eqb_str (firstn 2 f) [66; 90] && eqb_str (firstn 6 (skipn 4 f)) [49; 65; 89; 38; 83; 89]).
Definition recognised (lazy : bool) (f : list Z) : res unit :=
  if lazy then Err NotImplementedError else
  let! g := is_gzip f in if g then Err OtherError else let! b := is_bzip2 f in if b then Ok tt else Err OtherError.
