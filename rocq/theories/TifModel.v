(** TIFF files: /repo/rsciio/tiff/_api.py.
    The library tifffile is left out: a file is what tifffile gives of it (flags, metadata of FEI and of ImageJ, bytes) and a page or a
    series is what tifffile gives of it (labels and sizes of axes, tags by name, elements in row-major order).
    Simplifications: numbers are exact; lazy reading, memory maps and logging are left out; reading of text as XML, as a number or as a date,
    numbers as text, pint and the fit of a polynomial of degree three are given from outside ([env]). *)
From Coq Require Import QArith Qround.
From Verif Require Import Base Text HierModel SfsModel ArrayModel.
Local Open Scope Z_scope.

Inductive value := VNone | VNum (q : Q) | VText (s : pystr) | VTuple (l : list value) | VAxis (l : list Q) | VDict (d : list (pystr * value)).
Definition dict := list (pystr * value).
Record env := { e_float : pystr -> option Q;                      (* float(text), None for ValueError *)
                e_show : Q -> pystr;                               (* format of a number *)
                e_xml : pystr -> res value;                        (* XmlToDict().dictionarize(ET.fromstring(text)) *)
                e_date : pystr -> pystr -> option (pystr * pystr); (* datetime.strptime(text, format): date and time *)
                e_guess : pystr -> option (pystr * pystr);         (* dateutil.parser.parse: date and time *)
                e_single : list Z -> Q;                            (* four bytes as a number *)
                e_wave : Q -> Q;                                   (* wavelength of electrons *)
                e_cubic : list Q -> Q * Q * Q * Q;                 (* np.polyfit of degree three *)
                e_unit : pystr -> option (Z * Q);                  (* pint: dimension and size of a unit *)
                e_six : Q -> Q;                                    (* float("%.6e" % number) *)
                e_lumispy : bool }.
Definition has {A} (k : string) (d : list (pystr * A)) : bool := match lookup (str k) d with Some _ => true | None => false end.
Definition key {A} (k : string) (d : list (pystr * A)) : res A := match lookup (str k) d with Some v => Ok v | None => Err KeyError end.
(** v[k] *)
Definition sub (v : value) (k : string) : res value := match v with VDict d => key k d | _ => Err TypeError end.
Definition elem (v : value) (i : nat) : res value :=
  match v with
  | VTuple l => match nth_error l i with Some v => Ok v | None => Err IndexError end
  | VText s => match nth_error s i with Some c => Ok (VText [c]) | None => Err IndexError end
  | VAxis l => match nth_error l i with Some q => Ok (VNum q) | None => Err IndexError end
  | VDict _ => Err KeyError
  | _ => Err TypeError
  end.
Definition is_text (v : value) (s : string) : bool := match v with VText t => eqb_str t (str s) | _ => false end.
Definition number (v : value) : res Q := match v with VNum q => Ok q | _ => Err TypeError end.
Definition divide (a b : Q) : res Q := if Qeq_bool b 0 then Err ZeroDivisionError else Ok (a / b)%Q.
Definition truncate (q : Q) : Z := Z.quot (Qnum q) (Zpos (Qden q)).
Fixpoint remove (k : string) (d : dict) : dict := match d with [] => [] | (j, v) :: d => if eqb_str (str k) j then d else (j, v) :: remove k d end.

(** * Files *)
Record page := { p_axes : pystr; p_shape : list Z; p_data : regular; p_rgb : bool; p_tags : dict; p_fei : bool; p_sem : bool; p_tvips : bool; p_sis : bool;
                 p_sis_tags : option value * option value }.   (* tags 33471 and 33560 *)
Record file := { f_name : pystr; f_flags : list string; f_fei : value; f_imagej : value; f_shape : list Z; f_bytes : list Z }. (* [f_shape]: of the first page *)
Definition flag (s : string) (f : file) : bool := existsb (String.eqb s) (f_flags f).

(** * Axes (lines 44-62, 226-275, 419-427) *)
Definition label_codes : list (Z * option string) :=
  [(88, Some "width"%string); (89, Some "height"%string); (83, Some "sample"%string); (80, Some "plane"%string); (73, Some "image series"%string);
   (90, Some "depth"%string); (67, Some "color|em-wavelength|channel"%string); (69, Some "ex-wavelength|lambda"%string); (84, Some "time"%string);
   (82, Some "region|tile"%string); (65, Some "angle"%string); (70, Some "phase"%string); (72, Some "lifetime"%string); (76, Some "exposure"%string);
   (86, Some "event"%string); (81, None); (95, None)].
Fixpoint label (l : list (Z * option string)) (c : Z) : res (option string) :=
  match l with [] => Err KeyError | (d, n) :: l => if c =? d then Ok n else label l c end.
Definition names_of (s : pystr) : res (list (option string)) := mapM (label label_codes) s.
Record three := { tx : value; ty : value; tz : value }.
Definition cal := (three * three * three)%type.
Definition all3 (v : value) : three := {| tx := v; ty := v; tz := v |}.
(** _axes_defaults: scales, offsets, units *)
Definition defaults : cal := (all3 (VNum 1), all3 (VNum 0), all3 VNone).
Inductive axis :=
| Plain (size : Z) (name : string) (scale offset units : value) (navigate : bool)
| Fitted (size : Z) (name : string) (scale offset : Q) (units : value)
| Listed (name : string) (values : list Q) (units : value)
| Cubic (size : Z) (name : string) (poly : Q * Q * Q * Q) (units : value)
| Missing.
(** _order_axes_by_name *)
Definition pick (t : three) (d : value) (n : option string) : value :=
  match n with
  | Some n => if String.eqb n "height" then tx t else if String.eqb n "width" then ty t
              else if String.eqb n "depth" || String.eqb n "image series" || String.eqb n "time" then tz t else d
  | None => d
  end.
(** _build_axes_dictionaries: the last two are not navigated; str(None) is "None" *)
Fixpoint build (shape : list Z) (rows : list (option string * (value * value * value))) : list axis :=
  match shape, rows with
  | n :: shape', (name, (sc, off, un)) :: rows =>
      Plain n (match name with Some s => s | None => "None"%string end) sc off un (2 <? zlen shape) :: build shape' rows
  | _, _ => []
  end.
Definition axes_of (shape : list Z) (names : list (option string)) (c : cal) : list axis :=
  let '(sc, off, un) := c in build shape (map (fun n => (n, (pick sc (VNum 1) n, pick off (VNum 0) n, pick un VNone n))) names).
Definition plain_axes (shape : list Z) (names : list (option string)) : list axis := build shape (map (fun n => (n, (VNum 1, VNum 0, VNone))) names).

Section Tiff.
Variable E : env.
Definition float (v : value) : res Q :=
  match v with VNum q => Ok q | VText s => match e_float E s with Some q => Ok q | None => Err ValueError end | _ => Err TypeError end.
Definition with_xy (sx sy : value) (u : value) : cal := ({| tx := sx; ty := sy; tz := VNum 1 |}, all3 (VNum 0), {| tx := u; ty := u; tz := VNone |}).
Definition micrometre : pystr := [181; 109].

(** * Calibration (lines 429-654, 930-936) *)
(** _get_scales_from_x_y_resolution *)
Definition resolution (op : dict) (k : string) (factor : Q) : res Q :=
  let! v := key k op in let! d := elem v 1 in let! n := elem v 0 in let! d := number d in let! n := number n in let! q := divide d n in Ok (q * factor)%Q.
Definition resolutions (op : dict) (factor : Q) : res (Q * Q) :=
  let! x := resolution op "YResolution" factor in let! y := resolution op "XResolution" factor in Ok (x, y).
(** _axes_force_read; RESUNIT: 1 none, 2 inch, 3 centimetre *)
Definition is_unit (v : value) (n : Z) : bool := match v with VNum q => Qeq_bool q (inject_Z n) | _ => false end.
Definition cal_force (op : dict) : res cal :=
  let! u := key "ResolutionUnit" op in
  if is_unit u 1 then Ok defaults else
  let! p := resolutions op 1 in let (x, y) := p in
  Ok (if is_unit u 2 then with_xy (VNum (x * 25400)) (VNum (y * 25400)) (VText micrometre)
      else if is_unit u 3 then with_xy (VNum (x * 10000)) (VNum (y * 10000)) (VText micrometre)
      else with_xy (VNum x) (VNum y) VNone).
(** _axes_fei: metadata after the change, and the calibration *)
Definition float2 (v : value) (a b : string) : res Q := let! v := sub v a in let! v := sub v b in float v.
Definition ratio2 (v : value) (a b c d : string) : res Q := let! n := float2 v a b in let! m := float2 v c d in divide n m.
Definition fei_beam (m : value) (sx : Q) : res cal :=
  match ratio2 m "IRBeam" "HFW" "Image" "ResolutionX" with
  | Ok x => match ratio2 m "IRBeam" "VFW" "Image" "ResolutionY" with
            | Ok y => Ok (with_xy (VNum x) (VNum y) (VText (str "m")))
            | Err KeyError => Ok (with_xy (VNum x) (VNum 1) VNone)
            | Err e => Err e
            end
  | Err KeyError => Ok (with_xy (VNum sx) (VNum 1) VNone)
  | Err e => Err e
  end.
Definition cal_fei (m : value) : res cal :=
  match float2 m "Scan" "PixelWidth" with
  | Ok x => match float2 m "Scan" "PixelHeight" with
            | Ok y => Ok (with_xy (VNum x) (VNum y) (VText (str "m")))
            | Err KeyError => fei_beam m x
            | Err e => Err e
            end
  | Err KeyError => fei_beam m 1
  | Err e => Err e
  end.
Definition scale_fei (f : file) (op : dict) : dict * res cal :=
  let op := put (str "fei_metadata") (f_fei f) op in
  if has "FEI_HELIOS" op then (remove "FEI_HELIOS" op, cal_fei (f_fei f))
  else if has "FEI_SFEG" op then (remove "FEI_SFEG" op, cal_fei (f_fei f)) else (op, Err KeyError).
(** _axes_zeiss *)
Definition cal_zeiss (f : file) (op : dict) : res cal :=
  let! v := key "CZ_SEM" op in let! v := sub v "" in let! v := elem v 3 in let! q := number v in
  let! n := match nth_error (f_shape f) 1 with Some n => Ok n | None => Err IndexError end in
  let! s := divide (q * 1024)%Q (inject_Z n) in Ok (with_xy (VNum s) (VNum s) (VText (str "m"))).
(** _axes_tvips *)
Definition cal_tvips (op : dict) : res cal :=
  let! v := key "TVIPS" op in
  match v with
  | VDict d =>
      match lookup (str "PixelSizeX") d, lookup (str "PixelSizeY") d with
      | Some x, Some y => Ok (with_xy x y (VText (str "nm")))
      | _, _ => let! p := resolutions op (1 # 100) in Ok (with_xy (VNum (fst p)) (VNum (snd p)) (VText (str "m")))
      end
  | _ => Err TypeError
  end.
(** _axes_olympus_sis; round(…, 15) *)
Definition round_half (q : Q) : Z :=
  let f := Qfloor q in let r := (q - inject_Z f)%Q in
  match Qcompare r (1 # 2) with Lt => f | Gt => f + 1 | Eq => if Z.even f then f else f + 1 end.
Definition round15 (q : Q) : Q := (inject_Z (round_half (q * inject_Z (10 ^ 15))) / inject_Z (10 ^ 15))%Q.
Definition sis_metadata (p : page) : value := match p_sis_tags p with (_, Some v) => v | (Some v, None) => v | (None, None) => VDict [] end.
Definition scale_sis (p : page) (op : dict) : dict * res cal :=
  let m := sis_metadata p in
  (put (str "Olympus_SIS_metadata") m op,
   let! x := sub m "pixelsizex" in let! x := float x in let! y := sub m "pixelsizey" in let! y := float y in
   Ok (with_xy (VNum (round15 x)) (VNum (round15 y)) (VText (str "m")))).
(** _axes_jeol_sightx *)
Definition is_jeol (op : dict) : bool := match lookup (str "Make") op with Some v => is_text v "JEOL Ltd." | None => false end.
Fixpoint lstrip_of (cs : list Z) (s : pystr) : pystr := match s with c :: s' => if existsb (Z.eqb c) cs then lstrip_of cs s' else s | [] => [] end.
Definition strip_of (cs : list Z) (s : pystr) : pystr := rev (lstrip_of cs (rev (lstrip_of cs s))).
Definition jeol_text (v : value) : res pystr :=
  match v with VText s => Ok (List.concat (map (strip_of [32; 13; 10; 9; 1; 0]) (split_char 10 s))) | _ => Err AttributeError end.
(** v[4:] of a text *)
Definition from4 (v : value) : res value := match v with VText s => Ok (VText (skipn 4 s)) | VTuple l => Ok (VTuple (skipn 4 l)) | VDict _ => Err KeyError | _ => Err TypeError end.
Fixpoint join_values (l : list value) : res pystr :=
  match l with
  | [] => Ok []
  | [VText s] => Ok s
  | VText s :: l => let! r := join_values l in Ok (s ++ str ", " ++ r)
  | _ => Err TypeError
  end.
Definition jeol_notes (m : value) : res pystr :=
  let! eos := sub m "Eos" in let! eos := sub eos "EosMode" in let! illumi := sub m "IlluminationSystem" in let! imaging := sub m "ImageFormingSystem" in
  let stem := is_text eos "modeASID" in
  let! field := sub illumi "ImageField" in let! field := from4 field in
  let! mode := sub imaging (if stem then "ScanningImageFormingMode" else "ImageFormingMode") in let! mode := from4 mode in
  let! selector := sub imaging "SelectorString" in
  join_values [VText (str (if stem then "STEM" else "TEM")); field; mode; selector].
Definition jeol_cal (op : dict) (m : value) : res cal :=
  let! eos := sub m "Eos" in let! eos := sub eos "EosMode" in let! imaging := sub m "ImageFormingSystem" in
  let! u := key "ResolutionUnit" op in
  let scale := if is_unit u 2 then (254 # 10000)%Q else (1 # 100)%Q in
  if negb (is_text eos "eosTEM") then Ok defaults else
  let! mode := sub imaging "ModeString" in
  if is_text mode "MAG" then
    let! v := sub imaging "SelectorValue" in let! mag := float v in let! s := divide scale mag in
    let! p := resolutions op (s * inject_Z (10 ^ 9)) in
    Ok ({| tx := VNum (fst p); ty := VNum (snd p); tz := VNum 1 |}, all3 (VNum 0), all3 (VText (str "nm")))
  else if is_text mode "DIFF" then
    let! v := sub imaging "SelectorValue" in let! len := float v in
    let! g := sub m "ElectronGun" in let! g := sub g "AccelerationVoltage" in let! ht := float g in
    let! u := sub imaging "SelectorUnitString" in
    let len := if is_text u "mm" then (len / 1000)%Q else if is_text u "cm" then (len / 100)%Q else len in
    let! s := divide scale (len * e_wave E ht * inject_Z (10 ^ 9)) in
    let! p := resolutions op s in Ok (with_xy (VNum (fst p)) (VNum (snd p)) (VText (str "1 / nm")))
  else Ok defaults.
Definition scale_jeol (op : dict) : dict * res cal :=
  match (let! v := key "ImageDescription" op in let! s := jeol_text v in let! d := e_xml E s in sub d "TemReporter") with
  | Err e => (op, Err e)
  | Ok m =>
      let op := put (str "ImageDescription") m op in
      match jeol_notes m with
      | Err e => (op, Err e)
      | Ok s => let op := put (str "SightX_Notes") (VText s) op in (op, jeol_cal op m)
      end
  end.
(** ImageJ and DigitalMicrograph (lines 810-882) *)
Definition set_x (v : value) (t : three) : three := {| tx := v; ty := ty t; tz := tz t |}.
Definition set_y (v : value) (t : three) : three := {| tx := tx t; ty := v; tz := tz t |}.
Definition set_z (v : value) (t : three) : three := {| tx := tx t; ty := ty t; tz := v |}.
Definition add_imagej (f : file) (op : dict) (c : cal) : res cal :=
  match f_imagej f with
  | VDict m =>
      if negb (has "ImageJ" m) then Ok c else
      let '(sc, off, un) := c in
      let! p := match lookup (str "unit") m with
                | None => Ok (sc, un)
                | Some u => let! r := resolutions op 1 in
                            Ok ({| tx := VNum (fst r); ty := VNum (snd r); tz := tz sc |},
                                if is_text u "micron" then {| tx := VText micrometre; ty := VText micrometre; tz := tz un |} else un)
                end in
      let sc := match lookup (str "spacing") m with Some v => set_z v (fst p) | None => fst p end in Ok (sc, off, snd p)
  | _ => Err TypeError
  end.
Definition dm_tags : list string := ["65003"; "65004"; "65005"; "65009"; "65010"; "65011"; "65006"; "65007"; "65008"; "65022"; "65024"; "65025"]%string.
Definition is_dm (op : dict) : bool := existsb (fun t => has t op) dm_tags.
Definition on (op : dict) (k : string) (set : value -> three -> three) (t : three) : three := match lookup (str k) op with Some v => set v t | None => t end.
Definition add_dm (op : dict) (c : cal) : cal :=
  let '(sc, off, un) := c in
  (on op "65011" set_z (on op "65010" set_x (on op "65009" set_y sc)),
   on op "65008" set_z (on op "65007" set_x (on op "65006" set_y off)),
   on op "65005" set_z (on op "65004" set_x (on op "65003" set_y un))).

(** * Hamamatsu streak files (lines 657-808) *)
Definition text_start (op : dict) (k p : string) : res bool :=
  match lookup (str k) op with None => Ok false | Some (VText s) => Ok (startswith (str p) s) | Some _ => Err AttributeError end.
Definition is_streak (op : dict) : res bool := let! a := text_start op "Artist" "Copyright Hamamatsu" in if a then text_start op "Software" "HPD-TA" else Ok false.
(** csv.reader: the state is the fields before, the field so far (reversed) and where in it *)
Inductive where_ := AtStart | InField | InQuotes | AfterQuote.
Definition step (st : list pystr * pystr * where_) (c : Z) : list pystr * pystr * where_ :=
  let '(fields, f, w) := st in
  match w with
  | AtStart => if c =? 34 then (fields, f, InQuotes) else if c =? 44 then (fields ++ [rev f], [], AtStart) else (fields, c :: f, InField)
  | InField => if c =? 44 then (fields ++ [rev f], [], AtStart) else (fields, c :: f, InField)
  | InQuotes => if c =? 34 then (fields, f, AfterQuote) else (fields, c :: f, InQuotes)
  | AfterQuote => if c =? 34 then (fields, c :: f, InQuotes) else if c =? 44 then (fields ++ [rev f], [], AtStart) else (fields, c :: f, InField)
  end.
Fixpoint csv_rows (lines : list pystr) (st : list pystr * pystr * where_) : list (list pystr) :=
  match lines with
  | [] => match st with (fields, f, InQuotes) => [fields ++ [rev f]] | _ => [] end
  | s :: lines =>
      let st' := fold_left step s st in
      match st' with
      | (fields, f, InQuotes) => csv_rows lines st'
      | (fields, f, w) => (match s, st with [], ([], [], AtStart) => [] | _, _ => fields ++ [rev f] end) :: csv_rows lines ([], [], AtStart)
      end
  end.
(** str.splitlines, for texts in which lines end with carriage return, newline or both *)
Fixpoint split_lines (s : pystr) (acc : pystr) : list pystr :=
  match s with
  | [] => match acc with [] => [] | _ => [rev acc] end
  | 13 :: 10 :: s => rev acc :: split_lines s []
  | 13 :: s => rev acc :: split_lines s []
  | 10 :: s => rev acc :: split_lines s []
  | c :: s => split_lines s (c :: acc)
  end.
Definition streak_pairs (l : list pystr) : dict :=
  fold_left (fun d e => match split_char 61 e with [k; v] => put k (VText (strip_of [34] v)) d | _ => d end) l [].
Fixpoint streak_rows (rows : list (list pystr)) (d : list (pystr * dict)) : res (list (pystr * dict)) :=
  match rows with
  | [] => Ok d
  | [] :: _ => Err IndexError
  | (k :: l) :: rows => streak_rows rows (put (strip_of [32; 91; 93] k) (streak_pairs l) d)
  end.
(** int(re.findall(r"\d+", text)[0]) *)
Fixpoint digits_of (s : pystr) (acc : pystr) : pystr := match s with c :: s => if is_digit c then digits_of s (c :: acc) else rev acc | [] => rev acc end.
Fixpoint first_number (s : pystr) : res Z :=
  match s with
  | [] => Err IndexError
  | c :: s' => if is_digit c then parse_int (digits_of s []) else first_number s'
  end.
Definition address (scaling : dict) (k p : string) : res (option Z) :=
  let! v := key k scaling in
  match v with VText s => if startswith (str p) s then Ok None else let! n := first_number s in Ok (Some n) | _ => Err AttributeError end.
(** np.fromfile(file, dtype="f", count=n) *)
Fixpoint singles (n : nat) (b : list Z) : list Q :=
  match n, b with S n, b0 :: b1 :: b2 :: b3 :: b => e_single E [b0; b1; b2; b3] :: singles n b | _, _ => [] end.
Definition streak_axis (f : file) (at_ : option Z) (n : Z) : list Q :=
  match at_ with None => map inject_Z (zseq 0 (Z.to_nat n)) | Some a => singles (Z.to_nat n) (skipn (Z.to_nat a) (f_bytes f)) end.
Definition size_tag (op : dict) (k : string) : res Z := let! v := key k op in let! q := number v in Ok (truncate q).
(** _get_hamamatsu_streak_description *)
Definition streak_description (f : file) (op : dict) : res (list (pystr * dict)) :=
  let! v := key "ImageDescription" op in
  let! s := match v with VText s => Ok s | _ => Err AttributeError end in
  let! d := streak_rows (csv_rows (split_lines s []) ([], [], AtStart)) [] in
  let! scaling := key "Scaling" d in
  let! x := address scaling "ScalingXScalingFile" "Other" in let! nx := size_tag op "ImageWidth" in
  let! y := address scaling "ScalingYScalingFile" "Focus mode" in let! ny := size_tag op "ImageLength" in
  Ok (put (str "Scaling") (put (str "ScalingYaxis") (VAxis (streak_axis f y ny)) (put (str "ScalingXaxis") (VAxis (streak_axis f x nx)) scaling)) d).
(** np.polyfit(np.arange(n), y, 1): least squares; slope and offset *)
Definition sumQ (l : list Q) : Q := fold_right Qplus 0%Q l.
Fixpoint weighted (i : Z) (l : list Q) : Q := match l with [] => 0%Q | y :: l => (inject_Z i * y + weighted (i + 1) l)%Q end.
Definition line_fit (l : list Q) : res (Q * Q) :=
  let n := zlen l in
  if n <=? 1 then Err OtherError else
  let s1 := n * (n - 1) / 2 in let s2 := n * (n - 1) * (2 * n - 1) / 6 in
  let det := inject_Z (n * s2 - s1 * s1) in
  Ok (((inject_Z n * weighted 0 l - inject_Z s1 * sumQ l) / det)%Q, ((inject_Z s2 * sumQ l - inject_Z s1 * weighted 0 l) / det)%Q).
Inductive streak := Uniform | Data | Functional | Wrong.
Fixpoint index_of (s : string) (l : list (option string)) : res nat :=
  match l with
  | [] => Err ValueError
  | Some n :: l => if String.eqb n s then Ok O else let! i := index_of s l in Ok (S i)
  | None :: l => let! i := index_of s l in Ok (S i)
  end.
Fixpoint set_at {A} (i : nat) (v : A) (l : list A) : list A := match l, i with [], _ => [] | _ :: l, O => v :: l | x :: l, S i => x :: set_at i v l end.
Definition the_axis (d : dict) (k : string) : res (list Q) := let! v := key k d in match v with VAxis l => Ok l | _ => Err TypeError end.
Definition axes_streak (f : file) (op : dict) (shape : list Z) (names : list (option string)) (how : option streak) : res (list axis) :=
  let! d := streak_description f op in let! scaling := key "Scaling" d in
  let! xs := the_axis scaling "ScalingXaxis" in let! ys := the_axis scaling "ScalingYaxis" in
  let! p := line_fit xs in let (a, b) := p in
  let! i := index_of "width" names in
  let! n := match nth_error shape i with Some n => Ok n | None => Err IndexError end in let! u := key "ScalingXUnit" scaling in
  let axes := set_at i (Fitted n "width" a b u) (repeat Missing (List.length names)) in
  let! i := index_of "height" names in let! u := key "ScalingYUnit" scaling in
  let! y := match how with
            | None | Some Uniform =>
                let! p := line_fit ys in let (a, b) := p in
                let! n := match nth_error shape i with Some n => Ok n | None => Err IndexError end in Ok (Fitted n "height" a b u)
            | Some Data => Ok (Listed "height" ys u)
            | Some Functional => match ys with [] => Err TypeError | _ => Ok (Cubic (zlen ys) "height" (e_cubic E ys) u) end
            | Some Wrong => Err OtherError
            end in
  Ok (set_at i y axes).

(** * _parse_scale_unit (lines 884-928): metadata after the change, and the axes *)
Definition parse_scale (f : file) (p : page) (op : dict) (shape : list Z) (force : bool) (names : list (option string)) (how : option streak) : dict * res (list axis) :=
  let finish (r : dict * res cal) := (fst r, let! c := snd r in Ok (axes_of shape names c)) in
  if force && has "ResolutionUnit" op && has "XResolution" op then finish (op, cal_force op)
  else if flag "fei" f then finish (scale_fei f op)
  else if flag "sem" f then finish (op, cal_zeiss f op)
  else if flag "tvips" f then finish (op, cal_tvips op)
  else if p_sis p then finish (scale_sis p op)
  else if is_jeol op then finish (scale_jeol op)
  else match is_streak op with
       | Err e => (op, Err e)
       | Ok true => (op, axes_streak f op shape names how)
       | Ok false =>
           let c := if is_dm op then add_dm op defaults else defaults in
           finish (op, if flag "imagej" f then add_imagej f op c else Ok c)
       end.

(** * Mapping of metadata (lines 1070-1333) *)
Inductive conversion := Same | FeiTimes (q : Q) | Times (q : Q) | ZeissValue | ZeissUnits (u : string) | TvipsTime | Nothing | NonEmpty | Stage | Mode
                      | DateOf | TimeOf | ZeissDate | ZeissTime.
Definition mapping := list (string * (string * conversion)).
Definition sem (s : string) : string := ("Acquisition_instrument.SEM." ++ s)%string.
Definition tem (s : string) : string := ("Acquisition_instrument.TEM." ++ s)%string.
Local Open Scope string_scope.
Definition mapping_fei : mapping :=
  [("fei_metadata.Beam.HV", (sem "beam_energy", FeiTimes (1 # 1000))); ("fei_metadata.Stage.StageX", (sem "Stage.x", Same));
   ("fei_metadata.Stage.StageY", (sem "Stage.y", Same)); ("fei_metadata.Stage.StageZ", (sem "Stage.z", Same));
   ("fei_metadata.Stage.StageR", (sem "Stage.rotation", Same)); ("fei_metadata.Stage.StageT", (sem "Stage.tilt", Same));
   ("fei_metadata.Stage.WorkingDistance", (sem "working_distance", FeiTimes 1000)); ("fei_metadata.Scan.Dwelltime", (sem "dwell_time", Same));
   ("fei_metadata.EBeam.BeamCurrent", (sem "beam_current", FeiTimes 1000000000)); ("fei_metadata.System.SystemType", (sem "microscope", Same));
   ("fei_metadata.User.Date", ("General.date", DateOf)); ("fei_metadata.User.Time", ("General.time", TimeOf)); ("fei_metadata.User.User", ("General.authors", Same))].
Definition mapping_jeol (selector : string) : mapping :=
  [("ImageDescription.ElectronGun.AccelerationVoltage", (tem "beam_energy", Times (1 # 1000)));
   ("ImageDescription.ElectronGun.BeamCurrent", (tem "beam_current", Times (1 # 1000))); ("ImageDescription.Instruments", (tem "microscope", Same));
   ("ImageDescription.GonioStage.StagePosition.TX", (tem "Stage.tilt_alpha", Same)); ("ImageDescription.GonioStage.StagePosition.TY", (tem "Stage.tilt_beta", Same));
   ("ImageDescription.GonioStage.MZ", (tem "Stage.z", Times (1 # 1000000))); ("ImageDescription.Eos.EosMode", (tem "acquisition_mode", Mode));
   ("ImageDescription.ImageFormingSystem.SelectorValue", (tem selector, Same))].
Definition mapping_zeiss : mapping :=
  [("CZ_SEM.ap_actualkv", (sem "beam_energy", ZeissValue)); ("CZ_SEM.ap_mag", (sem "magnification", ZeissValue));
   ("CZ_SEM.ap_stage_at_x", (sem "Stage.x", ZeissUnits "mm")); ("CZ_SEM.ap_stage_at_y", (sem "Stage.y", ZeissUnits "mm"));
   ("CZ_SEM.ap_stage_at_z", (sem "Stage.z", ZeissUnits "mm")); ("CZ_SEM.ap_stage_at_r", (sem "Stage.rotation", ZeissValue));
   ("CZ_SEM.ap_stage_at_t", (sem "Stage.tilt", ZeissValue)); ("CZ_SEM.ap_wd", (sem "working_distance", ZeissUnits "mm"));
   ("CZ_SEM.dp_dwell_time", (sem "dwell_time", ZeissUnits "s")); ("CZ_SEM.ap_iprobe", (sem "beam_current", ZeissUnits "nA"));
   ("CZ_SEM.dp_detector_type", (sem "Detector.detector_type", ZeissValue)); ("CZ_SEM.sv_serial_number", (sem "microscope", ZeissValue));
   ("CZ_SEM.ap_date", ("General.date", ZeissDate)); ("CZ_SEM.ap_time", ("General.time", ZeissTime)); ("CZ_SEM.sv_user_name", ("General.authors", ZeissValue))].
Definition mapping_tvips (magnification : string) : mapping :=
  [("TVIPS.TemMagnification", (tem magnification, Same)); ("TVIPS.CameraType", (tem "Detector.Camera.name", Same));
   ("TVIPS.ExposureTime", (tem "Detector.Camera.exposure", Times (1 # 1000))); ("TVIPS.TemHighTension", (tem "beam_energy", Times (1 # 1000)));
   ("TVIPS.Comment", ("General.notes", NonEmpty)); ("TVIPS.Date", ("General.date", Nothing)); ("TVIPS.Time", ("General.time", TvipsTime));
   ("TVIPS.TemStagePosition", (tem "Stage", Stage))].
Definition mapping_sis : mapping :=
  [("Olympus_SIS_metadata.magnification", (tem "magnification", Same)); ("Olympus_SIS_metadata.cameraname", (tem "Detector.Camera.name", Same))].
Close Scope string_scope.
(** str(timedelta(seconds=n)) *)
Definition pad2 (n : Z) : pystr := [48 + n / 10; 48 + n mod 10].
Definition show_delta (n : Z) : pystr :=
  let days := n / 86400 in let s := n mod 86400 in
  (if days =? 0 then [] else str_int days ++ (if Z.abs days =? 1 then str " day, " else str " days, ")) ++
  str_int (s / 3600) ++ str ":" ++ pad2 (s / 60 mod 60) ++ str ":" ++ pad2 (s mod 60).
Definition text_of (v : value) : res pystr := match v with VText s => Ok s | _ => Err TypeError end.
Definition guess (v : value) : res (pystr * pystr) := let! s := text_of v in match e_guess E s with Some p => Ok p | None => Err ValueError end.
Definition zeiss_units (v : value) (to : string) : res value :=
  match v with
  | VTuple [_; x; VText u] =>
      let! q := number x in
      match e_unit E u, e_unit E (str to) with
      | Some (d, a), Some (d', b) => if d =? d' then Ok (VNum (e_six E (q * a / b)%Q)) else Err TypeError
      | _, _ => Err AttributeError
      end
  | VTuple [_; _; _] => Err TypeError
  | _ => Err ValueError
  end.
Definition times (v : value) (i : nat) : res value := let! x := elem v i in let! q := number x in Ok (VNum (q * 1000)).
Definition apply (c : conversion) (v : value) : res value :=
  match c with
  | Same => Ok v
  | FeiTimes q => match float v with Ok x => Ok (VNum (x * q)) | Err ValueError => Ok VNone | Err e => Err e end
  | Times q => let! x := float v in Ok (VNum (x * q))
  | ZeissValue => let! x := elem v 1 in match float x with Ok q => Ok (VNum q) | Err ValueError => Ok x | Err e => Err e end
  | ZeissUnits u => zeiss_units v u
  | TvipsTime => let! n := match v with VNum q => Ok (truncate q) | VText s => parse_int s | _ => Err TypeError end in Ok (VText (show_delta n))
  | Nothing => Ok VNone
  | NonEmpty => Ok (match v with VText [] => VNone | v => v end)
  | Stage => let! x := times v 0 in let! y := times v 1 in let! z := times v 2 in let! a := elem v 3 in let! b := elem v 4 in
             Ok (VDict [(str "x", x); (str "y", y); (str "z", z); (str "tilt_alpha", a); (str "tilt_beta", b)])
  | Mode => Ok (VText (str (if is_text v "eosASID" then "STEM" else "TEM")))
  | DateOf => let! p := guess v in Ok (VText (fst p))
  | TimeOf => let! p := guess v in Ok (VText (snd p))
  | ZeissDate => let! x := elem v 1 in let! p := guess x in Ok (VText (fst p))
  | ZeissTime => let! x := elem v 1 in let! p := guess x in Ok (VText (snd p))
  end.
(** get_metadata_mapping *)
Definition mapping_of (p : page) (op : dict) : res mapping :=
  if p_fei p then Ok mapping_fei else if p_sem p then Ok mapping_zeiss
  else if p_tvips p then
    match (let! v := key "TVIPS" op in sub v "TemMode") with
    | Ok v => Ok (mapping_tvips (if is_unit v 3 then "camera_length" else "magnification"))
    | Err KeyError => Ok (mapping_tvips "magnification")
    | Err e => Err e
    end
  else if p_sis p then Ok mapping_sis
  else if is_jeol op then
    let! v := key "ImageDescription" op in let! v := sub v "ImageFormingSystem" in let! v := sub v "ModeString" in
    Ok (mapping_jeol (if is_text v "DIFF" then "camera_length" else "magnification"))
  else Ok [].

(** * Reading (lines 136-223, 277-416) *)
Inductive image := Regular_ (a : regular) | Coloured (a : rgbx).
Record metadata := { m_file : pystr; m_title : option value; m_date : option (pystr * pystr * option pystr); m_quantity : option value; m_gain : option (value * value); m_type : pystr }.
Record signal := { s_data : image; s_om : dict; s_axes : list axis; s_md : metadata; s_mapping : mapping }.
Definition jeol_date (op : dict) : res (pystr * pystr * option pystr) :=
  let! v := key "ImageDescription" op in let! v := sub v "DateTime" in let! s := text_of v in
  Ok (firstn 10 s, firstn 15 (skipn 11 s), Some (skipn (List.length s - 6) s)).
Definition date_of (op : dict) : res (option (pystr * pystr * option pystr)) :=
  match lookup (str "DateTime") op with
  | None => Ok None
  | Some v =>
      match (match v with VText s => e_date E (str "%Y:%m:%d %H:%M:%S") s | _ => None end) with
      | Some (d, t) => Ok (Some (d, t, None))
      | None =>
          match (if has "ImageDescription" op then jeol_date op
                 else let! s := text_of v in match e_date E (str "%Y/%m/%d %H:%M") s with Some (d, t) => Ok (d, t, None) | None => Err ValueError end) with
          | Ok x => Ok (Some x)
          | Err _ => let! _ := text_of v in Ok None
          end
      end
  end.
Definition basename (p : pystr) : pystr := last (split_char 47 p) [].
(** the fields of colours: np.dtype wants as many names as formats *)
Definition colours (shape : list Z) : res unit := match rev shape with n :: _ => if n <=? 4 then Ok tt else Err ValueError | [] => Err IndexError end.
Definition of_rows (d : list (pystr * dict)) : value := VDict (map (fun p => (fst p, VDict (snd p))) d).
Definition read_page (f : file) (p : page) (force : bool) (how : option streak) : res signal :=
  let! _ := if p_rgb p then colours (p_shape p) else Ok tt in
  let labels := if p_rgb p then removelast (p_axes p) else p_axes p in
  let shape := if p_rgb p then removelast (p_shape p) else p_shape p in
  let! names := names_of labels in
  let! _ := key "PhotometricInterpretation" (p_tags p) in
  let! _ := match how with Some Wrong => Err ValueError | _ => Ok tt end in
  let (op, axes) := parse_scale f p (p_tags p) shape force names how in
  let axes := match axes with Ok l => l | Err _ => plain_axes shape names end in
  let! date := date_of op in
  let! data := if p_rgb p then let! a := regular_array2rgbx (p_data p) in Ok (Coloured a) else Ok (Regular_ (p_data p)) in
  let! s := is_streak op in
  let! op := if s then let! d := streak_description f op in Ok (put (str "ImageDescriptionParsed") (of_rows d) op) else Ok op in
  let! map := mapping_of p op in
  Ok {| s_data := data; s_om := op; s_axes := axes; s_mapping := map;
        s_md := {| m_file := basename (f_name f); m_title := lookup (str "SightX_Notes") op; m_date := date; m_quantity := lookup (str "65022") op;
                   m_gain := match lookup (str "65025") op, lookup (str "65024") op with Some g, Some o => Some (g, o) | _, _ => None end;
                   m_type := if s && e_lumispy E then str "LumiTransientSpectrum" else [] |} |}.
Definition read_file (f : file) (handles : list page) (force : bool) (how : option streak) : res (list signal) := mapM (fun p => read_page f p force how) handles.

(** * Writing (lines 65-133, 938-1067) *)
Record waxis := { w_scale : Q; w_offset : Q; w_units : option pystr; w_navigate : bool }.
Record wsignal := { g_axes : list waxis; g_quantity : option pystr; g_gain : option (option Q * option Q) }.   (* offset and factor of the variance model *)
Definition from_end {A} (l : list A) (i : nat) : res A := match nth_error (rev l) i with Some x => Ok x | None => Err IndexError end.
Definition at_ {A} (l : list A) (i : nat) : res A := match nth_error l i with Some x => Ok x | None => Err IndexError end.
Definition unit_text (a : waxis) : pystr := match w_units a with Some u => u | None => [] end.
(** text.encode("latin-1") *)
Definition latin1 (s : pystr) : res pystr := if forallb (fun c => c <? 256) s then Ok s else Err UnicodeError.
Definition description (unit : pystr) (spacing : option pystr) : pystr :=
  let named v := if eqb_str v micrometre then str "micron" else if eqb_str v [197] then str "angstrom" else v in
  str "ImageJ=1.11a" ++ [10] ++ str "unit=" ++ named unit ++ [10] ++ match spacing with Some s => str "spacing=" ++ named s ++ [10] | None => [] end.
Record written := { o_resolution : (Z * Z) * (Z * Z); o_description : pystr; o_tags : list (Z * value) }.
Definition scale_factor : Z := 10 ^ 8.
(** _get_tags_dict, _get_imagej_kwargs, _get_dm_kwargs_extratag *)
Definition tags_dict (g : wsignal) (extra : list (Z * value)) : res written :=
  let axes := g_axes g in
  let nav := countZ w_navigate axes in
  let! ax := from_end axes 0 in let! ay := from_end axes 1 in
  let! second := at_ axes 1 in let! a0 := at_ axes 0 in
  let fixed q := truncate (q * inject_Z scale_factor) in
  let desc := description (unit_text second) (if nav =? 1 then Some (e_show E (w_scale a0)) else None) in
  let! _ := mapM (fun a => latin1 (unit_text a)) axes in
  Ok {| o_resolution := ((scale_factor, fixed (w_scale ax)), (scale_factor, fixed (w_scale ay)));
        o_description := desc;
        o_tags :=
          [(65003, VText (unit_text ax)); (65004, VText (unit_text ay)); (65006, VNum (w_offset ax)); (65007, VNum (w_offset ay));
           (65009, VNum (w_scale ax)); (65010, VNum (w_scale ay))]
          ++ (match g_quantity g with Some u => [(65022, VText u); (65023, VText u)] | None => [] end)
          ++ (match g_gain g with
              | Some (Some o, Some s) => [(65024, VNum o); (65025, VNum s)]
              | Some _ => [(65024, VNum 0); (65025, VNum 1)]
              | None => [] end)
          ++ (if 0 <? nav then [(65005, VText (unit_text a0)); (65008, VNum (w_offset a0)); (65011, VNum (w_scale a0)); (65017, VNum 1)] else [])
          ++ extra |}.
End Tiff.
