(** Delmic HDF5 files: /repo/rsciio/delmic/_api.py.
    The library h5py is left out: a file is the list of its objects by name, a group (or none) each; datasets are lists of
    numbers, and values of PhysicalData are what the conversion to a Python value makes of them, or an error.
    Simplifications: numbers are exact (no NaN); arrays are a shape and the elements in row-major order; the conversion
    of a time stamp to date and time, json and utf-8 are left out or variables; logging is left out. *)
From Coq Require Import QArith.
From Verif Require Import Base Text HierModel DistModel RowMajor.
Local Open Scope Z_scope.

(** * Files *)
Inductive value := VText (s : pystr) | VNum (q : Q) | VList (l : list Q) | VSettings (z : Z).
(** the attribute "State": missing, a scalar, or an array *)
Inductive state := NoState | OneState (z : Z) | States (l : list Z).
Record item := { i_dataset : bool; i_state : state; i_value : res value }.
Record array := { a_shape : list Z; a_flat : list Z }.
Inductive stored := NotDataset | Dataset (labels : list pystr) (a : array).
Record group := { g_name : pystr; g_svi : option (list (pystr * res pystr)); g_physical : option (list (pystr * item)); g_title : option (res pystr);
                  g_image : option (option stored); g_scales : list (pystr * list Q) }.
Definition element (a : array) (i : list Z) : Z := nth (Z.to_nat (row_major (a_shape a) i)) (a_flat a) 0.

(** * Units (get_unit_prefix, unit_factor, lines 149-171) *)
Definition qabs (q : Q) : Q := if Qle_bool 0 q then q else (- q)%Q.
Definition below (a b : Q) : bool := negb (Qle_bool b a).
Definition between (a x b : Q) : bool := Qle_bool a x && below x b.
Definition ten_to (n : positive) : Q := 1 # (10 ^ n).
Definition unit_prefix (q : Q) : pystr :=
  let x := qabs q in
  if between (ten_to 15) x (ten_to 12) then str "f" else if between (ten_to 12) x (ten_to 9) then str "p" else if between (ten_to 9) x (ten_to 6) then str "n"
  else if between (ten_to 6) x (ten_to 3) then [181] else if between (ten_to 3) x 1 then str "m" else [].
Definition unit_factor (p : pystr) : Q :=
  match lookup p [(str "f", inject_Z (10 ^ 15)); (str "p", inject_Z (10 ^ 12)); (str "n", inject_Z (10 ^ 9)); ([181], inject_Z (10 ^ 6)); (str "m", inject_Z (10 ^ 3))] with Some q => q | None => 1%Q end.

(** * Axes (make_axes, lines 174-279) *)
Inductive content := Bare | Values (l : list Q) (units : pystr) | Uniform (size : Z) (offset scale : Q) (units : pystr).
Record axis := { x_name : pystr; x_content : content }.
Inductive kind := Wavelength | Time | Angle | Place (offset : string) | Other.
Definition axis_info (label : pystr) : pystr * string * kind :=
  if eqb_str label (str "C") then (str "Wavelength", "DimensionScaleC"%string, Wavelength)
  else if eqb_str label (str "T") then (str "Time", "DimensionScaleT"%string, Time)
  else if eqb_str label (str "A") then (str "Angle", "DimensionScaleA"%string, Angle)
  else if eqb_str label (str "Z") then (str "Z", "DimensionScaleZ"%string, Place "ZOffset"%string)
  else if eqb_str label (str "Y") then (str "Y", "DimensionScaleY"%string, Place "YOffset"%string)
  else if eqb_str label (str "X") then (str "X", "DimensionScaleX"%string, Place "XOffset"%string)
  else (label, EmptyString, Other).
Definition qsum (l : list Q) : Q := fold_right Qplus 0%Q l.
Definition mean (l : list Q) : Q := (qsum l / inject_Z (Z.of_nat (List.length l)))%Q.
Definition scaled (l : list Q) (unit : Z) : content :=
  let p := match l with [] => [] | _ => unit_prefix (mean l) end in Values (map (fun q => (q * unit_factor p)%Q) l) (p ++ [unit]).
Definition place (name : pystr) (size : Z) (scale offset : option (list Q)) : content :=
  match scale, offset with
  | Some [s], Some [center] =>
      let p := unit_prefix s in
      let s := if eqb_str name (str "Y") then (- s)%Q else s in
      let offset := (center - (inject_Z (size - 1) / 2) * s)%Q in
      Uniform size (offset * unit_factor p) (s * unit_factor p) (p ++ [109])
  | _, _ => Bare
  end.
Definition make_axis (scales : list (pystr * list Q)) (label : pystr) (size : Z) : axis :=
  let '(name, key, k) := axis_info label in
  {| x_name := name;
     x_content := match k, lookup (str key) scales with
                  | Other, _ | _, None => Bare
                  | Wavelength, Some l => scaled l 109
                  | Time, Some l => scaled l 115
                  | Angle, Some _ => Values (map inject_Z (zseq 0 (Z.to_nat size))) []
                  | Place o, Some l => place name size (Some l) (lookup (str o) scales)
                  end |}.
Definition make_axes (scales : list (pystr * list Q)) (labels : list pystr) (shape : list Z) : list axis :=
  map (fun p => make_axis scales (fst p) (snd p)) (combine labels shape).

(** * Metadata (lines 97-131, 282-408) *)
Definition read_item (name : pystr) (i : item) (md : list (pystr * value)) : res (list (pystr * value)) :=
  if negb (i_dataset i) then Ok md else if eqb_str name (str "Title") then Ok md else
  let! s := match i_state i with NoState => Err KeyError | OneState _ => Err TypeError | States [] => Err IndexError | States (s :: _) => Ok s end in
  if s =? 111 then Ok md else
  match i_value i with Ok v => Ok (put name v md) | Err _ => Ok md end.
Fixpoint read_items (l : list (pystr * item)) (md : list (pystr * value)) : res (list (pystr * value)) :=
  match l with [] => Ok md | (name, i) :: l => let! md := read_item name i md in read_items l md end.
Record original := { o_values : list (pystr * value); o_date : Q; o_group : pystr; o_svi : list (pystr * pystr) }.
Definition svi_entries (l : list (pystr * res pystr)) : list (pystr * pystr) :=
  flat_map (fun k => match lookup (str k) l with Some (Ok v) => [(str k, v)] | _ => [] end) ["Company"; "WriterVersion"]%string.
Definition original_metadata (g : group) : res original :=
  let! l := match g_physical g with Some l => Ok l | None => Err KeyError end in
  let! md := read_items l [] in
  let! date := match lookup (str "TOffset") (g_scales g) with Some [d] => Ok d | Some _ => Err TypeError | None => Err KeyError end in
  let! svi := match g_svi g with Some s => Ok s | None => Err KeyError end in
  Ok {| o_values := put (str "AcquisitionDate") (VNum date) md; o_date := date; o_group := g_name g; o_svi := svi_entries svi |}.

(** * Kinds of acquisitions (lines 69-95, 411-459) *)
Inductive acq := PMT | AR | EK1 | TempSpec | Temporal | Spectrum | SE | Anchor | Unknown | Survey.
Definition position (t : acq) : Z :=
  match t with PMT => 0 | AR => 1 | EK1 => 2 | TempSpec => 3 | Temporal => 4 | Spectrum => 5 | SE => 6 | Anchor => 7 | Unknown => 8 | Survey => 9 end.
Definition all_types : list acq := [PMT; AR; EK1; TempSpec; Temporal; Spectrum; SE; Anchor; Unknown; Survey].
Definition cl_types : list acq := [PMT; AR; EK1; TempSpec; Temporal; Spectrum].
Definition same (a b : acq) : bool := position a =? position b.
Fixpoint axis_length (name : string) (axes : list axis) (shape : list Z) : Z :=
  match axes, shape with
  | x :: axes, n :: shape => if eqb_str (x_name x) (str name) then n else axis_length name axes shape
  | _, _ => 1
  end.
Definition guess_type (shape : list Z) (axes : list axis) (md : list (pystr * value)) : res acq :=
  let! title := match lookup (str "ChannelDescription") md with Some v => Ok v | None => Err KeyError end in
  let is (s : string) := match title with VText t => eqb_str t (str s) | _ => false end in
  if is "Anchor region"%string then Ok Anchor else
  let c := axis_length "Wavelength"%string axes shape in let a := axis_length "Angle"%string axes shape in let t := axis_length "Time"%string axes shape in
  Ok (if a >? 1 then (if c >? 1 then EK1 else Unknown)
      else if t >? 1 then (if c =? 1 then Temporal else TempSpec)
      else if c >? 1 then Spectrum
      else if match lookup (str "PolePosition") md with Some (VList _) => true | _ => false end then AR
      else if is "Secondary electrons concurrent"%string then SE else if is "Secondary electrons survey"%string then Survey else if is "CL intensity"%string then PMT else Unknown).
Definition signal_type (t : acq) : pystr := match t with TempSpec => str "LumiTransientSpectrum" | Temporal => str "LumiTransient" | Spectrum => str "CL_SEM" | _ => [] end.

Record signal := { s_data : array; s_axes : list axis; s_title : pystr; s_type : pystr; s_polarization : option value; s_when : option (pystr * pystr); s_om : original; s_acq : acq }.

(** * Sorting by a key, stable *)
Fixpoint insert {A} (le : A -> A -> bool) (x : A) (l : list A) : list A := match l with [] => [x] | y :: r => if le x y then x :: l else y :: insert le x r end.
Definition sort {A} (le : A -> A -> bool) (l : list A) : list A := fold_right (insert le) [] l.
Definition sort_by {A} (key : A -> Z) (l : list A) : list A := sort (fun x y => key x <=? key y) l.

Section Reader.
  (** date and time of a time stamp *)
  Variable utc : Q -> res (pystr * pystr).
  (** load_image, make_metadata, read_acquisition (lines 134-146, 282-331, 462-479) *)
  Definition read_acquisition (g : group) : res signal :=
    let! p := match g_image g with
              | Some (Some (Dataset labels a)) => if Z.of_nat (List.length (a_shape a)) =? 5 then Ok (labels, a) else Err ValueError
              | Some (Some NotDataset) => Err TypeError
              | _ => Err KeyError
              end in
    let '(labels, a) := p in
    let axes := make_axes (g_scales g) labels (a_shape a) in
    let! om := original_metadata g in
    let! t := guess_type (a_shape a) axes (o_values om) in
    let! title := match g_title g with Some (Ok t) => Ok t | Some (Err _) => Ok (str "__unnamed__") | None => Err KeyError end in
    Ok {| s_data := a; s_axes := axes; s_title := title; s_type := signal_type t; s_polarization := lookup (str "Polarization") (o_values om);
          s_when := match utc (o_date om) with Ok d => Some d | Err _ => None end; s_om := om; s_acq := t |}.

  (** merge_ar_data (lines 482-551) *)
  Definition earlier (a b : signal) : bool := Qle_bool (o_date (s_om a)) (o_date (s_om b)).
  Fixpoint all_same (l : list (list Z)) : bool := match l with a :: ((b :: _) as r) => eqb_zs a b && all_same r | _ => true end.
  Definition last2 (l : list Z) : res (Z * Z) := match rev l with a :: b :: _ => Ok (b, a) | _ => Err ValueError end.
  Definition pixels (name : string) (n : Z) : axis := {| x_name := str name; x_content := Values (map inject_Z (zseq 0 (Z.to_nat n))) [] |}.
  Definition merge_ar (l : list signal) (se : signal) : res signal :=
    let! p := last2 (a_shape (s_data se)) in let '(y, x) := p in
    if negb (x * y =? Z.of_nat (List.length l)) then Err ValueError else
    match sort earlier l with
    | [] => Err IndexError
    | first :: _ =>
        let! p := last2 (a_shape (s_data first)) in let '(b, a) := p in
        let shapes := map (fun s => a_shape (s_data s)) l in
        let flat := flat_map (fun s => a_flat (s_data s)) (sort earlier l) in
        if negb (all_same shapes) then Err ValueError else
        if negb (prodZ (Z.of_nat (List.length l) :: a_shape (s_data first)) =? y * (x * (b * a))) then Err ValueError else
        let! axes := match rev (s_axes se) with ax :: ay :: _ => Ok [ay; ax; pixels "Angle B"%string b; pixels "Angle A"%string a] | _ => Err IndexError end in
        Ok {| s_data := {| a_shape := [y; x; b; a]; a_flat := flat |}; s_axes := axes; s_title := s_title first; s_type := s_type first;
              s_polarization := s_polarization first; s_when := s_when first; s_om := s_om first; s_acq := s_acq first |}
    end.

  (** squeeze_dimensions (lines 554-572) *)
  Fixpoint squeeze (shape : list Z) (axes : list axis) : list Z * list axis :=
    match shape, axes with
    | n :: shape, x :: axes => let (sh, ax) := squeeze shape axes in if n =? 1 then (sh, ax) else (n :: sh, x :: ax)
    | shape, axes => (shape, axes)
    end.
  Definition squeezed (s : signal) : signal :=
    let (sh, ax) := squeeze (a_shape (s_data s)) (s_axes s) in
    {| s_data := {| a_shape := sh; a_flat := a_flat (s_data s) |}; s_axes := ax; s_title := s_title s; s_type := s_type s; s_polarization := s_polarization s; s_when := s_when s; s_om := s_om s; s_acq := s_acq s |}.
  (** reorder_dimensions (lines 575-608) *)
  Fixpoint index_of (n : pystr) (l : list pystr) : option nat := match l with [] => None | m :: l => if eqb_str n m then Some O else option_map S (index_of n l) end.
  Definition axes_order : list pystr := map str ["Z"; "Y"; "X"; "Time"; "Angle"; "Wavelength"]%string.
  Definition rank (n : pystr) : Z := match index_of n axes_order with Some i => Z.of_nat i | None => 7 end.
  Definition first_index (names : list pystr) (n : pystr) : nat := match index_of n names with Some i => i | None => O end.
  Fixpoint eqb_names (a b : list pystr) : bool := match a, b with [], [] => true | x :: a, y :: b => eqb_str x y && eqb_names a b | _, _ => false end.
  Definition find_nat (k : nat) (l : list nat) : nat := (fix go l := match l with [] => O | m :: l => if Nat.eqb k m then O else S (go l) end) l.
  Fixpoint distinct (l : list nat) : bool := match l with [] => true | k :: l => negb (existsb (Nat.eqb k) l) && distinct l end.
  (** np.moveaxis(data, order, range(n)): axis j of the result is axis order[j] *)
  Definition old_index (order : list nat) (i : list Z) : list Z := map (fun k => nth (find_nat k order) i 0) (seq 0 (List.length order)).
  Definition moveaxis (a : array) (order : list nat) : array :=
    let shape := map (fun k => nth k (a_shape a) 0) order in
    {| a_shape := shape; a_flat := map (fun i => element a (old_index order i)) (box_indices shape) |}.
  Definition reordered (s : signal) : res signal :=
    let names := map x_name (s_axes s) in
    let sorted := sort_by rank names in
    if eqb_names sorted names then Ok s else
    let order := map (first_index names) sorted in
    if negb (distinct order) then Err ValueError else
    Ok {| s_data := moveaxis (s_data s) order; s_axes := map (fun k => nth k (s_axes s) {| x_name := []; x_content := Bare |}) order;
          s_title := s_title s; s_type := s_type s; s_polarization := s_polarization s; s_when := s_when s; s_om := s_om s; s_acq := s_acq s |}.

  (** * file_reader (lines 611-717) *)
  Definition wanted (signal : pystr) : res (list acq) :=
    if eqb_str signal (str "all") then Ok all_types else if eqb_str signal (str "cl") then Ok cl_types
    else if eqb_str signal (str "survey") then Ok [Survey] else if eqb_str signal (str "se") then Ok [SE] else if eqb_str signal (str "anchor") then Ok [Anchor] else Err ValueError.
  Definition conforming (p : pystr * option group) : option group :=
    match p with
    | (name, Some g) =>
        if eqb_str (firstn 11 name) (str "Acquisition") && match g_svi g with Some _ => true | None => false end && match g_physical g with Some _ => true | None => false end &&
           match g_image g with Some (Some _) => true | _ => false end then Some g else None
    | _ => None
    end.
  (** data found so far: signals, angle-resolved ones by polarization, and the last concurrent image *)
  Record found := { f_signals : list signal; f_ar : list (pystr * list signal); f_se : option signal }.
  Definition has (t : acq) (types : list acq) : bool := existsb (same t) types.
  (** polarization as a key; a list cannot be one, numbers are left out *)
  Definition polarization (s : signal) : res pystr := match lookup (str "Polarization") (o_values (s_om s)) with None => Ok [] | Some (VText t) => Ok t | Some _ => Err TypeError end.
  Definition add (types : list acq) (f : found) (s : signal) : res found :=
    let! f := if has AR types then
                match s_acq s with
                | AR => let! p := polarization s in
                        Ok {| f_signals := f_signals f; f_ar := put p (match lookup p (f_ar f) with Some l => l ++ [s] | None => [s] end) (f_ar f); f_se := f_se f |}
                | SE => Ok {| f_signals := f_signals f; f_ar := f_ar f; f_se := Some s |}
                | _ => Ok f
                end
              else Ok f in
    if has (s_acq s) types && negb (same (s_acq s) AR) then Ok {| f_signals := f_signals f ++ [s]; f_ar := f_ar f; f_se := f_se f |} else Ok f.
  Fixpoint collect (types : list acq) (l : list (pystr * option group)) (f : found) : res found :=
    match l with
    | [] => Ok f
    | p :: l => match conforming p with
                | None => collect types l f
                | Some g => match read_acquisition g with Err _ => collect types l f | Ok s => let! f := add types f s in collect types l f end
                end
    end.
  Fixpoint reorder_all (l : list signal) : res (list signal) := match l with [] => Ok [] | s :: l => let! s := reordered (squeezed s) in let! l := reorder_all l in Ok (s :: l) end.
  (** without a concurrent image the list is extended by the keys of the dictionary, texts, which have no dimensions to squeeze *)
  Definition merged (f : found) : res (list signal) :=
    match f_ar f, f_se f with
    | [], _ => Ok (f_signals f)
    | _, None => let! _ := reorder_all (f_signals f) in Err TypeError
    | ar, Some se => Ok (f_signals f ++ flat_map (fun p => match merge_ar (snd p) se with Ok s => [s] | Err _ => snd p end) ar)
    end.
  Definition delmic_reader (signal : pystr) (lazy : bool) (file : list (pystr * option group)) : res (list DmcModel.signal) :=
    if lazy then Err NotImplementedError else
    let! types := wanted signal in
    let! f := collect types file {| f_signals := []; f_ar := []; f_se := None |} in
    let! l := merged f in
    match l with [] => Err IOError | _ => let! l := reorder_all l in Ok (sort_by (fun s => position (s_acq s)) l) end.
End Reader.
