(** EELSLab netCDF files: /repo/rsciio/netcdf/_api.py.
    A file has a version, a type and a variable data_cube with attributes; the library that opens it is left out.
    Simplifications: an attribute is a scalar or an array of scalars; other variables and masks are left out;
    warnings are left out; a file without data_cube is a KeyError. *)
From Coq Require Import QArith.
From Verif Require Import Base Text HierModel SfsModel.
Local Open Scope Z_scope.

Inductive scalar := Num (q : Q) | Txt (s : pystr).
Inductive attr := One (s : scalar) | Array (l : list scalar).
Record cube := { c_shape : list Z; c_at : list Z -> Q; c_attrs : list (pystr * attr) }.
Record nc_file := { n_version : option pystr; n_type : option pystr; n_cube : option cube }.
Record axis := { x_size : Z; x_index : Z; x_name : pystr; x_scale : scalar; x_offset : scalar; x_units : scalar; x_navigate : bool }.
Record nc := { r_shape : list Z; r_at : list Z -> Q; r_axes : list axis; r_calibration : list (pystr * scalar); r_acquisition : list (pystr * scalar); r_treatments : list (pystr * attr); r_record_by : pystr }.

(** Lines 42-77 *)
Definition attrib2netcdf : list (pystr * pystr) := map (fun p => (str (fst p), str (snd p)))
  [("energyorigin", "energy_origin"); ("energyscale", "energy_scale"); ("energyunits", "energy_units"); ("xorigin", "x_origin"); ("xscale", "x_scale"); ("xunits", "x_units");
   ("yorigin", "y_origin"); ("yscale", "y_scale"); ("yunits", "y_units"); ("zorigin", "z_origin"); ("zscale", "z_scale"); ("zunits", "z_units"); ("exposure", "exposure"); ("title", "title");
   ("binning", "binning"); ("readout_frequency", "readout_frequency"); ("ccd_height", "ccd_height"); ("blanking", "blanking")]%string.
Definition acquisition2netcdf : list (pystr * pystr) := map (fun s => (str s, str s)) ["exposure"; "binning"; "readout_frequency"; "ccd_height"; "blanking"; "gain"; "pppc"]%string.
Definition treatments2netcdf : list (pystr * pystr) := map (fun s => (str s, str s)) ["dark_current"; "readout"]%string.
(** Lines 124-158: the first value of an array *)
Definition first_value (a : attr) : res scalar := match a with One s => Ok s | Array (s :: _) => Ok s | Array [] => Err IndexError end.
Fixpoint collect {A} (f : attr -> res A) (attrs : list (pystr * attr)) (names : list (pystr * pystr)) (d : list (pystr * A)) : res (list (pystr * A)) :=
  match names with
  | [] => Ok d
  | (k, n) :: names' => match lookup n attrs with
                        | Some a => let! v := f a in collect f attrs names' (put k v d)
                        | None => collect f attrs names' d
                        end
  end.
(** Slices [3 - dim:] of lists of three *)
Definition tail3 {A} (dim : Z) (l : list A) : list A := if 3 <? dim then skipn (Z.to_nat (Z.max 0 (6 - dim))) l else skipn (Z.to_nat (3 - dim)) l.
Definition keys (d : list (pystr * scalar)) (names : list pystr) (default : list scalar) : list scalar :=
  match mapM (fun k => match lookup k d with Some v => Ok v | None => Err KeyError end) names with Ok l => l | Err _ => default end.
Definition item {A} (l : list A) (i : nat) : res A := match nth_error l i with Some x => Ok x | None => Err IndexError end.
(** Lines 118-220 *)
Definition make_axis (shape : list Z) (names : list pystr) (scales offsets units : list scalar) (nav : list bool) (i : nat) : res axis :=
  let! s := item shape i in let! n := item names i in let! sc := item scales i in let! o := item offsets i in let! u := item units i in let! v := item nav i in
  Ok {| x_size := s; x_index := Z.of_nat i; x_name := n; x_scale := sc; x_offset := o; x_units := u; x_navigate := v |}.
Definition nc_axes (cal : list (pystr * scalar)) (type : pystr) (shape : list Z) : res (list axis) :=
  let dim := zlen shape in
  let image := eqb_str type (str "image") in
  let letters := map str (if image then ["z"; "y"; "x"] else ["y"; "x"; "energy"])%string in
  let names := tail3 dim (map str (if image then ["Z"; "Y"; "X"] else ["Y"; "X"; "Energy"])%string) in
  let nav := if image then [true; false; false] else [true; true; false] in
  let key s := tail3 dim (map (fun l => l ++ str s) letters) in
  let scales := keys cal (key "scale"%string) (tail3 dim [Num 1; Num 1; Num 1]) in
  let offsets := keys cal (key "origin"%string) (tail3 dim [Num 0; Num 0; Num 0]) in
  let units := keys cal (key "units"%string) [Txt []; Txt []; Txt []] in
  mapM (make_axis shape names scales offsets units nav) (seq 0 (List.length shape)).
Definition type_of (type : option pystr) : res pystr := match type with Some t => Ok t | None => Err AttributeError end.
Definition nc_reader_01 (c : cube) (type : option pystr) : res nc :=
  let! cal := collect first_value (c_attrs c) attrib2netcdf [] in
  let! acq := collect first_value (c_attrs c) acquisition2netcdf [] in
  let! tr := collect Ok (c_attrs c) treatments2netcdf [] in
  let! type := type_of type in
  let shape := rev (c_shape c) in
  let! axes := nc_axes cal type shape in
  Ok {| r_shape := shape; r_at := fun i => c_at c (rev i); r_axes := axes; r_calibration := cal; r_acquisition := acq; r_treatments := tr; r_record_by := type |}.
(** file_reader (lines 79-112) *)
Definition nc_reader (is_lazy : bool) (f : nc_file) : res nc :=
  if is_lazy then Err NotImplementedError else
  match n_version f with
  | Some v => if eqb_str v (str "EELSLab 0.1")
              then match n_cube f with None => Err KeyError | Some c => nc_reader_01 c (n_type f) end
              else Err IOError
  | None => Err IOError
  end.
