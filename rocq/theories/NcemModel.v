(** EMD files of the Berkeley kind: /repo/rsciio/emd/_emd_ncem.py, /repo/rsciio/emd/_api.py.
    The library h5py is left out: a file is the attributes of its root and the list of its groups and datasets by full path,
    in the order they are visited. A dataset is its shape and elements; as a dimension it is the list of its values
    (or none when it is not a list of numbers) with the attributes name and units.
    Simplifications: numbers are exact, not-a-number is None; datasets are inside of groups; attribute values are numbers,
    lists of numbers or others; the units library is a function; lazy reading, chunks, text arrays and file names
    are left out; axes to write are uniform. *)
From Coq Require Import QArith.
From Verif Require Import Base Text HierModel DistModel RowMajor RplModel SfsModel ImgModel.
Local Open Scope Z_scope.

Inductive avalue := Number (q : Q) | Numbers (l : list Q) | Other (z : Z).
Definition attributes := list (pystr * avalue).
Record array := { a_shape : list Z; a_at : list Z -> Z }.
Record dset := { d_array : array; d_values : option (list Q); d_name : option pystr; d_units : option pystr }.
Inductive object := Group (emd : bool) (a : attributes) | Dataset (d : dset).
Record file := { f_major : option pystr; f_minor : option pystr; f_items : list (pystr * object) }.
Definition get (f : file) (path : pystr) : option object := lookup path (f_items f).
Definition slash : pystr := [47].
(** os.path.dirname, os.path.basename, of paths without repeated slashes *)
Definition parts (p : pystr) : list pystr := split_char 47 p.
Definition basename (p : pystr) : pystr := last (parts p) [].
Definition dirname (p : pystr) : pystr := join_char 47 (removelast (parts p)).
Definition replace (p r s : pystr) : pystr := replace_sub (S (List.length s)) p r s.

(** * Which datasets (find_dataset_paths, lines 130-177) *)
Definition supported : list pystr := map str ["data"; "counted_datacube"; "datacube"; "diffractionslice"; "realslice"; "pointlistarray"; "pointlist"]%string.
Fixpoint find_paths (f : file) (l : list (pystr * object)) : res (list pystr) :=
  match l with
  | [] => Ok []
  | (path, o) :: l =>
      match o with
      | Dataset _ =>
          if existsb (fun p => startswith p (basename path)) supported then
            let! emd := match get f (dirname path) with Some (Group emd _) => Ok emd | Some (Dataset _) => Ok false | None => Err AttributeError end in
            let! r := find_paths f l in
            Ok (if emd then path :: r else r)
          else find_paths f l
      | Group _ _ => find_paths f l
      end
  end.
(** a top-level group (lines 179-185) *)
Definition has_key (f : file) (k : string) : bool := existsb (fun p => eqb_str (hd [] (parts (fst p))) (str k)) (f_items f).
Definition is_prismatic (f : file) : bool := has_key f "4DSTEM_simulation".

(** * Arrays *)
Definition transpose (a : array) : array := {| a_shape := rev (a_shape a); a_at := fun i => a_at a (rev i) |}.
Definition squeeze (a : array) : array := {| a_shape := squeezed (a_shape a); a_at := fun i => a_at a (expand (a_shape a) i) |}.
Definition none : array := {| a_shape := []; a_at := fun _ => 0 |}.
Definition stack (l : list array) : res array :=
  match l with
  | [] => Err ValueError
  | a :: r => if forallb (fun b => eqb_zs (a_shape b) (a_shape a)) r
              then Ok {| a_shape := zlen l :: a_shape a; a_at := fun i => match i with g :: i => a_at (nth (Z.to_nat g) l none) i | [] => 0 end |}
              else Err ValueError
  end.

(** * Axes *)
Record axis := { x_index : Z; x_name : option pystr; x_units : option pystr; x_size : Z; x_offset : Q; x_scale : option Q; x_navigate : bool }.
Fixpoint diffs (l : list Q) : list Q := match l with a :: ((b :: _) as r) => (b - a)%Q :: diffs r | _ => [] end.
Definition qsum (l : list Q) : Q := fold_right Qplus 0%Q l.
Definition mean (l : list Q) : option Q := match l with [] => None | _ => Some (qsum l / inject_Z (zlen l))%Q end.
(** _parse_axis (lines 447-460) *)
Definition parse_axis (d : dset) : res (Q * option Q) :=
  match d_values d with
  | Some [] => Err IndexError
  | Some (q :: l) => Ok (q, mean (diffs (q :: l)))
  | None => Ok (0%Q, Some 1%Q)
  end.
(** re.findall(r"(\[.+?\])", s), without the brackets *)
Fixpoint until_close (s : pystr) : option (pystr * pystr) :=
  match s with
  | [] => None
  | c :: s => if c =? 93 then Some ([], s) else if c =? 10 then None else match until_close s with Some (a, b) => Some (c :: a, b) | None => None end
  end.
Fixpoint findall (fuel : nat) (s : pystr) : list pystr :=
  match fuel with
  | O => []
  | S fuel =>
      match s with
      | [] => []
      | c :: s' =>
          if c =? 91 then
            match s' with
            | d :: t => if d =? 10 then findall fuel s' else match until_close t with Some (a, b) => (d :: a) :: findall fuel b | None => findall fuel s' end
            | [] => []
            end
          else findall fuel s'
      end
  end.
Fixpoint join (sep : pystr) (l : list pystr) : pystr := match l with [] => [] | [a] => a | a :: l => a ++ sep ++ join sep l end.
Definition no_underscore (s : pystr) : pystr := filter (fun c => negb (c =? 95)) s.
Section Reader.
  (** parse_units and the short form *)
  Variable pint : pystr -> option pystr.
  (** _parse_attribute (lines 339-364) *)
  Definition parse_units (v : pystr) : pystr :=
    let v := if eqb_str v (str "A") || eqb_str v (str "A^-1") then replace [65] [197] v else v in
    let v := match findall (S (List.length v)) v with [] => v | l => join (str " * ") (map no_underscore l) end in
    match pint v with Some u => u | None => v end.
  Definition dim_path (g : pystr) (k : Z) : pystr := g ++ slash ++ str "dim" ++ str_int k.
  Definition present (f : file) (p : pystr) : bool := match get f p with Some _ => true | None => false end.
  (** lines 309-336 *)
  Definition parse_dim (f : file) (group name : pystr) (shape : list Z) (ak : Z * Z) : res axis :=
    let '(a, k) := ak in
    match get f (dim_path group k) with
    | Some (Dataset d) =>
        let! p := parse_axis d in
        Ok {| x_index := a; x_name := d_name d; x_units := option_map parse_units (d_units d); x_size := nth (Z.to_nat a) shape 0; x_offset := fst p; x_scale := snd p;
              x_navigate := is_prismatic f && negb (if eqb_str name (str "datacube") then (k =? 3) || (k =? 4) else (k =? 1) || (k =? 2)) |}
    | _ => Err AttributeError
    end.
  (** the axis of a stack (lines 262-300); om is the simulation parameters *)
  Definition number (k : string) (om : attributes) : res (option Q) :=
    match lookup (str k) om with None => Ok None | Some (Number q) => Ok (Some q) | Some _ => Err TypeError end.
  Definition component (k : string) (i : nat) (om : attributes) : res Q :=
    match lookup (str k) om with Some (Numbers l) => item l i | _ => Err TypeError end.
  Definition depth (n : Z) (om : attributes) : res (Q * Q * option pystr) :=
    let! slices := number "numSlices" om in let! thickness := number "sliceThickness" om in let! start := number "zStart" om in
    let scale := match slices with Some s => (s * match thickness with Some t => t | None => 1 end)%Q | None => 1%Q end in
    let offset := match start with Some z => if Qeq_bool z 0 then scale else z | None => 0%Q end in
    let! tile := component "tile" 2 om in let! cell := component "cellDimension" 0 om in
    Ok (if isclose (tile * cell) (inject_Z n * scale) (1 # 10000) then (offset, scale, Some [197]) else (0%Q, 1%Q, None)).
  Definition stack_axis (f : file) (n : Z) (title : pystr) (om : attributes) : res axis :=
    let! t := if is_prismatic f && contains (str "depth") title then depth n om else Ok (0%Q, 1%Q, None) in
    let '(offset, scale, units) := t in
    Ok {| x_index := 0; x_name := Some title; x_units := units; x_size := n; x_offset := offset; x_scale := Some scale; x_navigate := true |}.
  (** * _read_data_from_groups (lines 214-337) *)
  Definition read_dataset (f : file) (name group : pystr) : res (option array) :=
    match get f (group ++ slash ++ name) with Some (Dataset d) => Ok (Some (d_array d)) | Some (Group _ _) => Err AttributeError | None => Ok None end.
  Fixpoint all_there (l : list (option array)) : res (list array) :=
    match l with [] => Ok [] | Some a :: l => let! r := all_there l in Ok (a :: r) | None :: _ => Err IOError end.
  Definition read_groups (f : file) (groups : list pystr) (name title : pystr) (om : attributes) : res (array * list axis) :=
    let group := hd [] groups in
    let zero := present f (dim_path group 0) in
    let turned := negb (eqb_str name (str "datacube")) && negb zero in
    let! l := mapM (read_dataset f name) groups in
    let! l := all_there l in
    let l := if turned then map transpose l else l in
    match l with
    | [a] =>
        let n := List.length (a_shape a) in
        let ks := zseq (if zero then 0 else 1) n in
        let! axes := mapM (parse_dim f group name (a_shape a)) (combine (zseq 0 n) (if turned then rev ks else ks)) in
        Ok (a, axes)
    | _ =>
        let! a := stack l in
        let a := squeeze a in
        let! x := stack_axis f (zlen l) title om in
        let ks := zseq 1 (List.length (a_shape a) - 1) in
        let! axes := mapM (parse_dim f group name (a_shape a)) (combine ks (if turned then rev ks else ks)) in
        Ok (a, x :: axes)
    end.

  (** * Metadata (lines 366-445) *)
  Definition md_mapping : list (pystr * pystr) := map (fun p => (str (fst p), str (snd p)))
    [("i", "filenameAtoms"); ("a", "algorithm"); ("fx", "interpolationFactorX"); ("fy", "interpolationFactorY"); ("F", "numFP"); ("ns", "numSlices"); ("te", "includeThermalEffects"); ("oc", "includeOccupancy");
     ("3D", "save3DOutput"); ("4D", "save3DOutput"); ("DPC", "saveDPC_CoM"); ("ps", "savePotentialSlices"); ("nqs", "nyquistSampling"); ("px", "realspacePixelSizeX"); ("py", "realspacePixelSizeY"); ("P", "potBound");
     ("s", "sliceThickness"); ("zs", "zStart"); ("E", "E0"); ("A", "alphaBeamMax"); ("rx", "probeStepX"); ("ry", "probeStepY"); ("df", "probeDefocus"); ("sa", "probeSemiangle"); ("d", "detectorAngleStep");
     ("tx", "probeXtilt"); ("ty", "probeYtilt"); ("c", "cellDimension"); ("t", "tile"); ("wx", "scanWindowX"); ("wy", "scanWindowY"); ("wxr", "scanWindowX_r"); ("wyr", "scanWindowY_r"); ("2D", "integrationAngle")]%string.
  Definition renamed (a : attributes) : attributes :=
    fold_left (fun d p => put (match lookup (fst p) md_mapping with Some k => k | None => fst p end) (snd p) d) a [].
  Definition info_groups : list pystr := map str ["microscope"; "sample"; "user"; "comments"]%string.
  Record original := { o_version : option pystr; o_groups : list (pystr * attributes); o_simulation : attributes }.
  Definition original_metadata (f : file) : res original :=
    let! s := if is_prismatic f then match get f (str "4DSTEM_simulation/metadata/metadata_0/original/simulation_parameters") with Some (Group _ a) => Ok (renamed a) | Some (Dataset _) => Ok [] | None => Err AttributeError end else Ok [] in
    Ok {| o_version := match f_major f with Some a => Some (a ++ str "." ++ match f_minor f with Some b => b | None => str "None" end) | None => None end;
          o_groups := flat_map (fun g => match get f g with Some (Group _ a) => [(g, a)] | _ => [] end) info_groups; o_simulation := s |}.
  Record signal := { s_data : array; s_axes : list axis; s_title : pystr; s_type : pystr; s_om : original }.
  (** * read_file (lines 56-127) *)
  Fixpoint read_paths (fuel : nat) (f : file) (stacked : bool) (l : list pystr) : res (list signal) :=
    match fuel with
    | O => Err OutOfFuel
    | S fuel =>
        match l with
        | [] => Ok []
        | path :: l =>
            let group := dirname path in
            let base := if is_prismatic f && negb (contains (str "ppotential") path) then firstn (List.length group - 4) group else group in
            let mine p := stacked && negb (eqb_str path p) && contains base p in
            let groups := group :: map dirname (filter mine l) in
            let title := if stacked then basename base else basename group in
            let! om := original_metadata f in
            let! d := read_groups f groups (basename path) title (o_simulation om) in
            let s := {| s_data := fst d; s_axes := snd d; s_title := replace (str "_depth") [] title; s_type := if contains (str "CBED") group then str "electron_diffraction" else []; s_om := om |} in
            let! r := read_paths fuel f stacked (filter (fun p => negb (mine p)) l) in
            Ok (s :: r)
        end
    end.
  Inductive which := All | One (p : pystr) | Many (l : list pystr).
  Definition ncem_reader (f : file) (w : which) (stack_group : option bool) : res (list signal) :=
    let! l := match w with All => find_paths f (f_items f) | One p => Ok [p] | Many l => Ok l end in
    let stacked := match w with Many _ => false | One _ => match stack_group with Some b => b | None => false end | All => match stack_group with Some b => b | None => true end end in
    read_paths (S (List.length l)) f stacked l.
End Reader.

(** * Writing (lines 462-550) *)
Record waxis := { w_name : option pystr; w_units : option pystr; w_offset : Q; w_scale : Q }.
Record to_write := { t_title : pystr; t_data : array; t_axes : list waxis; t_om : list (pystr * attributes); t_signal : attributes }.
Fixpoint join_chars (s : pystr) : pystr := match s with [] => [] | [c] => [c] | c :: s => c :: 95 :: join_chars s end.
Definition written_units (u : option pystr) : pystr := match u with None => [] | Some u => str "[" ++ join_chars u ++ str "]" end.
Definition written_dim (group : pystr) (k : Z) (a : waxis) : pystr * object :=
  (dim_path group k, Dataset {| d_array := {| a_shape := [2]; a_at := fun _ => 0 |}; d_values := Some [w_offset a; (w_offset a + w_scale a)%Q];
                                d_name := Some (match w_name a with Some n => n | None => [] end); d_units := Some (written_units (w_units a)) |}).
Definition write_ncem (t : to_write) : res file :=
  let n := List.length (a_shape (t_data t)) in
  let group := str "signals/" ++ match t_title t with [] => str "__unnamed__" | s => s end in
  if (List.length (t_axes t) <? n)%nat then Err IndexError else
  Ok {| f_major := Some (str "0"); f_minor := Some (str "2");
        f_items := map (fun g => (g, Group false (match lookup g (t_om t) with Some a => a | None => [] end))) info_groups ++
                   [(str "signals", Group true []); (group, Group true (t_signal t));
                    (group ++ slash ++ str "data", Dataset {| d_array := transpose (t_data t); d_values := None; d_name := None; d_units := None |})] ++
                   map (fun p => written_dim group (snd p) (fst p)) (combine (firstn n (t_axes t)) (rev (zseq 1 n))) |}.
(** is_EMD_NCEM, read_emd_version (emd/_api.py, lines 46-76; lines 553-573): versions of the root and of the groups in it *)
Definition has_version (v : option pystr * option pystr) : bool := match v with (Some _, Some _) => true | _ => false end.
Definition is_ncem (root : option pystr * option pystr) (groups : list (option pystr * option pystr)) : bool := has_version root || existsb has_version groups.
