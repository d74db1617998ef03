(** Model of /repo/rsciio/empad/_api.py: _read_raw (lines 32-63), _parse_xml (lines 66-100)
    and the data and axes of file_reader (lines 147-270).
    Simplifications: numbers of the data are the four bytes of a float; scales and units of
    axes are left out; lazy reading maps the same part of the file (memmap_distributed). *)
From Verif Require Import Base Text Bytes RowMajor HierModel SfsModel XmlModel.

(** om.a.b.c and om.has_item("a.b.c") *)
Fixpoint get (t : tree) (path : list pystr) : option tree :=
  match path, t with
  | [], _ => Some t
  | k :: p, TDict d => match lookup k d with Some t' => get t' p | None => None end
  | _, _ => None
  end.
Definition text_at (t : tree) (path : list pystr) : option pystr := match get t path with Some (TStr s) => Some s | _ => None end.
Definition has (t : tree) (path : list pystr) : bool := match get t path with Some _ => true | None => false end.
(** int(value): a text, or an error for a dictionary *)
Definition int_at (t : tree) (path : list pystr) : res Z :=
  match get t path with Some (TStr s) => parse_int s | Some (TDict _) => Err TypeError | None => Err KeyError end.

Inductive nav := Series (n : Z) | Scan (y x : Z) | Unknown.
Record info := { raw_filename : pystr; navigation : nav }.
(** l[-1], l[-2] *)
Definition from_end {A} (l : list A) (i : nat) : res A := match nth_error (rev l) i with Some x => Ok x | None => Err IndexError end.
(** The scan shape in names like scan_x64_y32.raw (lines 84-96) *)
Definition shape_in_name (name : pystr) : res nav :=
  if startswith (str "scan_") name then
    let base := match split_char 46 name with b :: _ => b | [] => [] end in
    let parts := split_char 95 base in
    match (let! px := from_end parts 1 in let! x := parse_int (skipn 1 px) in
           let! py := from_end parts 0 in let! y := parse_int (skipn 1 py) in Ok (Scan y x)) with
    | Ok s => Ok s
    | Err _ => Err IOError
    end
  else Ok Unknown.
Definition parse_info (om : tree) : res info :=
  let root := str "root" in
  let name_path := [root; str "raw_file"; str "filename"] in
  let series := [root; str "scan_parameters"; str "series_count"] in
  let! name := (match get om name_path with Some (TStr s) => Ok s | Some _ => Err TypeError | None => Err KeyError end) in
  let! n :=
    (if has om series then let! c := int_at om series in Ok (Series c)
     else if has om [root; str "pix_x"] && has om [root; str "pix_y"] then
       let! x := int_at om [root; str "pix_x"] in let! y := int_at om [root; str "pix_y"] in Ok (Scan y x)
     else shape_in_name name) in
  Ok {| raw_filename := name; navigation := n |}.

(** info["width"], info["height"], info["raw_height"] (lines 72-74) *)
Definition width : Z := 128.
Definition height : Z := 128.
Definition raw_height : Z := 130.
Definition navigation_shape (n : nav) : res (list Z) :=
  match n with Series c => Ok [c] | Scan y x => Ok [y; x] | Unknown => Err KeyError end.
(** _read_raw: shape and numbers in C order *)
Definition read_raw_of (width height raw_height : Z) (n : nav) (f : list Z) : res (list Z * list (list Z)) :=
  let! sh := navigation_shape n in
  let item := raw_height * width * 4 in
  let count := prodZ sh in
  if zlen f / item <? count then Err ValueError
  else
    let frames := map (firstz (height * width * 4)) (records (Z.to_nat count) (Z.to_nat item) f) in
    Ok (sh ++ [height; width], List.concat (map (records (Z.to_nat (height * width)) 4) frames)).
Definition read_raw : nav -> list Z -> res (list Z * list (list Z)) := read_raw_of width height raw_height.
(** The axes (lines 154-254): name, size, index and whether they navigate *)
Fixpoint make_axes (l : list (pystr * Z * bool)) (index : Z) : list (pystr * Z * Z * bool) :=
  match l with
  | [] => []
  | (name, n, nv) :: l' => if 1 <? n then (name, n, index, nv) :: make_axes l' (index + 1) else make_axes l' index
  end.
Definition axes (n : nav) : res (list (pystr * Z * Z * bool)) :=
  let signal := [(str "height", height, false); (str "width", width, false)] in
  match n with
  | Series c => Ok (make_axes ((str "series_count", c, true) :: signal) 0)
  | Scan y x => Ok (make_axes ((str "scan_y", y, true) :: (str "scan_x", x, true) :: signal) 0)
  | Unknown => Err KeyError
  end.
(** data.squeeze() *)
Definition squeeze (sh : list Z) : list Z := filter (fun n => negb (n =? 1)) sh.
(** file_reader; [files]: content of the raw file of a name *)
Definition file_reader (om : tree) (files : pystr -> res (list Z)) : res (list Z * list (list Z) * list (pystr * Z * Z * bool)) :=
  let! i := parse_info om in
  let! ax := axes (navigation i) in
  let! f := files (raw_filename i) in
  let! (sh, els) := read_raw (navigation i) f in
  Ok (squeeze sh, els, ax).
