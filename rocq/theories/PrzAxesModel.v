(** Model of the axes of PantaRhei files, /repo/rsciio/pantarhei/_api.py, import_pr (lines
    167-334) and export_pr with get_metadata_from_axes_info (lines 337-368, 535-631).
    Simplifications: calibration numbers are exact integers; dictionaries of calibrations
    have the keys unit, value, offset and pixel_factor; of the metadata only the keys that
    decide about axes are kept; units are not given a new prefix and pixel factors are 1
    (written arrays are new: ref_size is the shape of the data). *)
From Verif Require Import Base Text DistModel RowMajor HierModel SfsModel.

Record calib := { c_unit : option pystr; c_value : option Z; c_offset : option Z; c_factor : option Z }.
Record meta := {
  m_type : option pystr;                         (** type *)
  m_types : option (list (option pystr));        (** content.types *)
  m_calib : option (list (option calib));        (** device.calib *)
  m_eels : bool                                  (** filter.mode is EELS *)
}.
Record axis := { a_name : pystr; a_nav : bool; a_size : Z; a_units : option pystr; a_offset : option Z; a_scale : option Z }.

Definition is_type (t : option pystr) (s : string) : bool := match t with Some x => eqb_str x (str s) | None => false end.

(** Content types (lines 197-226), in the order of the file *)
Definition content_types (m : meta) (dims : nat) : res (list (option pystr)) :=
  let plot := Some (str "PlotIndex") in
  let index := Some (str "Index") in
  match m_types m with
  | None => Ok
      (if is_type (m_type m) "Stack" || is_type (m_type m) "3D" then [None; None; index]
       else if is_type (m_type m) "1D" && Nat.eqb dims 3 then [None; plot; index]
       else if is_type (m_type m) "1D" then [None; plot]
       else if (3 <=? dims)%nat then [None; None] ++ repeat index (dims - 2)
       else repeat None dims)
  | Some l =>
      if is_type (m_type m) "1D" then
        if Nat.eqb (List.length l) 1 && Nat.eqb dims 2 then Ok [None; plot]
        else if Nat.eqb (List.length l) 2 && Nat.eqb dims 3 then Ok [None; plot; index]
        else if Nat.eqb (List.length l) dims then Ok l
        else Err OtherError
      else Ok l
  end.

Definition navigation_dimensions : list pystr := [str "ScanY"; str "ScanX"; str "Index"; str "PlotIndex"].
Definition signal_dimensions : list pystr := [str "CameraY"; str "CameraX"; str "Pixel"; str "Energy"; str "*"].
(** _navigation_first (lines 252-257) *)
Fixpoint index_of (i : Z) (x : pystr) (l : list pystr) : Z :=
  match l with [] => i | y :: l' => if eqb_str x y then i else index_of (i + 1) x l' end.
Definition key_of (t : option pystr) : Z :=
  match t with Some x => index_of 0 x (navigation_dimensions ++ signal_dimensions) | None => 9 end.
(** sorted(range(n), key=...), stable *)
Fixpoint insert_by (key : nat -> Z) (x : nat) (l : list nat) : list nat :=
  match l with [] => [x] | y :: l' => if key y <=? key x then y :: insert_by key x l' else x :: l end.
Fixpoint sort_by (key : nat -> Z) (l : list nat) (acc : list nat) : list nat :=
  match l with [] => acc | x :: l' => sort_by key l' (insert_by key x acc) end.
(** Axes that are dropped: size one and a content type with Index in it (lines 236-240) *)
Fixpoint trivial (sh : list Z) (types : list (option pystr)) : res (list bool) :=
  match sh, types with
  | n :: sh', t :: types' =>
      let! b := (if n =? 1 then match t with Some x => Ok (contains (str "Index") x) | None => Err TypeError end else Ok false) in
      let! l := trivial sh' types' in Ok (b :: l)
  | _, _ => Ok []
  end.
Fixpoint keep {A} (drop : list bool) (l : list A) : list A :=
  match drop, l with b :: drop', x :: l' => if b then keep drop' l' else x :: keep drop' l' | _, _ => [] end.
(** np.squeeze(data, axis): indices get a zero for each dropped axis *)
Fixpoint unsqueeze (drop : list bool) (idx : list Z) : list Z :=
  match drop with
  | [] => []
  | true :: drop' => 0 :: unsqueeze drop' idx
  | false :: drop' => match idx with i :: idx' => i :: unsqueeze drop' idx' | [] => [] end
  end.
Definition squeeze {A} (drop : list bool) (d : arr A) : arr A := Arr (keep drop (shape d)) (fun idx => at_ d (unsqueeze drop idx)).
(** np.moveaxis(data, order, range(n)): axis i of the result is axis order[i] *)
Fixpoint where_is (x : nat) (order : list nat) (idx : list Z) : Z :=
  match order, idx with o :: order', i :: idx' => if Nat.eqb x o then i else where_is x order' idx' | _, _ => 0 end.
Definition moveaxis {A} (order : list nat) (d : arr A) : arr A :=
  Arr (map (fun o => nth o (shape d) 0) order) (fun idx => at_ d (map (fun j => where_is j order idx) (seq 0 (List.length (shape d))))).
(** np.flip along the axes marked *)
Fixpoint flip_index (marks : list bool) (sh idx : list Z) : list Z :=
  match marks, sh, idx with b :: m', n :: sh', i :: idx' => (if b : bool then n - 1 - i else i) :: flip_index m' sh' idx' | _, _, _ => [] end.
Definition flip {A} (marks : list bool) (d : arr A) : arr A := Arr (shape d) (fun idx => at_ d (flip_index marks (shape d) idx)).
(** The labels (lines 260-269): content types, or default labels in order *)
Fixpoint labels (defaults : list pystr) (ts : list (option pystr)) : res (list pystr) :=
  match ts with
  | [] => Ok []
  | Some x :: ts' => let! l := labels defaults ts' in Ok (x :: l)
  | None :: ts' => match defaults with d :: defaults' => let! l := labels defaults' ts' in Ok (d :: l) | [] => Err StopIteration end
  end.
Definition is_none {A} (t : option A) : bool := match t with None => true | _ => false end.
Definition default_labels (ts : list (option pystr)) : list pystr :=
  rev (firstn (List.length (filter is_none ts)) [str "X"; str "Y"; str "Z"]).
(** One axis (lines 306-327) *)
Definition make_axis (label : pystr) (size : Z) (c : option calib) (flipped : bool) : res axis :=
  let nav := existsb (eqb_str label) navigation_dimensions in
  match c with
  | None => Ok {| a_name := label; a_nav := nav; a_size := size; a_units := None; a_offset := None; a_scale := None |}
  | Some c =>
      match c_offset c, c_value c with
      | Some o, Some v =>
          let offset := o * v in
          let scale := match c_factor c with Some f => v * f | None => v end in
          let offset := if flipped then - (offset + (size - 1) * scale) else offset in
          Ok {| a_name := label; a_nav := nav; a_size := size; a_units := c_unit c; a_offset := Some offset; a_scale := Some scale |}
      | _, _ => Err KeyError
      end
  end.
Fixpoint make_axes (ls : list pystr) (sh : list Z) (cs : list (option calib)) (marks : list bool) : res (list axis) :=
  match ls, sh, cs, marks with
  | l :: ls', n :: sh', c :: cs', b :: marks' => let! a := make_axis l n c b in let! r := make_axes ls' sh' cs' marks' in Ok (a :: r)
  | _, _, _, _ => Ok []
  end.
(** Calibrations of the axes, None where there is none (lines 189-195) *)
Definition calibrations (m : meta) (dims : nat) : list (option calib) :=
  map (fun i => match m_calib m with Some l => nth i l None | None => None end) (seq 0 dims).

Definition new_order (types : list (option pystr)) : list nat :=
  sort_by (fun i => key_of (nth i types None)) (seq 0 (List.length types)) [].
Definition import_pr {A} (d : arr A) (m : meta) : res (arr A * list axis) :=
  let dims := List.length (shape d) in
  let! ct := content_types m dims in
  let types := rev ct in
  let cals := rev (calibrations m dims) in
  if negb (Nat.eqb (List.length types) dims) then Err OtherError
  else
    let! drop := trivial (shape d) types in
    let types := keep drop types in
    let cals := keep drop cals in
    let d1 := squeeze drop d in
    let order := new_order types in
    let! ls := labels (default_labels types) (map (fun i => nth i types None) order) in
    let d2 := moveaxis order d1 in
    let marks := map (fun l => m_eels m && eqb_str l (str "Energy")) ls in
    let d3 := flip marks d2 in
    let! axes := make_axes ls (shape d3) (map (fun i => nth i cals None) order) marks in
    Ok (d3, axes).

(** Lists of the metadata that have one entry for each axis of the file (lines 279-304) *)
Definition reorder {A} (l : list A) (order : list nat) : res (list A) :=
  let r := if Nat.eqb (List.length l) (List.length order + 1) then rev (removelast l) else rev l in
  mapM (fun o => match nth_error r o with Some x => Ok x | None => Err OtherError end) order.

(** * Writing *)
(** content type for a name (lines 553-558) *)
Definition type_for (name : pystr) : option pystr :=
  if eqb_str name (str "Energy loss") || eqb_str name (str "Energy") then Some (str "Energy")
  else if eqb_str name (str "ScanX") then Some (str "ScanY")
  else if eqb_str name (str "ScanY") then Some (str "ScanX")
  else None.
(** export_pr for a signal that does not come from a prz file.  Calibrations go to the key
    inherited.calib, which is not read (line 192); so device.calib is missing. *)
Definition export_meta (eels : bool) (axes : list axis) : meta :=
  let ts := map (fun a => type_for (a_name a)) axes in
  {| m_type := if forallb is_none ts && Nat.eqb (List.length (filter (fun a => negb (a_nav a)) axes)) 1 then Some (str "1D") else None;
     m_types := if forallb is_none ts then None else Some (rev ts);
     m_calib := None; m_eels := eels |}.
