(** Model of /repo/rsciio/topspin/_api.py (app5 files of Topspin).
    A HDF5 file is a tree, groups list their names in the order h5py gives them, and texts of metadata are
    parsed elements; an element without text has an empty one (text None of the code).  Simplifications:
    float() is a function to multiples of 1 / unit, arithmetic on these numbers is exact, without infinities and
    nan except for 0 / 0; the progress bar, printed messages and the time stamp of loading are left out; names
    of groups hold no slash. *)
From Coq Require Import QArith.
From Verif Require Import Base Text Bytes RowMajor HierModel SfsModel SurFloat XmlModel QuadModel.
Local Open Scope Z_scope.

Inductive h5 := Group (l : list (pystr * h5)) | Meta (x : xml) | Array (width : Z) (shape : list Z) (offset : option Z) (data : list (list Z)).
Definition keys (h : h5) : res (list pystr) := match h with Group l => Ok (map fst l) | _ => Err AttributeError end.
Definition get (h : h5) (k : pystr) : res h5 := match h with Group l => match lookup k l with Some v => Ok v | None => Err KeyError end | _ => Err KeyError end.
Fixpoint get_path (h : h5) (p : list pystr) : res h5 := match p with [] => Ok h | k :: p' => let! v := get h k in get_path v p' end.
Definition path (p : pystr) : list pystr := split_char 47 p.
(** h5_file[...][()].decode() and the parser *)
Definition text_of (h : h5) : res xml := match h with Meta x => Ok x | Group _ => Err TypeError | Array _ _ _ _ => Err AttributeError end.
Definition array_of (h : h5) : res (Z * list Z * option Z * list (list Z)) := match h with Array w s o d => Ok (w, s, o, d) | _ => Err AttributeError end.
Definition child (x : xml) (i : nat) : res xml := match nth_error (x_children x) i with Some c => Ok c | None => Err IndexError end.
Fixpoint descend (x : xml) (p : list nat) : res xml := match p with [] => Ok x | i :: p' => let! c := child x i in descend c p' end.
Definition size_at (s : list Z) (i : nat) : res Z := match nth_error s i with Some n => Ok n | None => Err IndexError end.

Section Topspin.
(** float(text) in multiples of 1 / unit *)
Variable number : pystr -> res Z.
Variable unit : positive.
Definition float_of (x : xml) : res Z := match x_text x with [] => Err TypeError | s => number s end.
Definition value (n : Z) : Q := n # unit.

(** * Axes (lines 243-376) *)
Record axis := { a_name : pystr; a_units : pystr; a_size : Z; a_scale : option Q; a_offset : Q; a_navigate : bool; a_index : Z }.
Fixpoint insert (x : Z) (l : list Z) : list Z := match l with [] => [x] | y :: l' => if x <? y then x :: l else if x =? y then l else y :: insert x l' end.
(** np.unique *)
Fixpoint unique (l : list Z) : list Z := match l with [] => [] | x :: l' => insert x (unique l') end.
Definition lowest (l : list Z) : Z := hd 0 l.
Definition highest (l : list Z) : Z := last l 0.
(** np.around(q, 12) * 1e9 *)
Definition around (q : Q) : Q := (round_div (Qnum q * 10 ^ 12) (Zpos (Qden q)) # 1000).
Definition nano (n : Z) : Q := (value n * inject_Z (10 ^ 9))%Q.
Definition step (l : list Z) : option Q := if zlen l =? 1 then None else Some ((highest l - lowest l) # (unit * Z.to_pos (zlen l - 1)))%Q.
Definition position (g : h5) (k : pystr) : res (Z * Z) :=
  let! f := get g k in let! m := get f (str "Metadata") in let! root := text_of m in
  let! p := descend root [1; 0; 1]%nat in
  let! cx := child p 0 in let! x := float_of cx in
  let! cy := child p 1 in let! y := float_of cy in
  Ok (x, y).
(** positions until the first one in another row, row by row *)
Fixpoint scan (g : h5) (y0 : option Z) (ks : list pystr) : res (list (Z * Z)) :=
  match ks with
  | [] => Ok []
  | k :: ks' =>
      let! p := position g k in
      if match y0 with Some y => y <? snd p | None => false end then Ok [p]
      else let! l := scan g (Some (match y0 with Some y => y | None => snd p end)) ks' in Ok (p :: l)
  end.
Fixpoint insert_int (x : Z) (l : list Z) : list Z := match l with [] => [x] | y :: l' => if x <=? y then x :: l else y :: insert_int x l' end.
Fixpoint sort_int (l : list Z) : list Z := match l with [] => [] | x :: l' => insert_int x (sort_int l') end.
Definition axes_4d (g : h5) : res (list axis) :=
  let! names := keys g in
  let! first := match names with k :: _ => Ok k | [] => Err IndexError end in
  let! f := get g first in
  let! m := get f (str "Metadata") in let! root := text_of m in
  let! ks := child root 0 in
  let! d := get f (str "Data") in let! a := array_of d in
  let shape := snd (fst (fst a)) in
  let! u0 := descend ks [0; 2; 1]%nat in let! n0 := size_at shape 0 in
  let! s0 := (let! e := descend ks [0; 1]%nat in float_of e) in let! o0 := (let! e := descend ks [0; 0]%nat in float_of e) in
  let! u1 := descend ks [1; 2; 1]%nat in let! n1 := size_at shape 1 in
  let! s1 := (let! e := descend ks [1; 1]%nat in float_of e) in let! o1 := (let! e := descend ks [1; 0]%nat in float_of e) in
  let! nums := mapM parse_int names in
  let! ps := scan g None (map str_int (sort_int nums)) in
  let n := zlen names in
  let ux := unique (map fst ps) in
  let uy := unique (map snd ps) in
  let! r := (if n mod zlen uy =? 0 then Ok (ux, uy, step ux, Some ((highest uy - lowest uy) # unit)%Q, zlen ux, n / zlen ux)
             else let! qs := mapM (position g) names in
                  let vx := unique (map fst qs) in let vy := unique (map snd qs) in
                  Ok (vx, vy, step vx, step vy, zlen vx, zlen vy)) in
  let '(ux, uy, dx, dy, lx, ly) := r in
  Ok [{| a_name := str "y"; a_units := str "nm"; a_size := ly; a_scale := option_map around dy; a_offset := nano (lowest uy); a_navigate := true; a_index := 0 |};
      {| a_name := str "x"; a_units := str "nm"; a_size := lx; a_scale := option_map around dx; a_offset := nano (lowest ux); a_navigate := true; a_index := 1 |};
      {| a_name := str "ky"; a_units := x_text u0; a_size := n0; a_scale := Some (value s0); a_offset := value o0; a_navigate := false; a_index := 2 |};
      {| a_name := str "kx"; a_units := x_text u1; a_size := n1; a_scale := Some (value s1); a_offset := value o1; a_navigate := false; a_index := 3 |}].
(** all elements below, depth first, with a tag (root.findall) *)
Fixpoint below (tag : pystr) (x : xml) : list xml :=
  let '(Elem _ _ _ _ cs) := x in flat_map (fun c => (if eqb_str (x_tag c) tag then [c] else []) ++ below tag c) cs.
Definition find (x : xml) (tag : string) : option xml := List.find (fun c => eqb_str (x_tag c) (str tag)) (x_children x).
(** elem.find("X/Scale"): the first Scale in any X *)
Definition find2 (x : xml) (a b : string) : option xml :=
  List.find (fun c => eqb_str (x_tag c) (str b)) (flat_map x_children (filter (fun c => eqb_str (x_tag c) (str a)) (x_children x))).
Definition attr (x : xml) (k : string) : res pystr := match lookup (str k) (x_attrs x) with Some v => Ok v | None => Err KeyError end.
Fixpoint image_value (name : pystr) (l : list xml) : res (option xml) :=
  match l with
  | [] => Ok None
  | v :: l' =>
      let! s := attr v "Serializer" in
      if eqb_str s (str "ImageDataSerializer") then let! c := child v 0 in if eqb_str (x_text c) name then Ok (find v "Calibration") else image_value name l'
      else image_value name l'
  end.
Definition number_at (e : xml) (a b : string) : res Q := match find2 e a b with Some x => let! n := float_of x in Ok (nano n) | None => Err AttributeError end.
Definition axes_2d (root : xml) (name : pystr) : res (list axis) :=
  let! e := image_value name (below (str "Value") root) in
  let! r := match e with
            | None => Ok (0, 0, 0, 0)%Q
            | Some e => let! a := number_at e "X" "Scale" in let! b := number_at e "X" "Offset" in let! c := number_at e "Y" "Scale" in let! d := number_at e "Y" "Offset" in Ok (a, b, c, d)
            end in
  let '(a, b, c, d) := r in
  Ok [{| a_name := str "y"; a_units := str "nm"; a_size := 0; a_scale := Some a; a_offset := b; a_navigate := false; a_index := 0 |};
      {| a_name := str "x"; a_units := str "nm"; a_size := 0; a_scale := Some c; a_offset := d; a_navigate := false; a_index := 1 |}].

(** * Metadata (lines 379-508) *)
Inductive mval := MText (s : pystr) | MFloat (n : Z) | MInt (n : Z) | MBool (b : bool) | MDict (l : list (pystr * mval)).
Definition update {A} (a b : list (pystr * A)) : list (pystr * A) := fold_left (fun d p => put (fst p) (snd p) d) b a.
Definition text_or_none (x : xml) : pystr := match x_text x with [] => str "None" | s => s end.
Definition int_of (x : xml) : res Z := match x_text x with [] => Err TypeError | s => parse_int s end.
Fixpoint decode (x : xml) : res (list (pystr * mval)) :=
  let '(Elem tag attrs text tail cs) := x in
  match lookup (str "Serializer") attrs with
  | None => Err KeyError
  | Some s =>
      if eqb_str s (str "Boolean") then Ok [(tag, MBool (match text with [] => false | _ => true end))]
      else if eqb_str s (str "Double") then let! v := float_of (Elem tag attrs text tail cs) in Ok [(tag, MFloat v)]
      else if eqb_str s (str "String") then Ok [(tag, MText (match text with [] => str "None" | s => s end))]
      else if eqb_str s (str "UInt32") || eqb_str s (str "Int32") then let! v := int_of (Elem tag attrs text tail cs) in Ok [(tag, MInt v)]
      else (fix go (l : list xml) (out : list (pystr * mval)) : res (list (pystr * mval)) :=
              match l with
              | [] => Ok out
              | leaf :: l' => match x_attrs leaf with [] => go l' out | _ => let! d := decode leaf in go l' (update out d) end
              end) cs []
  end.
Definition item_value (v : xml) : res mval :=
  let! s := attr v "Serializer" in
  if eqb_str s (str "Boolean") then Ok (MText (x_text v))
  else if eqb_str s (str "Double") then let! n := float_of v in Ok (MFloat n)
  else if eqb_str s (str "String") then Ok (MText (text_or_none v))
  else if eqb_str s (str "UInt32") || eqb_str s (str "Int32") then let! n := int_of v in Ok (MInt n)
  else let! d := decode v in Ok (MDict d).
Fixpoint items (l : list xml) (out : list (pystr * mval)) : res (list (pystr * mval)) :=
  match l with
  | [] => Ok out
  | leaf :: l' => let! v := child leaf 1 in let! n := child leaf 0 in let! m := item_value v in items l' (put (x_text n) m out)
  end.
Fixpoint branches (l : list xml) (out : list (pystr * mval)) : res (list (pystr * mval)) :=
  match l with
  | [] => Ok out
  | b :: l' =>
      if eqb_str (x_tag b) (str "ProcedureData") || eqb_str (x_tag b) (str "HardwareSettings")
      then let! d := items (x_children b) [] in branches l' (put (x_tag b) (MDict d) out)
      else branches l' (put (x_tag b) (MText (x_text b)) out)
  end.
Definition original (root : xml) : res (list (pystr * mval)) := branches (x_children root) [].
Record general := { e_notes : pystr; e_title : mval; e_date : option (pystr * pystr); e_specimen : option mval }.
Definition plain (m : mval) : res pystr := match m with MText [] => Ok (str "None") | MText s => Ok s | _ => Err OtherError end.
(** branches with other names than the two above are texts, so are all of these *)
Definition note_of (all : list (pystr * mval)) (k : string) : pystr := match lookup (str k) all with Some (MText s) => str k ++ str ":  " ++ (match s with [] => str "None" | _ => s end) ++ str " " ++ [10] | _ => [] end.
Definition date_time (s : pystr) : res (pystr * pystr) :=
  let ws := split_char 32 s in
  match split_char 47 (hd [] ws) with
  | m :: d :: y :: _ => match ws with _ :: t :: _ => Ok (y ++ [45] ++ m ++ [45] ++ d, t) | _ => Err IndexError end
  | _ => Err IndexError
  end.
Definition general_of (all : list (pystr * mval)) : res general :=
  let! title := match lookup (str "Id") all with Some v => Ok v | None => Err KeyError end in
  let! dt := match lookup (str "CreatedDateTime") all with
             | None => Ok None
             | Some (MText []) => Err AttributeError
             | Some (MText s) => let! r := date_time s in Ok (Some r)
             | Some _ => Err AttributeError
             end in
  Ok {| e_notes := List.concat (map (note_of all) ["ProcedureName"; "FriendlyName"; "Title"; "SystemName"; "Specimen"; "Comments"]%string); e_title := title; e_date := dt; e_specimen := lookup (str "Specimen") all |}.

(** * file_reader (lines 41-232) *)
Definition guid (name : pystr) : bool := if list_eq_dec Z.eq_dec (map zlen (split_char 45 name)) [8; 4; 4; 4; 12] then true else false.
Definition has_metadata (h : h5) : res bool :=
  match h with
  | Group l => Ok (existsb (fun p => eqb_str (fst p) (str "Metadata")) l)
  | Meta _ => Err TypeError
  | Array _ (r :: c :: _) _ _ => if (0 <? r) && (1 <? c) then Err ValueError else Ok false (** truth value of the comparison of a row with a text *)
  | Array _ _ _ _ => Ok false
  end.
Definition slash (a b : pystr) : pystr := a ++ [47] ++ b.
Definition tasks (h : h5) : res (list (pystr * pystr)) :=
  let! names := keys h in
  if existsb (fun k => eqb_str k (str "Metadata")) names then Ok (map (fun k => (k, str "Metadata")) (filter guid names))
  else let! ls := mapM (fun top => let! g := get h top in let! ns := keys g in Ok (map (fun k => (slash top k, slash top (str "Metadata"))) (filter guid ns))) (filter guid names) in
       Ok (List.concat ls).
Record entry := { n_original : list (pystr * mval); n_general : general; n_diffraction : bool; n_axes : list axis }.
Record dataset := { d_entry : entry; d_axes : list axis; d_shape : list Z; d_data : list (list Z) }.
Definition with_size (n : Z) (a : axis) : axis := {| a_name := a_name a; a_units := a_units a; a_size := n; a_scale := a_scale a; a_offset := a_offset a; a_navigate := a_navigate a; a_index := a_index a |}.
Definition with_index (i : Z) (a : axis) : axis := {| a_name := a_name a; a_units := a_units a; a_size := a_size a; a_scale := a_scale a; a_offset := a_offset a; a_navigate := a_navigate a; a_index := i |}.
Definition read_entry (h : h5) (t : pystr * pystr) : res entry :=
  let name := last (split_char 47 (fst t)) [] in
  let! m := get_path h (path (snd t)) in
  let! root := text_of m in
  let! all := original root in
  let! gen := general_of all in
  let! d := get_path h (path (fst t)) in
  match d with
  | Group _ => let! a := axes_4d d in Ok {| n_original := all; n_general := gen; n_diffraction := true; n_axes := a |}
  | _ =>
      let! a := axes_2d root name in
      let! r := array_of d in
      let! n0 := size_at (snd (fst (fst r))) 0 in let! n1 := size_at (snd (fst (fst r))) 1 in
      Ok {| n_original := all; n_general := gen; n_diffraction := false; n_axes := match a with y :: x :: _ => [with_size n0 y; with_size n1 x] | _ => a end |}
  end.
(** axes of length 1 are removed (lines 209-223) *)
Definition drop_x (l : list axis) : list axis :=
  match l with [y; x; ky; kx] => if a_size x =? 1 then [y; with_index 2 ky; with_index 1 kx] else l | _ => l end.
Definition drop_y (l : list axis) : list axis :=
  match l with
  | y :: a :: b :: r => if a_size y =? 1 then with_index 0 a :: with_index 1 b :: match r with c :: r' => with_index 2 c :: r' | [] => [] end else l
  | _ => l
  end.
Definition load (file : list Z) (h : h5) (t : pystr * pystr) (e : entry) : res dataset :=
  let! d := get_path h (path (fst t)) in
  match n_axes e with
  | [_; _] => let! r := array_of d in Ok {| d_entry := e; d_axes := n_axes e; d_shape := snd (fst (fst r)); d_data := snd r |}
  | _ =>
      let! names := keys d in
      let! first := match names with k :: _ => Ok k | [] => Err IndexError end in
      let! f := get d first in let! a := get f (str "Data") in let! r := array_of a in
      let width := fst (fst (fst r)) in let shape := snd (fst (fst r)) in
      let! offsets := mapM (fun i => let! f := get d (str_int i) in let! a := get f (str "Data") in let! r := array_of a in Ok (snd (fst r))) (zseq 0 (List.length names)) in
      let! frames := mapM (fun o => match o with Some p => frombuffer width (prodZ shape) file p | None => Err TypeError end) offsets in
      let axes := drop_y (drop_x (n_axes e)) in
      if prodZ (map a_size axes) =? zlen names * prodZ shape then Ok {| d_entry := e; d_axes := axes; d_shape := map a_size axes; d_data := List.concat frames |} else Err ValueError
  end.
Definition file_reader (file : list Z) (h : h5) (dataset_path : option pystr) (dryrun : bool) : res (list dataset) :=
  let! r := match dataset_path with
            | None => Ok (h, None)
            | Some p => let! d := get_path h (path p) in let! b := has_metadata d in Ok (if b : bool then (d, None) else (h, Some p))
            end in
  let '(h, single) := r in
  let! all := tasks h in
  let ts := match single with Some p => filter (fun t => eqb_str (fst t) p) all | None => all end in
  let! es := mapM (read_entry h) ts in
  if dryrun then if forallb (fun e => match lookup (str "Title") (n_original e) with Some _ => true | None => false end) es then Ok [] else Err KeyError
  else mapM (fun te => load file h (fst te) (snd te)) (combine ts es).
End Topspin.
