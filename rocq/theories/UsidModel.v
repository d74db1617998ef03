(** USID files: /repo/rsciio/usid/_api.py.
    The libraries h5py, sidpy and pyUSID are left out: a main dataset is the labels, units and values of its position
    and spectroscopic dimensions, its N-dimensional form (or none) and the groups it is in. What is handed to pyUSID
    by the writer is the two-dimensional array, the dimensions and the parameters.
    Simplifications: numbers are exact, elements of arrays are numbers; all datasets are main datasets;
    names, keys and units are texts, or missing. *)
From Coq Require Import QArith.
From Verif Require Import Base Text HierModel DistModel RowMajor SfsModel EdaxModel ImgModel.
Local Open Scope Z_scope.

(** * Reading *)
Record uaxis := { u_size : Z; u_name : pystr; u_units : pystr; u_scale : Q; u_offset : Q }.
(** reshape_to_n_dims: shape, labels from slowest to fastest, and elements for each field *)
Record ndim := { n_shape : list Z; n_labels : list pystr; n_at : pystr -> list Z -> Z }.
Definition attrs := list (pystr * Z).
Record dataset := { d_pos : list pystr; d_pos_units : list pystr; d_pos_values : pystr -> list Q;
                    d_spec : list pystr; d_spec_units : list pystr; d_spec_values : pystr -> list Q;
                    d_nd : option ndim; d_descriptor : pystr; d_fields : option (list pystr);
                    d_path : pystr; d_group : pystr * attrs; d_outer : pystr * attrs }.
Record usignal := { s_quantity : pystr; s_units : pystr; s_type : pystr; s_uaxes : list uaxis; s_shape : list Z; s_at : list Z -> Z; s_title : pystr; s_path : pystr; s_parameters : attrs }.
(** _split_descriptor (lines 141-169) *)
Definition brackets (c : Z) : bool := (c =? 40) || (c =? 41) || (c =? 91) || (c =? 93).
Definition split_at (s : pystr) (i : nat) : pystr * pystr := (strip (firstn i s), filter (fun c => negb (brackets c)) (skipn i s)).
Definition split_descriptor (desc : pystr) : pystr * pystr :=
  let s := strip desc in
  match rfind 40 s with
  | Some i => split_at s i
  | None => match rfind 91 s with Some i => split_at s i | None => (s, []) end
  end.
(** _assemble_dim_list (lines 113-138) *)
Fixpoint assemble {A} (d : list (pystr * A)) (names : list pystr) : list A :=
  match names with [] => [] | n :: r => match lookup n d with Some a => a :: assemble d r | None => assemble d r end end.
Definition last_part (s : pystr) : pystr := last (split_char 47 s) [].
Section Reader.
  (** sidpy.base.num_utils.get_slope *)
  Variable slope : list Q -> res Q.
  (** _get_dim_dict (lines 45-110) *)
  Definition dim_axis (ignore : bool) (name units : pystr) (v : list Q) : res uaxis :=
    match slope v with
    | Ok s => match v with [] => Err IndexError | q :: _ => Ok {| u_size := zlen v; u_name := name; u_units := units; u_scale := s; u_offset := q |} end
    | Err ValueError => if ignore then match v with [] => Err IndexError | _ => Ok {| u_size := zlen v; u_name := name; u_units := units; u_scale := 1; u_offset := 0 |} end
                        else Err ValueError
    | Err e => Err e
    end.
  Fixpoint dim_dict (ignore : bool) (values : pystr -> list Q) (l : list (pystr * pystr)) (acc : list (pystr * uaxis)) : res (list (pystr * uaxis)) :=
    match l with
    | [] => Ok acc
    | (name, units) :: r =>
        if zlen (values name) =? 1 then dim_dict ignore values r acc
        else let! a := dim_axis ignore name units (values name) in dim_dict ignore values r (put name a acc)
    end.
  (** Lines 283-293: the group of the dataset is looked at twice *)
  Definition parameters (d : dataset) : attrs :=
    if contains (str "Channel") (last_part (fst (d_group d))) then
      let a := snd (d_group d) in
      if contains (str "Measurement") (last_part (fst (d_group d))) then fold_left (fun r kv => put (fst kv) (snd kv) r) (snd (d_group d)) a else a
    else [].
  (** _usidataset_to_signal_dict (lines 232-330) *)
  Definition signals_of (ignore : bool) (d : dataset) : res (list usignal) :=
    let! pos := dim_dict ignore (d_pos_values d) (combine (d_pos d) (d_pos_units d)) [] in
    let! spec := dim_dict ignore (d_spec_values d) (combine (d_spec d) (d_spec_units d)) [] in
    match d_nd d with
    | None => Err ValueError
    | Some nd =>
        let k := List.length (d_pos d) in
        let axes := assemble pos (firstn k (n_labels nd)) ++ assemble spec (skipn k (n_labels nd)) in
        let make field qu type := {| s_quantity := fst qu; s_units := snd qu; s_type := type; s_uaxes := axes; s_shape := squeezed (n_shape nd); s_at := fun i => n_at nd field (expand (n_shape nd) i);
                                     s_title := last_part (d_path d); s_path := d_path d; s_parameters := parameters d |} in
        let qu := split_descriptor (d_descriptor d) in
        Ok match d_fields d with
           | Some names => map (fun n => make n (split_descriptor n) (fst qu)) names
           | None => [make [] qu []]
           end
    end.
  (** file_reader (lines 403-457) *)
  Definition usid_reader (ignore : bool) (file : list dataset) (path : option pystr) : res (list usignal) :=
    match path with
    | None => let! l := mapM (signals_of ignore) file in Ok (List.concat l)
    | Some p => match find (fun d => eqb_str (d_path d) p) file with Some d => signals_of ignore d | None => Err KeyError end
    end.
End Reader.

(** * Writing *)
Inductive tree := Leaf (v : Z) | Node (l : list (pystr * tree)).
Definition dict_of {A} (l : list (pystr * A)) : list (pystr * A) := fold_left (fun r kv => put (fst kv) (snd kv) r) l [].
(** _flatten_dict (lines 338-367) *)
Definition new_key (parent k : pystr) : pystr := match parent with [] => k | _ => parent ++ 45 :: k end.
Fixpoint flatten_tree (parent : pystr) (t : tree) : list (pystr * Z) :=
  match t with
  | Leaf v => [(parent, v)]
  | Node l => dict_of ((fix items l := match l with [] => [] | (k, v) :: r => flatten_tree (new_key parent k) v ++ items r end) l)
  end.
Definition flatten_dict (parent : pystr) (l : list (pystr * tree)) : list (pystr * Z) := flatten_tree parent (Node l).
Record saxis := { a_name : option pystr; a_units : option pystr; a_scale : Q; a_offset : Q; a_navigate : bool }.
Record dimension := { m_name : pystr; m_units : pystr; m_values : list Q }.
Definition named (o : option pystr) (default : pystr) : pystr := match o with Some s => match strip s with [] => default | t => t end | None => default end.
Definition arange (n : Z) (scale offset : Q) : list Q := map (fun i => inject_Z i * scale + offset)%Q (zseq 0 (Z.to_nat n)).
(** _axes_list_to_dimensions (lines 370-397); usid.Dimension("Arb", "a. u.", 1) has the values 0 *)
Fixpoint dimensions_from (i : nat) (type : string) (axes : list saxis) (shape : list Z) : res (list dimension) :=
  match axes with
  | [] => Ok []
  | a :: r =>
      if (List.length shape <? S i)%nat then Err IndexError else
      let! l := dimensions_from (S i) type r shape in
      Ok ({| m_name := named (a_name a) (str type ++ str "_Dim_" ++ str_int (Z.of_nat i)); m_units := named (a_units a) (str "a. u.");
             m_values := arange (nth (List.length shape - 1 - i) shape 0) (a_scale a) (a_offset a) |} :: l)
  end.
Definition axes_to_dimensions (axes : list saxis) (shape : list Z) (spec : bool) : res (list dimension) :=
  let! l := dimensions_from 0 (if spec then "Spec" else "Pos")%string axes shape in
  match l with [] => Ok [{| m_name := str "Arb"; m_units := str "a. u."; m_values := [0%Q] |}] | _ => Ok (rev l) end.
(** file_writer (lines 460-544) *)
Record written_usid := { w_rows : Z; w_cols : Z; w_flat : list Z; w_pos : list dimension; w_spec : list dimension; w_parms : list (pystr * Z) }.
Definition usid_writer (axes : list saxis) (shape : list Z) (flat : list Z) (metadata original : list (pystr * tree)) : res written_usid :=
  let parms := fold_left (fun r kv => put (fst kv) (snd kv) r) (flatten_dict (str "Original") original) (flatten_dict [] metadata) in
  let nav := rev (filter a_navigate axes) in
  let sig := rev (filter (fun a => negb (a_navigate a)) axes) in
  let n := List.length nav in
  let make rows cols p s := let! p := p in let! s := s in Ok {| w_rows := rows; w_cols := cols; w_flat := flat; w_pos := p; w_spec := s; w_parms := parms |} in
  if negb (n =? 0)%nat && negb (List.length sig =? 0)%nat then
    make (prodZ (firstn n shape)) (prodZ (skipn n shape)) (axes_to_dimensions nav (firstn n shape) false) (axes_to_dimensions sig (skipn n shape) true)
  else if (n =? 0)%nat then make 1 (prodZ shape) (axes_to_dimensions nav [] false) (axes_to_dimensions sig shape true)
  else make (prodZ shape) 1 (axes_to_dimensions nav shape false) (axes_to_dimensions sig [] true).
