(** Models of array helpers: rsciio/utils/rgb.py, and the ragged array and chunking
    functions at the top of rsciio/_hierarchical.py. *)
From Verif Require Import Base.

(** * rsciio/utils/rgb.py *)

(** Element types: unsigned of 8 or 16 bit, or anything else. *)
Inductive dtype := U1 | U2 | Other.

(** A contiguous regular array: element type, shape, elements in row-major order. *)
Record regular := Regular { r_dtype : dtype; r_shape : list Z; r_flat : list Z }.

(** An array of dtype RGB8/RGB16 (three fields) or RGBA8/RGBA16 (four): [rgb.py:40-45].
    Each element is the list of its fields in the order R, G, B(, A). *)
Record rgbx := Rgbx { x_dtype : dtype; x_fields : nat; x_shape : list Z; x_flat : list (list Z) }.

(** Reading memory in groups of [c] consecutive elements: numpy's [view] with a structured
    type of [c] equal fields. *)
Fixpoint groups (c : nat) (n : nat) (l : list Z) : list (list Z) :=
  match n with
  | O => []
  | S n' => firstn c l :: groups c n' (skipn c l)
  end.

Definition prodZ (l : list Z) : Z := fold_right Z.mul 1 l.

(** [rgb.py:151-184] regular_array2rgbx.  The array is taken to be C contiguous (lines
    166-171 make a contiguous copy otherwise). *)
Definition regular_array2rgbx (a : regular) : res rgbx :=
  match rev (r_shape a) with
  | [] => Err IndexError
  | c :: nav =>
      if (c =? 3) || (c =? 4) then
        match r_dtype a with
        | Other => Err ValueError
        | dt => Ok (Rgbx dt (Z.to_nat c) (rev nav)
                     (groups (Z.to_nat c) (Z.to_nat (prodZ (rev nav))) (r_flat a)))
        end
      else Err ValueError
  end.

(** [rgb.py:106-145] rgbx2regular_array, with [plot_friendly=False]: [view((dt, c))]. *)
Definition rgbx2regular_array (x : rgbx) : regular :=
  Regular (x_dtype x) (x_shape x ++ [Z.of_nat (x_fields x)]) (List.concat (x_flat x)).

(** * Ragged arrays, rsciio/_hierarchical.py *)

(** A numeric numpy array inside a ragged array: integer or float type, shape, and
    elements as multiples of 1/1024.  (Strings are not modelled.) *)
Record cell := Cell { c_int : bool; c_shape : list Z; c_flat : list Z }.

(** [_hierarchical.py:44-60] flatten_data: raveled cells and their shapes.  The cells are
    listed in the order of [np.ndindex]; the outer shape is kept as it is. *)
Definition flatten_data (x : list cell) : list cell * list (list Z) :=
  (map (fun c => Cell (c_int c) [Z.of_nat (List.length (c_flat c))] (c_flat c)) x, map c_shape x).

(** [hspy/_api.py, zspy/_api.py: _get_object_dset]: the dataset's element type is that of
    the first cell; storing converts every cell to it (float to integer truncates). *)
Definition store_ragged (x : list cell) : list cell :=
  match x with
  | [] => []
  | c0 :: _ => map (fun c => Cell (c_int c0) (c_shape c)
        (if c_int c0 && negb (c_int c) then map (fun v => Z.quot v 1024 * 1024) (c_flat c) else c_flat c)) x
  end.

(** [_hierarchical.py:63-85] unflatten_data: [np.reshape(data[i], shape[i])]. *)
Definition reshape (c : cell) (sh : list Z) : res cell :=
  if prodZ sh =? Z.of_nat (List.length (c_flat c)) then Ok (Cell (c_int c) sh (c_flat c))
  else Err ValueError.

Fixpoint unflatten_data (data : list cell) (shapes : list (list Z)) : res (list cell) :=
  match data, shapes with
  | c :: data', sh :: shapes' =>
      let! c' := reshape c sh in
      let! r := unflatten_data data' shapes' in Ok (c' :: r)
  | _, _ => Ok []
  end.

(** Writing and reading a ragged array. *)
Definition ragged_round_trip (x : list cell) : res (list cell) :=
  let (data, shapes) := flatten_data x in unflatten_data (store_ragged data) shapes.

(** * get_signal_chunks, _hierarchical.py:91-157 *)
Section Chunks.
(** [int(np.floor((n / d) ** (1 / k)))], computed in floating point. *)
Variable root : Z -> Z -> Z -> Z.

Definition memb (i : Z) (l : list Z) : bool := existsb (Z.eqb i) l.

(** Sizes of the axes whose index satisfies [f]; [i] is the index of the first. *)
Fixpoint select (f : Z -> bool) (i : Z) (shape : list Z) : list Z :=
  match shape with
  | [] => []
  | s :: shape' => if f i then s :: select f (i + 1) shape' else select f (i + 1) shape'
  end.

(** Lines 145-152: append every axis smaller than [nac] to the small ones. *)
Fixpoint add_small (nac : Z) (is_sig : Z -> bool) (i : Z) (shape : list Z)
  (small_idx small_sizes : list Z) (iterate : bool) : list Z * list Z * bool :=
  match shape with
  | [] => (small_idx, small_sizes, iterate)
  | s :: shape' =>
      if negb (is_sig i || memb i small_idx) && (s <? nac)
      then add_small nac is_sig (i + 1) shape' (small_idx ++ [i]) (small_sizes ++ [s]) true
      else add_small nac is_sig (i + 1) shape' small_idx small_sizes iterate
  end.

(** Lines 132-152: the loop, returning [nav_axes_chunks] and [small_idx]. *)
Fixpoint chunk_loop (fuel : nat) (spc nnav : Z) (is_sig : Z -> bool) (shape : list Z)
  (small_idx small_sizes : list Z) : res (Z * list Z) :=
  match fuel with
  | O => Err OutOfFuel
  | S fuel' =>
      let k := nnav - Z.of_nat (List.length small_sizes) in
      if k =? 0 then Err ZeroDivisionError
      else
        let nac := root spc (prodZ small_sizes) k in
        match add_small nac is_sig 0 shape small_idx small_sizes false with
        | (idx, sizes, true) => chunk_loop fuel' spc nnav is_sig shape idx sizes
        | (idx, _, false) => Ok (nac, idx)
        end
  end.

(** Map with index. *)
Fixpoint mapi {A B} (f : Z -> A -> B) (i : Z) (l : list A) : list B :=
  match l with [] => [] | x :: l' => f i x :: mapi f (i + 1) l' end.

(** The function, for [signal_axes] given (with None h5py chooses, line 109-111).  A
    signal axis of length zero makes [np.floor_divide] return infinity or nan and
    [int] raises.  [shape == (0,)] is left to h5py ([None]). *)
Definition get_signal_chunks (shape : list Z) (typesize : Z) (signal_axes : list Z) (target : Z)
  : res (option (list Z)) :=
  match shape with
  | [0] => Ok None
  | _ =>
    let is_sig i := memb i signal_axes in
    let bytes_per_signal := prodZ (select is_sig 0 shape) * typesize in
    if bytes_per_signal =? 0 then Err OverflowError
    else
      let spc := target / bytes_per_signal in
      let nav := select (fun i => negb (is_sig i)) 0 shape in
      let nnav := Z.of_nat (List.length nav) in
      if (spc <? 2) || (nnav =? 0) then
        Ok (Some (mapi (fun i s => if is_sig i then s else 1) 0 shape))
      else if prodZ nav <? spc then Ok (Some shape)
      else
        let! (nac, small) := chunk_loop (S (List.length shape)) spc nnav is_sig shape [] [] in
        Ok (Some (mapi (fun i s => if is_sig i || memb i small then s else nac) 0 shape))
  end.
End Chunks.
