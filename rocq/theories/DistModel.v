(** Model of rsciio/utils/_distributed.py: loading a memory mapped file chunk by chunk. *)
From Verif Require Import Base.

(** An n-dimensional array: its shape and its element at an index vector.  Elements at
    index vectors outside the shape are never used. *)
Record arr (A : Type) := Arr { shape : list Z; at_ : list Z -> A }.
Arguments Arr {A}. Arguments shape {A}. Arguments at_ {A}.

(** [_distributed.py:69-71] for one axis: [starts = int(np.sum(chunk[:i]))],
    [stops = s + c]. *)
Definition chunk_start (chunk : list Z) (i : nat) : Z := sumZ (firstn i chunk).
Definition chunk_stop (chunk : list Z) (i : nat) : Z := chunk_start chunk i + nth i chunk 0.

(** [_distributed.py:68-72]: the row [slices[ind]] for one chunk index [ind].  Chunks are
    those returned by [da.core.normalize_chunks] (line 60), i.e. one list of sizes per
    axis; that call is a parameter of the model. *)
Fixpoint get_chunk_slice (chunks : list (list Z)) (ind : list nat) : list (Z * Z) :=
  match chunks, ind with
  | c :: cs, i :: is => (chunk_start c i, chunk_stop c i) :: get_chunk_slice cs is
  | _, _ => []
  end.

(** Basic slicing with non-negative bounds: numpy clips the bounds to the axis length. *)
Fixpoint slice_shape (sl : list (Z * Z)) (sh : list Z) : list Z :=
  match sl, sh with
  | (a, b) :: sl', n :: sh' => Z.max 0 (Z.min b n - Z.min a n) :: slice_shape sl' sh'
  | _, _ => []
  end.

Fixpoint slice_index (sl : list (Z * Z)) (sh : list Z) (idx : list Z) : list Z :=
  match sl, sh, idx with
  | (a, _) :: sl', n :: sh', i :: idx' => (Z.min a n + i) :: slice_index sl' sh' idx'
  | _, _, _ => []
  end.

Definition np_slice {A} (data : arr A) (sl : list (Z * Z)) : arr A :=
  Arr (slice_shape sl (shape data)) (fun idx => at_ data (slice_index sl (shape data) idx)).

(** [_distributed.py:164, 176-182]: [slice_memmap] without positions.  The block of
    [slices] has shape (1,..,1,ndim,2); [np.squeeze] gives (ndim,2), or (2,) when
    ndim = 1, and lines 177-181 turn both into one slice per axis.  The memory map is the
    whole array [data]. *)
Definition slice_memmap {A} (data : arr A) (slices : list (Z * Z)) : arr A :=
  np_slice data slices.

(** dask puts element [loc] of block [ind] at [chunk starts + loc] (semantics of
    [da.map_blocks(..., chunks=data_chunks)], line 281-295). *)
Fixpoint global_index (chunks : list (list Z)) (ind : list nat) (loc : list Z) : list Z :=
  match chunks, ind, loc with
  | c :: cs, i :: is, l :: ls => (sumZ (firstn i c) + l) :: global_index cs is ls
  | _, _, _ => []
  end.

(** The declared shape of block [ind]. *)
Fixpoint block_shape (chunks : list (list Z)) (ind : list nat) : list Z :=
  match chunks, ind with
  | c :: cs, i :: is => nth i c 0 :: block_shape cs is
  | _, _ => []
  end.

(** Numpy index normalisation: negative indices count from the end. *)
Definition norm_index (n p : Z) : res Z :=
  if (0 <=? p) && (p <? n) then Ok p
  else if (- n <=? p) && (p <? 0) then Ok (p + n)
  else Err IndexError.

Fixpoint norm_indices (sh p : list Z) : res (list Z) :=
  match sh, p with
  | [], [] => Ok []
  | n :: sh', i :: p' =>
      let! j := norm_index n i in
      let! js := norm_indices sh' p' in Ok (j :: js)
  | _, _ => Err IndexError
  end.

Fixpoint eqb_zs (a b : list Z) : bool :=
  match a, b with
  | [], [] => true
  | x :: a', y :: b' => (x =? y) && eqb_zs a' b'
  | _, _ => false
  end.

(** [_distributed.py:118-122]: [pos_mapping], over the navigation shape only (its two
    trailing axes have length one).  Each position is taken to have one coordinate per
    navigation axis. *)
Fixpoint fill_positions (nav : list Z) (m : list Z -> Z) (i : Z) (positions : list (list Z))
  : res (list Z -> Z) :=
  match positions with
  | [] => Ok m
  | p :: ps =>
      let! q := norm_indices nav p in
      fill_positions nav (fun g => if eqb_zs g q then i + 1 else m g) (i + 1) ps
  end.

Definition pos_mapping (nav : list Z) (positions : list (list Z)) : res (list Z -> Z) :=
  let! m := fill_positions nav (fun _ => 0) 0 positions in
  Ok (fun g => m g - 1).

(** [np.squeeze]: axes of length one are dropped. *)
Definition squeeze_shape (sh : list Z) : list Z := filter (fun n => negb (n =? 1)) sh.

(** [_distributed.py:168-175]: [slice_memmap] with positions, for a block of [pos_mapping]
    of navigation shape [bsh] with entries [m]; [frames] are the frames in the file,
    in acquisition order, and [zero] is the zero frame.
    - [np.squeeze] drops navigation axes of length one; when all have length one the
      result is a scalar (line 164, [[()]]) and [-1 in slices_] raises TypeError.
    - [data[slices_]] is fancy indexing: negative entries count from the end.
    The result is given as the shape of its navigation part and the frame for each
    element in row-major order. *)
Definition take_frame {F} (frames : list F) (i : Z) (d : F) : res F :=
  let! j := norm_index (Z.of_nat (List.length frames)) i in
  Ok (nth (Z.to_nat j) frames d).

Fixpoint take_frames {F} (frames : list F) (zero : F) (l : list Z) : res (list F) :=
  match l with
  | [] => Ok []
  | i :: l' =>
      let! f := take_frame frames i zero in
      let! fs := take_frames frames zero l' in
      Ok ((if i =? -1 then zero else f) :: fs)
  end.

Definition slice_memmap_positions {F} (frames : list F) (zero : F)
  (bsh : list Z) (m : list Z) : res (list Z * list F) :=
  match squeeze_shape bsh with
  | [] => Err TypeError
  | sq => let! fs := take_frames frames zero m in Ok (sq, fs)
  end.

(** Index vectors of a box in row-major order. *)
Fixpoint box_indices (sh : list Z) : list (list Z) :=
  match sh with
  | [] => [[]]
  | n :: sh' => flat_map (fun i => map (cons i) (box_indices sh')) (zseq 0 (Z.to_nat n))
  end.

(** [_distributed.py:127, 281]: block [ind] of the mapping handed to [slice_memmap]. *)
Definition mapping_block (m : list Z -> Z) (navchunks : list (list Z)) (ind : list nat) : list Z :=
  map (fun loc => m (global_index navchunks ind loc)) (box_indices (block_shape navchunks ind)).

(** The frames of block [ind]; [positions] has one entry per frame in the file (line 267). *)
Definition load_block {F} (frames : list F) (zero : F) (nav : list Z)
  (positions : list (list Z)) (navchunks : list (list Z)) (ind : list nat)
  : res (list Z * list F) :=
  let! m := pos_mapping nav positions in
  slice_memmap_positions frames zero (block_shape navchunks ind) (mapping_block m navchunks ind).
