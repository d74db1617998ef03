(** Model of the FEI/Velox EDS event stream readers,
    /repo/rsciio/utils/_fei_stream_readers.py.

    A stream is a list of integers (16-bit words); 65535 is the marker moving to the
    next pixel.  Arrays are functions from their indices to integers; the arithmetic of
    numpy dtypes is written as [mod 2^w].  A write outside the array is [IndexError], as
    in the pure Python execution of the function (with numba the write is unchecked). *)
From Verif Require Import Base.

(** Frame, row, column, channel bin. *)
Definition cube4 := Z -> Z -> Z -> Z -> Z.
(** Row, column, channel bin. *)
Definition cube3 := Z -> Z -> Z -> Z.

Definition zeros4 : cube4 := fun _ _ _ _ => 0.
Definition zeros3 : cube3 := fun _ _ _ => 0.

(** [a[f, y, x, c] += 1] for a dtype of [w] bits. *)
Definition incr4 (w : Z) (a : cube4) (f y x c : Z) : cube4 :=
  fun f' y' x' c' =>
    if (f' =? f) && (y' =? y) && (x' =? x) && (c' =? c)
    then (a f y x c + 1) mod 2 ^ w else a f' y' x' c'.
Definition incr3 (w : Z) (a : cube3) (y x c : Z) : cube3 :=
  fun y' x' c' =>
    if (y' =? y) && (x' =? x) && (c' =? c)
    then (a y x c + 1) mod 2 ^ w else a y' x' c'.

(** _fei_stream_readers.py:292-317 [_fill_array_with_stream]; [nch] is the length of the
    channel axis of [spectrum_image] ([shape[3]]).  The loop over [np.nditer(stream)] is
    the recursion on the list.  Only the channel index can leave the array, see the
    theorem [fill_frames_in_range] in FeiProof.v. *)
Fixpoint fill_array_with_stream (w ysize xsize nch first_frame last_frame rebin : Z)
    (nav frame : Z) (a : cube4) (stream : list Z) : res cube4 :=
  match stream with
  | [] => Ok a
  | v :: rest =>
      let at_end := nav =? ysize * xsize in
      let nav := if at_end then 0 else nav in
      let frame := if at_end then frame + 1 else frame in
      if at_end && (frame =? last_frame) then Ok a
      else if negb (v =? 65535) then
        if first_frame <=? frame then
          if v / rebin <? nch then
            fill_array_with_stream w ysize xsize nch first_frame last_frame rebin nav frame
              (incr4 w a (frame - first_frame) (nav / xsize) (nav mod xsize) (v / rebin)) rest
          else Err IndexError
        else fill_array_with_stream w ysize xsize nch first_frame last_frame rebin nav frame a rest
      else fill_array_with_stream w ysize xsize nch first_frame last_frame rebin (nav + 1) frame a rest
  end.

(** _fei_stream_readers.py:264-289 [_fill_array_with_stream_sum_frames]. *)
Fixpoint fill_array_with_stream_sum (w ysize xsize nch first_frame last_frame rebin : Z)
    (nav frame : Z) (a : cube3) (stream : list Z) : res cube3 :=
  match stream with
  | [] => Ok a
  | v :: rest =>
      let at_end := nav =? ysize * xsize in
      let nav := if at_end then 0 else nav in
      let frame := if at_end then frame + 1 else frame in
      if at_end && (frame =? last_frame) then Ok a
      else if negb (v =? 65535) then
        if first_frame <=? frame then
          if v / rebin <? nch then
            fill_array_with_stream_sum w ysize xsize nch first_frame last_frame rebin nav frame
              (incr3 w a (nav / xsize) (nav mod xsize) (v / rebin)) rest
          else Err IndexError
        else fill_array_with_stream_sum w ysize xsize nch first_frame last_frame rebin nav frame a rest
      else fill_array_with_stream_sum w ysize xsize nch first_frame last_frame rebin (nav + 1) frame a rest
  end.

(** _fei_stream_readers.py:320-386 [stream_to_array] with [sum_frames=False] and
    [spectrum_image=None].  [int(channels / rebin_energy)] is a float division, equal to
    the integer division for sizes below 2^53. *)
Definition stream_to_array_frames (w ysize xsize channels last_frame first_frame rebin : Z)
    (stream : list Z) : res cube4 :=
  fill_array_with_stream w ysize xsize (channels / rebin) first_frame last_frame rebin 0 0 zeros4 stream.

(** Same lines with [sum_frames=True]. *)
Definition stream_to_array_sum (w ysize xsize channels last_frame first_frame rebin : Z)
    (stream : list Z) : res cube3 :=
  fill_array_with_stream_sum w ysize xsize (channels / rebin) first_frame last_frame rebin 0 0 zeros3 stream.

(** One stored element of the sparse array: coordinates and value. *)
Record coo4 := Coo4 { c4_frame : Z; c4_y : Z; c4_x : Z; c4_c : Z; c4_data : Z }.
Record coo3 := Coo3 { c3_y : Z; c3_x : Z; c3_c : Z; c3_data : Z }.

(** _fei_stream_readers.py:126-214 [_stream_to_sparse_COO_array].  [data] is the pending
    count and [ch] the pending channel ([None] in Python while [data] is 0).  The dummy
    first element of the lists (49-50, removed at the end) is left out.  The appended
    elements are emitted in order. *)
Fixpoint sparse_frames (xsize frame_size first_frame last_frame rebin : Z)
    (nav frame data ch : Z) (stream : list Z) : list coo4 :=
  let emit := Coo4 (frame - first_frame) (nav / xsize) (nav mod xsize) (ch / rebin) data in
  match stream with
  | [] => if negb (data =? 0) then [emit] else []
  | v :: rest =>
      if frame <? first_frame then
        if negb (v =? 65535) then
          sparse_frames xsize frame_size first_frame last_frame rebin nav frame data ch rest
        else
          if nav + 1 =? frame_size then
            sparse_frames xsize frame_size first_frame last_frame rebin 0 (frame + 1) data ch rest
          else
            sparse_frames xsize frame_size first_frame last_frame rebin (nav + 1) frame data ch rest
      else
        let at_end := nav =? frame_size in
        let nav := if at_end then 0 else nav in
        let frame := if at_end then frame + 1 else frame in
        let emit := Coo4 (frame - first_frame) (nav / xsize) (nav mod xsize) (ch / rebin) data in
        if at_end && (frame =? last_frame) then
          (* break, then the code after the loop *)
          if negb (data =? 0) then [emit] else []
        else if negb (v =? 65535) then
          if negb (data =? 0) then
            if v =? ch then
              sparse_frames xsize frame_size first_frame last_frame rebin nav frame (data + 1) ch rest
            else
              emit :: sparse_frames xsize frame_size first_frame last_frame rebin nav frame 1 v rest
          else sparse_frames xsize frame_size first_frame last_frame rebin nav frame 1 v rest
        else
          (if negb (data =? 0) then [emit] else []) ++
          sparse_frames xsize frame_size first_frame last_frame rebin (nav + 1) frame 0 ch rest
  end.

(** _fei_stream_readers.py:38-123 [_stream_to_sparse_COO_array_sum_frames]. *)
Fixpoint sparse_sum (xsize frame_size first_frame last_frame rebin : Z)
    (nav frame data ch : Z) (stream : list Z) : list coo3 :=
  let emit := Coo3 (nav / xsize) (nav mod xsize) (ch / rebin) data in
  match stream with
  | [] => if negb (data =? 0) then [emit] else []
  | v :: rest =>
      if frame <? first_frame then
        if negb (v =? 65535) then
          sparse_sum xsize frame_size first_frame last_frame rebin nav frame data ch rest
        else
          if nav + 1 =? frame_size then
            sparse_sum xsize frame_size first_frame last_frame rebin 0 (frame + 1) data ch rest
          else
            sparse_sum xsize frame_size first_frame last_frame rebin (nav + 1) frame data ch rest
      else
        let at_end := nav =? frame_size in
        let nav := if at_end then 0 else nav in
        let frame := if at_end then frame + 1 else frame in
        let emit := Coo3 (nav / xsize) (nav mod xsize) (ch / rebin) data in
        if at_end && (frame =? last_frame) then
          if negb (data =? 0) then [emit] else []
        else if negb (v =? 65535) then
          if negb (data =? 0) then
            if v =? ch then
              sparse_sum xsize frame_size first_frame last_frame rebin nav frame (data + 1) ch rest
            else
              emit :: sparse_sum xsize frame_size first_frame last_frame rebin nav frame 1 v rest
          else sparse_sum xsize frame_size first_frame last_frame rebin nav frame 1 v rest
        else
          (if negb (data =? 0) then [emit] else []) ++
          sparse_sum xsize frame_size first_frame last_frame rebin (nav + 1) frame 0 ch rest
  end.

(** The dense view of a COO array: duplicate coordinates are summed, as by the
    [sparse.COO] constructor behind [DenseSliceCOO] (217-261). *)
Definition coo4_dense (l : list coo4) : cube4 := fun f y x c =>
  sumZ (map (fun e => if (c4_frame e =? f) && (c4_y e =? y) && (c4_x e =? x) && (c4_c e =? c)
                      then c4_data e else 0) l).
Definition coo3_dense (l : list coo3) : cube3 := fun y x c =>
  sumZ (map (fun e => if (c3_y e =? y) && (c3_x e =? x) && (c3_c e =? c)
                      then c3_data e else 0) l).

(** _fei_stream_readers.py:217-261 [stream_to_sparse_COO_array]. *)
Definition stream_to_sparse_frames (ysize xsize last_frame first_frame rebin : Z)
    (stream : list Z) : cube4 :=
  coo4_dense (sparse_frames xsize (xsize * ysize) first_frame last_frame rebin 0 0 0 0 stream).
Definition stream_to_sparse_sum (ysize xsize last_frame first_frame rebin : Z)
    (stream : list Z) : cube3 :=
  coo3_dense (sparse_sum xsize (xsize * ysize) first_frame last_frame rebin 0 0 0 0 stream).

(** _fei_stream_readers.py:389-412 [array_to_stream]: the loop over the flattened array.
    [range(value)] is empty for negative values. *)
Fixpoint array_to_stream_loop (channels channel : Z) (flat : list Z) : list Z :=
  match flat with
  | [] => []
  | value :: rest =>
      repeat channel (Z.to_nat value) ++
      (let channel := channel + 1 in
       if channel mod channels =? 0
       then 65535 :: array_to_stream_loop channels 0 rest
       else array_to_stream_loop channels channel rest)
  end.

(** [stream_data[:-1]] drops the last element. *)
Definition array_to_stream (channels : Z) (flat : list Z) : list Z :=
  removelast (array_to_stream_loop channels 0 flat).
