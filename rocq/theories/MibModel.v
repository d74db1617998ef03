(** Model of /repo/rsciio/quantumdetector/_api.py.
    Simplifications, for the whole file:
    - memory maps are the frames they show; lazy loading and chunks are not modelled;
    - exposures are kept as text (line 372 turns them into floats);
    - numpy's product of the navigation shape does not overflow;
    - np.frombuffer with a negative count is not modelled ([NotImplementedError]). *)
From Verif Require Import Base Text Bytes Utf8 RowMajor HierModel SfsModel PySlice.

(** * Headers (MIBProperties.parse_file, lines 113-184) *)
Record props := { p_rows : Z; p_cols : Z; p_raw : bool; p_head : Z; p_item : Z; p_exposure : pystr; p_time : pystr }.
(** head[i]; negative indices count from the end *)
Definition head_at (l : list pystr) (i : Z) : res pystr :=
  let k := if i <? 0 then zlen l + i else i in
  if k <? 0 then Err IndexError else match nth_error l (Z.to_nat k) with Some s => Ok s | None => Err IndexError end.
Definition header_fields (n : Z) (f : list Z) : res (list pystr) := let! s := utf8_decode (firstz n f) in Ok (split_char 44 s).
(** Any error while decoding the first header is a RuntimeError.  [buffer]: the content is
    given as bytes; then there is no path to read a quad header from (line 164).  A size of
    the header or a type that is not known stays None, and making the type of a frame fails
    (lines 239-244; TypeError here). *)
Definition parse_file (buffer : bool) (f : list Z) : res props :=
  let! head := (match header_fields 384 f with Ok h => Ok h | Err _ => Err OtherError end) in
  let! s5 := head_at head 5 in let! rows := parse_int s5 in
  let! s4 := head_at head 4 in let! cols := parse_int s4 in
  let! s6 := head_at head 6 in
  let raw := eqb_str s6 (str "R64") in
  let! _ := head_at head 7 in
  let! s2 := head_at head 2 in
  let! (hs, head) :=
    (if eqb_str s2 (str "00768") then
       if buffer then Err TypeError else let! h := header_fields 768 f in Ok (Some 768, h)
     else Ok (if eqb_str s2 (str "00384") then Some 384 else None, head)) in
  let! s6 := head_at head 6 in
  let item := if raw then None else if eqb_str s6 (str "U08") then Some 1 else if eqb_str s6 (str "U16") then Some 2 else if eqb_str s6 (str "U32") then Some 4 else None in
  let! ex := head_at head (-3) in
  let! time := head_at head (-4) in
  match hs, item with
  | Some hs, Some item => Ok {| p_rows := rows; p_cols := cols; p_raw := raw; p_head := hs; p_item := item; p_exposure := ex; p_time := time |}
  | _, _ => Err (if raw then NotImplementedError else TypeError)
  end.

(** * Frames (load_mib_data, lines 238-344) *)
Definition frame_size (p : props) : Z := p_head p + p_rows p * p_cols p * p_item p.
Definition frames_in (p : props) (f : list Z) : Z := zlen f / frame_size p.
(** slice(first_frame, last_frame).indices(n): start and stop (line 260) *)
Definition bounds (n : Z) (first last : option Z) : Z * Z :=
  (match first with Some x => clip n 0 n x | None => 0 end, match last with Some x => clip n 0 n x | None => n end).
(** The navigation shape (lines 265-294) *)
Definition nav_shape (n start stop : Z) (nav : option (list Z)) : list Z :=
  match nav with
  | None => [stop - start]
  | Some ns =>
      if n <? prodZ ns then
        match ns with
        | n0 :: _ :: _ => if start =? 0 then [n / n0; n0] else [stop - start]
        | _ => [stop - start]
        end
      else if stop - start <? prodZ ns then [stop - start]
      else rev ns
  end.
(** np.memmap: negative sizes and maps that exceed the file are refused *)
Definition memmap (f : list Z) (sh : list Z) (offset itemsize : Z) : res (list (list Z)) :=
  if existsb (fun n => n <? 0) sh then Err ValueError
  else if zlen f <? offset + prodZ sh * itemsize then Err ValueError
  else Ok (records (Z.to_nat (prodZ sh)) (Z.to_nat itemsize) (skipz offset f)).
(** np.frombuffer(...).reshape(shape) *)
Definition frombuffer (f : list Z) (sh : list Z) (itemsize : Z) : res (list (list Z)) :=
  if existsb (fun n => n <? 0) sh then Err NotImplementedError
  else if zlen f <? prodZ sh * itemsize then Err ValueError
  else Ok (records (Z.to_nat (prodZ sh)) (Z.to_nat itemsize) f).
(** Shape of the navigation and frames (header and data together) *)
Definition load (buffer : bool) (p : props) (f : list Z) (first last : option Z) (nav : option (list Z)) : res (list Z * list (list Z)) :=
  let n := frames_in p f in
  let (start, stop) := bounds n first last in
  let sh := nav_shape n start stop nav in
  let! fr := (if buffer then frombuffer f sh (frame_size p) else memmap f sh (frame_size p * start) (frame_size p)) in
  Ok (sh, fr).
(** The fields header and data of a frame; numbers of the data are big-endian (line 238). *)
Definition frame_header (p : props) (fr : list Z) : list Z := firstz (p_head p) fr.
Definition frame_pixels (p : props) (fr : list Z) : list Z :=
  map be_val (records (Z.to_nat (p_rows p * p_cols p)) (Z.to_nat (p_item p)) (skipz (p_head p) fr)).

(** * Texts of the headers (lines 388-473) *)
(** headers[:max_index] *)
Definition upto (max_index : Z) {A} (l : list A) : list A :=
  let m := if 1 <? max_index then Z.min max_index (zlen l) else max_index in
  if m <? 0 then firstz (zlen l + m) l else firstz m l.
Definition parse_field (i max_index : Z) (headers : list (list Z)) : res (list pystr) :=
  mapM (fun h => let! s := utf8_decode h in head_at (split_char 44 s) i) (upto max_index headers).
Definition parse_exposures (max_index : Z) := parse_field (-3) max_index.
Definition parse_timestamps (max_index : Z) := parse_field (-4) max_index.

(** * The guess of the scan shape (file_reader, lines 537-583) *)
(** Times are integers; means are exact fractions. *)
Fixpoint diffs (l : list Z) : list Z := match l with a :: (b :: _) as l' => (b - a) :: diffs l' | _ => [] end.
Fixpoint first_above (s n : Z) (i : Z) (l : list Z) : option Z :=
  match l with [] => None | d :: l' => if s <? d * n then Some i else first_above s n (i + 1) l' end.
Definition frames_per_line (times : list Z) : Z :=
  let d := diffs times in
  match first_above (sumZ d) (zlen d) 0 d with Some i => i + 1 | None => 1 end.
(** [hdr]: frames per trigger and frames in acquisition of the hdr file *)
Definition guess_shape (hdr : option (Z * Z)) (times : list Z) : res (option (list Z)) :=
  let '(per, frames) := match hdr with Some (a, b) => (a, b) | None => (1, zlen times) end in
  let per := if per =? 1 then frames_per_line (upto 10000 times) else per in
  if frames =? 0 then Ok None
  else if per =? 0 then Err ZeroDivisionError
  else Ok (Some [per; frames / per]).

(** * hdr files (lines 357-368) *)
Fixpoint cut_tab (s : pystr) : option (pystr * pystr) :=
  match s with [] => None | c :: s' => if c =? 9 then Some ([], s') else match cut_tab s' with Some (a, b) => Some (c :: a, b) | None => None end end.
Fixpoint lstrip_char (c : Z) (s : pystr) : pystr := match s with x :: s' => if x =? c then lstrip_char c s' else s | [] => [] end.
Definition rstrip_char (c : Z) (s : pystr) : pystr := rev (lstrip_char c (rev s)).
(** Lines are given with their line break, as iterating over a text file does. *)
Fixpoint parse_hdr (lines : list pystr) (d : list (pystr * pystr)) : res (list (pystr * pystr)) :=
  match lines with
  | [] => Ok d
  | l :: lines' =>
      if startswith (str "HDR") l || startswith (str "End" ++ [9]) l then parse_hdr lines' d
      else match cut_tab l with
           | None => Err ValueError
           | Some (k, v) => parse_hdr lines' (put (rstrip_char 58 k) (rstrip_char 10 v) d)
           end
  end.

(** * The image returned by file_reader (lines 328-329, 585-614) *)
(** data.squeeze() *)
Definition squeeze (sh : list Z) : list Z := filter (fun n => negb (n =? 1)) sh.
(** np.flip(data, axis=-2) of an array kept as its shape and its elements in row-major order *)
Definition flip_rows (sh : list Z) (d : list Z) : res (list Z) :=
  match rev sh with
  | b :: a :: _ =>
      let m := if a * b =? 0 then 0 else zlen d / (a * b) in
      Ok (List.concat (map (fun ch => List.concat (rev (records (Z.to_nat a) (Z.to_nat b) ch)))
        (records (Z.to_nat m) (Z.to_nat (a * b)) d)))
  | _ => Err ValueError
  end.
Record image := { i_shape : list Z; i_data : list Z; i_axes : list (Z * bool) }.
(** Axes: size and whether they navigate. *)
Definition image_axes (sh : list Z) : list (Z * bool) :=
  combine sh (repeat true (List.length sh - 2) ++ [false; false]).
Definition read_image (p : props) (f : list Z) (first last : option Z) (nav : option (list Z)) : res image :=
  let! (sh, fr) := load false p f first last nav in
  let s := squeeze (sh ++ [p_rows p; p_cols p]) in
  let! d := flip_rows s (List.concat (map (frame_pixels p) fr)) in
  Ok {| i_shape := s; i_data := d; i_axes := image_axes s |}.
