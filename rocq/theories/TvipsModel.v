(** Model of the TVIPS reader and writer, /repo/rsciio/tvips/_api.py.
    Simplifications: a directory is a list of (file name, bytes); pixels are raw bytes; the
    header numbers taken from metadata (scale, offsets, energies, stage) and the time stamps
    are given as 32-bit patterns; the lazy branches (same slices through dask) and the
    progress bar are left out. *)
From Verif Require Import Base Text Bytes HierModel RowMajor.

Definition dir := list (pystr * list Z).

(** Signal as the writer sees it.  [frames] are the images in row-major navigation order. *)
Record tsig := mkTsig {
  t_nav : list Z; t_dimy : Z; t_dimx : Z; t_item : Z;    (* bytes per pixel *)
  t_frames : list (list Z);
  t_offx : Z; t_offy : Z; t_pix : Z; t_ht : Z; t_mag : Z;
  t_mode : Z; t_stage : list Z;                           (* fcurrent, x, y, z, a, b *)
  t_stamp : Z -> Z; t_ms : Z -> Z }.

(** TVIPS_RECORDER_GENERAL_HEADER (lines 45-60) filled by _get_main_header_from_signal
    (lines 108-160). *)
Definition dummy : list Z := List.concat (repeat (str "HYPERSPY ") 22) ++ str "HYPERS".
Definition main_header (version extra : Z) (s : tsig) : list Z :=
  flat_map (le 4) [256; version; t_dimx s; t_dimy s; t_item s * 8; t_offx s; t_offy s; 1; 1;
                   t_pix s; t_ht s; t_mag s; 60 + extra] ++ dummy.

(** TVIPS_RECORDER_FRAME_HEADER (lines 63-80), the extra bytes and the image: one record of
    the memory map filled in lines 625-645. *)
Definition frame_header (s : tsig) (i : Z) : list Z :=
  flat_map (le 4) [0; t_stamp s i; t_ms s i; 0; nth 0 (t_stage s) 0; 0; t_mode s;
                   nth 1 (t_stage s) 0; nth 2 (t_stage s) 0; nth 3 (t_stage s) 0;
                   nth 4 (t_stage s) 0; nth 5 (t_stage s) 0; i + 1; 0; 0].
Definition record (extra : Z) (s : tsig) (i : Z) : list Z :=
  frame_header s i ++ repeat 0 (Z.to_nat extra) ++ nth (Z.to_nat i) (t_frames s) [].
Definition record_size (extra : Z) (s : tsig) : Z := 60 + extra + t_dimy s * t_dimx s * t_item s.

(** [f"{file_index}".zfill(3)] and ["{:03d}"]. *)
Definition zfill3 (n : Z) : pystr := let d := dec n in repeat 48 (3 - List.length d) ++ d.
Definition part_name (fnb ext : pystr) (i : Z) : pystr := fnb ++ [95] ++ zfill3 i ++ ext.

(** The loop of lines 607-650.  A memory map of no records cannot be made. *)
Fixpoint write_loop (fuel : nat) (fnb ext : pystr) (maxsize rsz : Z) (hdr : list Z) (rc : Z -> list Z)
         (todo cur idx : Z) (d : dir) : res dir :=
  match fuel with
  | O => Err OutOfFuel
  | S f =>
      if todo =? 0 then Ok d
      else
        let start := if idx =? 0 then hdr else [] in
        let saved := (maxsize - Z.of_nat (List.length start)) / rsz in
        let saved := if todo <? saved then todo else saved in
        if saved <=? 0 then Err ValueError
        else
          let content := start ++ flat_map rc (zseq cur (Z.to_nat saved)) in
          write_loop f fnb ext maxsize rsz hdr rc (todo - saved) (cur + saved) (idx + 1)
                     (put (part_name fnb ext idx) content d)
  end.

(** file_writer (lines 512-650) with fnb, ext = os.path.splitext(filename).  Without a
    navigation axis [time_increment] is never assigned (lines 586-594, 632). *)
Definition strip_000 (fnb : pystr) : pystr :=
  if endswith (str "_000") fnb then firstn (List.length fnb - 4) fnb else fnb.
Definition tvips_write (fnb ext : pystr) (s : tsig) (maxsize : option Z) (version extra : Z) (d : dir) : res dir :=
  let fnb := strip_000 fnb in
  let n := match t_nav s with [] => 0 | nav => prodZ nav end in
  let rsz := record_size extra s in
  let m := match maxsize with Some m => m | None => 256 + n * rsz end in
  let m := if m <? 256 + rsz then 256 + rsz else m in
  if n =? 0 then Err NameError
  else write_loop (S (Z.to_nat n)) fnb ext m rsz (main_header version extra s) (record extra s) n 0 0 d.

(** _is_valid_first_tvips_file (lines 174-186). *)
Definition valid_first (name : pystr) : bool :=
  let r := rev name in
  eqb_str (lower (rev (firstn 5 r))) (str "tvips")
  && eqb_str (rev (firstn 5 (skipn 5 r))) (str "_000.") && (10 <? Z.of_nat (List.length name)).

(** Lines 275-286: the numbered files that exist, in order. *)
Fixpoint other_files (fuel : nat) (base ext : pystr) (i : Z) (d : dir) : res (list (list Z)) :=
  match fuel with
  | O => Err OutOfFuel
  | S f => match lookup (base ++ zfill3 i ++ ext) d with
           | None => Ok []
           | Some b => let! r := other_files f base ext (i + 1) d in Ok (b :: r)
           end
  end.

(** np.memmap of whole records. *)
Definition memmap (rsz : Z) (b : list Z) : res (list (list Z)) :=
  let n := Z.of_nat (List.length b) in
  if (n =? 0) || negb (n mod rsz =? 0) then Err ValueError
  else Ok (records (Z.to_nat (n / rsz)) (Z.to_nat rsz) b).
Fixpoint memmaps (rsz : Z) (bs : list (list Z)) : res (list (list Z)) :=
  match bs with
  | [] => Ok []
  | b :: bs' => let! r := memmap rsz b in let! rs := memmaps rsz bs' in Ok (r ++ rs)
  end.

Definition word (i : nat) (b : list Z) : Z := le_val (slice (4 * i) 4 b).

(** Images, rotator indices and time stamps of all records (lines 288-346). *)
Record stack := mkStack { k_dimy : Z; k_dimx : Z; k_item : Z; k_frames : list (list Z); k_rot : list Z; k_time : list (Z * Z) }.
Definition load_stack (name : pystr) (d : dir) : res stack :=
  if negb (valid_first name) then Err ValueError
  else
    let n := List.length name in
    let! others := other_files (S (List.length d)) (firstn (n - 9) name) (skipn (n - 6) name) 1 d in
    match lookup name d with
    | None => Err IOError
    | Some b =>
        if Z.of_nat (List.length b) <? 256 then Err IndexError
        else
          let item := word 4 b / 8 in
          if negb ((item =? 1) || (item =? 2) || (item =? 4) || (item =? 8)) then Err TypeError
          else
            let dimx := word 2 b in let dimy := word 3 b in
            let! inc := (if word 1 b =? 1 then Ok 12 else if word 1 b =? 2 then Ok (word 12 b) else Err NotImplementedError) in
            if inc <? 60 then Err ValueError
            else
              let rsz := inc + dimy * dimx * item in
              let! r0 := memmap rsz (skipz (word 0 b) b) in
              let! rs := memmaps rsz others in
              let recs := r0 ++ rs in
              Ok (mkStack dimy dimx item (map (skipz inc) recs) (map (word 12) recs) (map (fun r => (word 1 r, word 2 r)) recs))
    end.

(** *** Scan grids *)
Inductive scan := SNone | SAuto | SShape (sh : list Z).
Inductive winding := WX | WY.

(** np.roll of a list. *)
Definition roll (h : Z) (l : list Z) : list Z :=
  let n := Z.of_nat (List.length l) in
  map (fun i => nth (Z.to_nat ((i - h) mod n)) l 0) (zseq 0 (List.length l)).
(** Lines 391-394 on one grid: every second line, from the first, reversed and rolled. *)
Fixpoint wind_lines (h : Z) (even : bool) (m : list (list Z)) : list (list Z) :=
  match m with
  | [] => []
  | row :: m' => (if even then roll h (rev row) else row) :: wind_lines h (negb even) m'
  end.
Definition transpose (nc : nat) (m : list (list Z)) : list (list Z) :=
  map (fun i => map (fun row => nth i row 0) m) (seq 0 nc).
Definition wind_grid (w : winding) (h : Z) (ny nx : nat) (m : list (list Z)) : list (list Z) :=
  match w with
  | WX => wind_lines h true m
  | WY => transpose ny (wind_lines h true (transpose nx m))
  end.
(** Lines 388-400 on the array of indices of shape [sh], given in row-major order. *)
Definition wind (w : winding) (h : Z) (sh : list Z) (ix : list Z) : res (list Z) :=
  match rev sh with
  | nx :: ny :: pre =>
      let grids := records (Z.to_nat (prodZ pre)) (Z.to_nat (ny * nx)) ix in
      Ok (flat_map (fun g => List.concat (wind_grid w h (Z.to_nat ny) (Z.to_nat nx) (records (Z.to_nat ny) (Z.to_nat nx) g))) grids)
  | _ => Err IndexError
  end.

(** _find_auto_scan_start_stop (lines 189-199); the indices are unsigned 32 bit, so every
    change counts as an increase. *)
Fixpoint changes (i : Z) (l : list Z) : list Z :=
  match l with
  | a :: ((b :: _) as l') => if 0 <? (b - a) mod 2 ^ 32 then i :: changes (i + 1) l' else changes (i + 1) l'
  | _ => []
  end.
Definition auto_start_stop (rot : list Z) : option (Z * Z) :=
  match changes 0 rot with
  | [] => None
  | i :: r => Some (if nth (Z.to_nat i) rot 0 =? 0 then i + 1 else i, last (i :: r) 0 + 1)
  end.

(** _guess_scan_index_grid (lines 202-218), for rotator indices that start at one or more and
    never decrease; others are reported as [OtherError]. *)
Definition set_from (pos : nat) (vs : list Z) (l : list Z) : list Z := firstn pos l ++ vs ++ skipn (pos + List.length vs) l.
Fixpoint guess_loop (rot : list Z) (i inv vinv : Z) (ix : list Z) : res (list Z * Z * Z) :=
  match rot with
  | [] => Ok (ix, inv, vinv)
  | v :: rot' =>
      if v =? vinv then guess_loop rot' (i + 1) inv vinv ix
      else if v <? vinv then Err OtherError
      else
        let span := v - vinv in
        let stack := zseq inv (Z.to_nat (Z.min (i - inv) span)) in
        let ix1 := set_from (Z.to_nat (vinv - 1)) (repeat (last stack 0) (Z.to_nat span)) ix in
        let ix2 := set_from (Z.to_nat (vinv - 1)) stack ix1 in
        guess_loop rot' (i + 1) i v ix2
  end.
Definition guess_grid (rot : list Z) (start stop : Z) : res (list Z) :=
  let n := nth (Z.to_nat stop) rot 0 in
  match slice (Z.to_nat start) (Z.to_nat (stop + 1 - start)) rot with
  | [] => Err IndexError
  | v0 :: r =>
      if v0 <=? 0 then Err OtherError
      else
        let! (ix, inv, vinv) := guess_loop (v0 :: r) 0 0 v0 (repeat 0 (Z.to_nat n)) in
        Ok (map (fun x => x + start) (set_from (Z.to_nat (vinv - 1)) (repeat inv (Z.to_nat (n - (vinv - 1)))) ix))
  end.

(** Lines 351-386: the grid of frame numbers and its shape.  np.allclose (line 365) lets some
    numbers pass that are no squares; they fail in the reshape instead. *)
Definition scan_indices (sc : list Z + unit) (start : Z) (k : stack) : res (list Z * list Z) :=
  match sc with
  | inr _ =>
      match auto_start_stop (k_rot k) with
      | None => Err ValueError
      | Some (a, b) =>
          let total := nth (Z.to_nat b) (k_rot k) 0 in
          let n := Z.sqrt total in
          if negb (n * n =? total) then Err ValueError
          else let! ix := guess_grid (k_rot k) a b in Ok ([n; n], ix)
      end
  | inl sh =>
      let total := prodZ sh in
      if Z.of_nat (List.length (k_frames k)) <? start + total then Err ValueError
      else Ok (sh, zseq start (Z.to_nat total))
  end.

Fixpoint pick (fs : list (list Z)) (ix : list Z) : res (list (list Z)) :=
  match ix with
  | [] => Ok []
  | i :: ix' => let j := if i <? 0 then i + Z.of_nat (List.length fs) else i in
                match (if j <? 0 then None else nth_error fs (Z.to_nat j)) with
                | None => Err IndexError
                | Some f => let! r := pick fs ix' in Ok (f :: r) end
  end.

(** Axes (lines 406-459): name, size; the scale and offset of image axes come from the header. *)
Record taxis := mkTaxis { x_name : string; x_size : Z; x_image : bool (* scale of the image *) ; x_nav : bool }.
Fixpoint zip_axes (names : list string) (imgs : list bool) (sizes : list Z) (nnav : nat) : list taxis :=
  match names, imgs, sizes with
  | n :: ns, m :: ms, z :: zs =>
      mkTaxis n z m (match nnav with O => false | S _ => true end) :: zip_axes ns ms zs (pred nnav)
  | _, _, _ => []
  end.

Record tdict := mkTdict { o_shape : list Z; o_frames : list (list Z); o_axes : list taxis }.

(** file_reader (lines 221-506), eager.  The time scale of a plain stack is the difference
    of the first two time stamps (line 429), so a single frame raises IndexError. *)
Definition tvips_read (name : pystr) (sc : scan) (start : Z) (w : option winding) (h : Z) (d : dir) : res tdict :=
  let! k := load_stack name d in
  match sc with
  | SNone =>
      match k_time k with
      | _ :: _ :: _ =>
          let sh := [Z.of_nat (List.length (k_frames k)); k_dimy k; k_dimx k] in
          Ok (mkTdict sh (k_frames k) (zip_axes ["time"; "dy"; "dx"]%string [false; true; true] sh 1))
      | _ => Err IndexError
      end
  | _ =>
      let! (sh, ix) := scan_indices (match sc with SShape s => inl s | _ => inr tt end) start k in
      let! ix := (match w with None => Ok ix | Some w => wind w h sh ix end) in
      let! fs := pick (k_frames k) ix in
      let shape := sh ++ [k_dimy k; k_dimx k] in
      let n := (List.length sh - 2)%nat in
      let names := repeat ""%string n ++ ["y"; "x"; "dy"; "dx"]%string in
      let imgs := repeat false n ++ [false; false; true; true] in
      Ok (mkTdict shape fs (zip_axes names imgs shape (List.length sh)))
  end.
