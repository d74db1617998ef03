(** Model of the blockfile plugin, rsciio/blockfile/_api.py. *)
From Verif Require Import Base Text Bytes.

(** ** Header, [_api.py:70-95]
    Floating point fields are kept as their eight bytes.  [h_rest] holds the 22
    "Centering" and "Distortion" fields. *)
Record hdr := {
  h_off1 : Z; h_off2 : Z; h_unknown : Z; h_dp : Z; h_dprot : Z; h_nx : Z; h_ny : Z; h_rot : Z;
  h_sx : list Z; h_sy : list Z; h_beam : Z; h_sdp : Z; h_cam : Z; h_acq : list Z; h_rest : list Z }.

Definition hdr_bytes (big : bool) (h : hdr) : list Z :=
  str "IMGBLO" ++ enc big 2 258 ++ enc big 4 (h_off1 h) ++ enc big 4 (h_off2 h) ++ enc big 4 (h_unknown h) ++
  enc big 2 (h_dp h) ++ enc big 2 (h_dprot h) ++ enc big 2 (h_nx h) ++ enc big 2 (h_ny h) ++ enc big 2 (h_rot h) ++
  h_sx h ++ h_sy h ++ enc big 4 (h_beam h) ++ enc big 2 (h_sdp h) ++ enc big 4 (h_cam h) ++ h_acq h ++ h_rest h.

Definition hdr_size : nat := 240.

(** np.fromfile with count=1, [_api.py:235]; a shorter file gives an empty array and
    header["MAGIC"][0] raises IndexError. *)
Definition parse_hdr (big : bool) (f : list Z) : res hdr :=
  if (List.length f <? hdr_size)%nat then Err IndexError else
  let u i n := dec_int big (slice i n f) in
  Ok {| h_off1 := u 8%nat 4%nat; h_off2 := u 12%nat 4%nat; h_unknown := u 16%nat 4%nat;
        h_dp := u 20%nat 2%nat; h_dprot := u 22%nat 2%nat; h_nx := u 24%nat 2%nat; h_ny := u 26%nat 2%nat;
        h_rot := u 28%nat 2%nat; h_sx := slice 30 8 f; h_sy := slice 38 8 f; h_beam := u 46%nat 4%nat;
        h_sdp := u 50%nat 2%nat; h_cam := u 52%nat 4%nat; h_acq := slice 56 8 f; h_rest := slice 64 176 f |}.

(** ** Writing *)

(** [_api.py:199-202]. *)
Definition data_offset (nx ny off1 : Z) : Z := let o := nx * ny + off1 in o + o mod 16.

(** [_api.py:175-213] get_header_from_signal: [nav] are the sizes of the navigation axes
    (slowest first), [sig] those of the signal axes.  The unit conversions and the scales
    are not modelled: [sx], [sy] are the bytes of the scales and [sdp] the truncated
    pixel size.  A size that does not fit its field raises OverflowError (numpy 2). *)
Definition header_from_signal (h0 : hdr) (nav sig : list Z) (sx sy : list Z) (sdp : Z) : res hdr :=
  let! nxy := match nav with
              | [n0; n1] => Ok (n1, n0)
              | [n0] => Ok (n0, 1)
              | [] => Ok (1, 1)
              | _ => Err ValueError
              end in
  let '(nx, ny) := nxy in
  let! dp := match sig with
             | [s0; s1] => if s1 =? s0 then Ok s1 else Err ValueError
             | _ => Err IndexError
             end in
  let o2 := data_offset nx ny (h_off1 h0) in
  if (nx <? 65536) && (ny <? 65536) && (dp <? 65536) && (o2 <? 2 ^ 32) && (0 <=? sdp) && (sdp <? 65536) then
    Ok {| h_off1 := h_off1 h0; h_off2 := o2; h_unknown := h_unknown h0; h_dp := dp; h_dprot := h_dprot h0;
          h_nx := nx; h_ny := ny; h_rot := h_rot h0; h_sx := sx; h_sy := sy; h_beam := h_beam h0; h_sdp := sdp;
          h_cam := h_cam h0; h_acq := h_acq h0; h_rest := h_rest h0 |}
  else Err OverflowError.

Definition zeros (n : Z) : res (list Z) := if n <? 0 then Err ValueError else Ok (repeat 0 (Z.to_nat n)).

(** One frame on disk, [_api.py:484-505]: magic, running number, pixels. *)
Definition frame_record (big : bool) (i : Z) (frame : list Z) : list Z :=
  enc big 2 21930 ++ enc big 4 i ++ frame.
Fixpoint frame_records (big : bool) (i : Z) (frames : list (list Z)) : list Z :=
  match frames with
  | [] => []
  | fr :: frames' => frame_record big i fr ++ frame_records big (i + 1) frames'
  end.

(** [_api.py:429-506] file_writer for 8-bit data without intensity scaling.  The header
    is always written little endian: get_default_header ignores its argument (line
    98-101).  The note is restricted to ASCII; [vbf] are the bytes of the navigator. *)
Definition blo_write (big : bool) (h0 : hdr) (nav sig : list Z) (sx sy : list Z) (sdp : Z)
    (note vbf : list Z) (frames : list (list Z)) : res (list Z) :=
  let! h := header_from_signal h0 nav sig sx sy sdp in
  let room := h_off1 h - Z.of_nat hdr_size in
  let n := Z.of_nat (List.length note) in
  let note' := if room <? n then firstn (Z.to_nat (n + (room - n))) note else note in
  let! pad1 := zeros (room - Z.of_nat (List.length note')) in
  let pos := h_off1 h + Z.of_nat (List.length vbf) in
  if h_off2 h <? pos then Err ValueError else
  let! pad2 := zeros (h_off2 h - pos) in
  Ok (hdr_bytes false h ++ note' ++ pad1 ++ vbf ++ pad2 ++ frame_records big 0 frames).

(** ** Reading *)
Record axis := { a_name : pystr; a_size : Z; a_navigate : bool }.
Record signal := { s_shape : list Z; s_data : list Z; s_axes : list axis; s_note : list Z }.

Definition squeeze (sh : list Z) : list Z := filter (fun n => negb (n =? 1)) sh.

(** [str.strip("\x00")] *)
Fixpoint lstrip0 (s : list Z) : list Z := match s with 0 :: s' => lstrip0 s' | _ => s end.
Definition strip0 (s : list Z) : list Z := rev (lstrip0 (rev (lstrip0 s))).

(** Lines 303-331: axes are named by position, from the front. *)
Definition axes_of (sh : list Z) : list axis :=
  map (fun p => {| a_name := fst (fst p); a_navigate := snd (fst p); a_size := snd p |})
    (combine (combine [str "y"; str "x"; str "dy"; str "dx"] [true; true; false; false]) sh).

(** Line 245: [f.read(n)] reads everything for negative [n]. *)
Definition read_note (h : hdr) (f : list Z) : list Z :=
  let n := h_off1 h - Z.of_nat hdr_size in
  if n <? 0 then skipn hdr_size f else slice hdr_size (Z.to_nat n) f.

(** [_api.py:257-301], lazy=False: whole frames are read; missing frames are zero.  A
    negative pad width raises ValueError. *)
Definition blo_read (big : bool) (f : list Z) : res signal :=
  let! h := parse_hdr big f in
  let px := Z.to_nat (h_dp h * h_dp h) in
  let fs := (6 + px)%nat in
  let body := skipz (h_off2 h) f in
  let k := (List.length body / fs)%nat in
  let data := map (skipn 6) (records k fs body) in
  let want := Z.to_nat (h_ny h * h_nx h) in
  let sh := squeeze [h_ny h; h_nx h; h_dp h; h_dp h] in
  let mk d := Ok {| s_shape := sh; s_data := d; s_axes := axes_of sh; s_note := strip0 (read_note h f) |} in
  if (k * px =? want * px)%nat then mk (List.concat data)
  else if (want <? k)%nat then Err ValueError
  else mk (List.concat (data ++ repeat (repeat 0 px) (want - k))).

(** [_api.py:282-301], lazy=True: a memory map of [ny*nx] frames from the data offset
    (the distribution over chunks is the subject of C06); it cannot be longer than the
    file.  No squeeze. *)
Definition blo_read_lazy (big : bool) (f : list Z) : res signal :=
  let! h := parse_hdr big f in
  let px := Z.to_nat (h_dp h * h_dp h) in
  let fs := (6 + px)%nat in
  let want := Z.to_nat (h_ny h * h_nx h) in
  let body := skipz (h_off2 h) f in
  if Z.of_nat (List.length body) <? h_ny h * h_nx h * (6 + h_dp h * h_dp h) then Err ValueError else
  let sh := [h_ny h; h_nx h; h_dp h; h_dp h] in
  Ok {| s_shape := sh; s_data := List.concat (map (skipn 6) (records want fs body));
        s_axes := axes_of sh; s_note := strip0 (read_note h f) |}.
