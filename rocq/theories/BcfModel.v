(** Model of the two parsers of Bruker spectral maps:
    py_parse_hypermap (/repo/rsciio/bruker/_api.py lines 1074-1258) and
    /repo/rsciio/bruker/unbcf_fast.pyx.
    Simplifications:
    - cells are integers modulo 2^w for an array of w bits; numpy 2 raises OverflowError
      when a Python integer that does not fit is assigned;
    - reads and writes of the compiled parser outside its buffers are undefined there and
      errors here;
    - the compiled parser's int arithmetic does not overflow;
    - the first chunk holds the map's header of 0x1A0 bytes (checked);
    - numpy's broadcasting of a one-element list over a slice is refused. *)
From Verif Require Import Base Bytes SfsModel.

Definition header_len : Z := 416.

(** * The stream of chunks *)
(** [s_buf] is the buffer from the offset on. *)
Record stream := mkS { s_buf : list Z; s_off : Z; s_size : Z; s_rest : list (list Z) }.
(** load_next_block (unbcf_fast.pyx lines 128-137); _api.py lines 1117-1119 *)
Definition refill (chunk : Z) (s : stream) : res stream :=
  match s_rest s with
  | [] => Err StopIteration
  | b :: r => Ok (mkS (s_buf s ++ b) 0 (chunk + s_size s - s_off s) r)
  end.
(** [py]: the Python parser compares with >=, the compiled one with >. *)
Definition ensure (py : bool) (chunk n : Z) (s : stream) : res stream :=
  if (if py then s_size s <=? s_off s + n else s_size s <? s_off s + n) then refill chunk s else Ok s.
Definition take (n : Z) (s : stream) : list Z * stream :=
  (firstz n (s_buf s), mkS (skipz n (s_buf s)) (s_off s + n) (s_size s) (s_rest s)).
Definition exact (n : Z) (e : exn) (p : list Z * stream) : res (list Z * stream) :=
  if zlen (fst p) =? n then Ok p else Err e.
Definition open_stream (chunk : Z) (chunks : list (list Z)) : res (list Z * stream) :=
  match chunks with
  | [] => Err StopIteration
  | b :: r => if zlen b <? header_len then Err StructError else Ok (b, mkS (skipz header_len b) header_len chunk r)
  end.

(** * Python (lines 1078-1258) *)
Definition maxZ (l : list Z) : Z := fold_right Z.max 0 l.
Definition bincount (minlen : Z) (l : list Z) : list Z :=
  let n := match l with [] => minlen | _ => Z.max minlen (maxZ l + 1) end in
  map (fun c => countZ (Z.eqb c) l) (zseq 0 (Z.to_nat n)).
Fixpoint halves (big : bool) (l : list Z) : list Z :=
  match l with
  | a :: b :: l' => (if big then 256 * a + b else a + 256 * b) :: halves big l'
  | _ => []
  end.
(** frombuffer(..., "<u2").byteswap, repeat(2), the mask and the reinterpretation (lines 1153-1173) *)
Fixpoint swap2 (l : list Z) : list Z := match l with a :: b :: l' => b :: a :: swap2 l' | _ => [] end.
Definition repeat2 (l : list Z) : list Z := flat_map (fun x => [x; x]) l.
Fixpoint masked (i : Z) (l : list Z) : list Z :=
  match l with
  | [] => []
  | x :: l' => if (i mod 6 =? 0) || (i mod 6 =? 5) then masked (i + 1) l' else x :: masked (i + 1) l'
  end.
Fixpoint shift_even (even : bool) (l : list Z) : list Z :=
  match l with [] => [] | x :: l' => Z.land (if even then Z.shiftr x 4 else x) 4095 :: shift_even (negb even) l' end.
Definition py12 (data : list Z) (n : Z) : res (list Z) :=
  if negb (zlen data mod 2 =? 0) then Err ValueError
  else
    let m := masked 0 (repeat2 (swap2 data)) in
    if zlen m <? 2 * n then Err ValueError
    else Ok (shift_even true (firstz n (halves true m))).

(** the instructively packed spectrum (lines 1174-1209): [l] the buffer, [left] the bytes to the end *)
Definition nibbles (gain : Z) (a : list Z) : list Z := flat_map (fun i => [Z.land i 15 + gain; Z.shiftr i 4 + gain]) a.
Fixpoint unpack (n : nat) (size : Z) (l : list Z) : list Z :=
  match n with O => [] | S n' => le_val (firstz size l) :: unpack n' size (skipz size l) end.
Fixpoint py_groups (fuel : nat) (l : list Z) (left : Z) : res (list Z * list Z) :=
  match fuel with
  | O => Err OutOfFuel
  | S k =>
      if left <=? 0 then Ok ([], l)
      else match l with
      | size :: n :: l1 =>
          if size =? 0 then
            let! (r, l') := py_groups k l1 (left - 2) in Ok (repeat 0 (Z.to_nat n) ++ r, l')
          else if negb ((size =? 1) || (size =? 2) || (size =? 4) || (size =? 8)) then Err KeyError
          else
            if zlen l1 <? size then Err StructError
            else
              let gain := le_val (firstz size l1) in
              let l2 := skipz size l1 in
              let len := if size =? 1 then cdiv n 2 else n * size / 2 in
              if zlen l2 <? len then Err StructError
              else
                let v := if size =? 1 then firstz n (nibbles gain (firstz len l2))
                         else map (fun x => x + gain) (unpack (Z.to_nat n) (size / 2) l2) in
                let! (r, l') := py_groups k (skipz len l2) (left - 2 - size - len) in Ok (v ++ r, l')
      | _ => Err StructError
      end
  end.
Definition bump (i v : Z) (l : list Z) : list Z := set_nth (Z.to_nat i) (nth (Z.to_nat i) l 0 + v) l.
Fixpoint add_pulses (ps : list Z) (l : list Z) : res (list Z) :=
  match ps with
  | [] => Ok l
  | p :: ps' => if p <? zlen l then add_pulses ps' (bump p 1 l) else Err IndexError
  end.

Record dims := mkDims { d_width : Z; d_chan : Z; d_ds : Z; d_bits : Z }.
Definition wrap (d : dims) (x : Z) : Z := x mod 2 ^ d_bits d.

(** vfa[a : a + len] = or += vals (lines 1248-1251) *)
Fixpoint zip_add (a b : list Z) : list Z :=
  match a, b with x :: a', y :: b' => (x + y) :: zip_add a' b' | _, _ => [] end.
Definition write_range (d : dims) (base : Z) (n : Z) (vals : list Z) (arr : list Z) : res (list Z) :=
  if (zlen arr <? base + n) || negb (zlen vals =? n) then Err ValueError
  else
    let old := firstz n (skipz base arr) in
    let new := if d_ds d =? 1 then map (wrap d) vals else map (wrap d) (zip_add old vals) in
    Ok (firstz base arr ++ new ++ skipz (base + n) arr).

Definition py_pixel (d : dims) (chunk line : Z) (s0 : stream) (arr : list Z) : res (stream * list Z) :=
  let! s1 := ensure true chunk 22 s0 in
  let! (h, s2) := exact 22 StructError (take 22 s1) in
  let x := le_val (slice 0 4 h) in
  let chan1 := le_val (slice 4 2 h) in
  let chan2 := le_val (slice 6 2 h) in
  let flag := le_val (slice 12 2 h) in
  let n := le_val (slice 16 2 h) in
  let size2 := le_val (slice 18 4 h) in
  let idx := x / d_ds d + cdiv (d_width d) (d_ds d) * (line / d_ds d) in
  let! s3 := ensure true chunk size2 s2 in
  let! (pixel, s4) :=
    (if flag =? 0 then
       let '(data, s4) := take size2 s3 in
       if negb (zlen data mod 2 =? 0) then Err ValueError
       else if chan1 <? 1 then Err ValueError
       else Ok (bincount (chan1 - 1) (halves false data), s4)
     else if flag =? 1 then
       let '(data, s4) := take size2 s3 in
       let! ps := py12 data n in
       if chan1 <? 1 then Err ValueError else Ok (bincount (chan1 - 1) ps, s4)
     else
       let! (px, l) := py_groups (S (List.length (s_buf s3))) (s_buf s3) (size2 - 4) in
       let s4 := mkS l (s_off s3 + (zlen (s_buf s3) - zlen l)) (s_size s3) (s_rest s3) in
       let px := px ++ (if chan2 <? chan1 then repeat 0 (Z.to_nat (chan1 - chan2)) else []) in
       if 0 <? n then
         let! (a, s5) := exact 4 StructError (take 4 s4) in
         let! s6 := ensure true chunk (le_val a) s5 in
         let '(data, s7) := take (le_val a) s6 in
         if negb (zlen data =? 2 * n) then Err StructError
         else let! px := add_pulses (halves false data) px in Ok (px, s7)
       else Ok (px, snd (take 4 s4))) in
  let m := if d_chan d <? chan1 then d_chan d else chan1 in
  let! arr := write_range d (d_chan d * idx) m (firstz m pixel) arr in
  Ok (s4, arr).

Fixpoint times {A} (n : nat) (step : A -> res A) (a : A) : res A :=
  match n with O => Ok a | S n' => let! b := step a in times n' step b end.
Definition py_line (d : dims) (chunk line : Z) (s0 : stream) (arr : list Z) : res (stream * list Z) :=
  let! s1 := ensure true chunk 4 s0 in
  let! (h, s2) := exact 4 StructError (take 4 s1) in
  times (Z.to_nat (signed 4 (le_val h))) (fun '(s, a) => py_pixel d chunk line s a) (s2, arr).
Fixpoint map_lines (f : Z -> stream -> list Z -> res (stream * list Z)) (lines : list Z) (s : stream) (arr : list Z) : res (stream * list Z) :=
  match lines with
  | [] => Ok (s, arr)
  | l :: lines' => let! (s, arr) := f l s arr in map_lines f lines' s arr
  end.
(** [h w c]: the shape given by the caller (rows and columns after downsampling). *)
Definition py_parse (h w c bits ds chunk : Z) (chunks : list (list Z)) : res (list Z) :=
  let! (b, s) := open_stream chunk chunks in
  let height := signed 4 (le_val (slice 0 4 b)) in
  let width := signed 4 (le_val (slice 4 4 b)) in
  let d := mkDims width c ds bits in
  let! (_, arr) := map_lines (py_line d chunk) (zseq 0 (Z.to_nat height)) s (repeat 0 (Z.to_nat (h * w * c))) in
  (* vfa.resize: the same number of cells *)
  if cdiv height ds * cdiv width ds * c =? h * w * c then Ok arr else Err OtherError.

(** * Compiled (unbcf_fast.pyx lines 144-299) *)
Definition cy_read (chunk n : Z) (s : stream) : res (list Z * stream) :=
  let! s1 := ensure false chunk n s in exact n IndexError (take n s1).
Definition byte (src : list Z) (i : Z) : res Z := if i <? 0 then Err IndexError else match nth_error src (Z.to_nat i) with Some b => Ok b | None => Err IndexError end.
Definition bytes_le (src : list Z) (i n : Z) : res Z :=
  let b := fread src i n in if (i <? 0) || negb (zlen b =? n) then Err IndexError else Ok (le_val b).

(** unpack16bit, unpack12bit: the channel of pulse [i] *)
Definition cy16_at (src : list Z) (i : Z) : res Z :=
  let! a := byte src (2 * i) in let! b := byte src (2 * i + 1) in Ok (a + Z.land (Z.shiftl b 8) 65280).
Definition cy12_at (src : list Z) (i : Z) : res Z :=
  let g := 6 * (i / 4) in
  if i mod 4 =? 0 then let! a := byte src g in let! b := byte src (g + 1) in Ok (Z.shiftr a 4 + Z.shiftl b 4)
  else if i mod 4 =? 1 then let! a := byte src g in let! b := byte src (g + 3) in Ok (Z.land (Z.shiftl a 8 + b) 4095)
  else if i mod 4 =? 2 then let! a := byte src (g + 2) in let! b := byte src (g + 5) in Ok (Z.shiftl a 4 + Z.shiftr b 4)
  else let! a := byte src (g + 5) in let! b := byte src (g + 4) in Ok (Z.land (Z.shiftl a 8 + b) 4095).
Definition cy12 (src : list Z) (n : Z) : res (list Z) := mapM (cy12_at src) (zseq 0 (Z.to_nat n)).
Definition cy16 (src : list Z) (n : Z) : res (list Z) := mapM (cy16_at src) (zseq 0 (Z.to_nat n)).

(** unpack_instructed: increments (channel, value) *)
Definition cy_value (src : list Z) (size off i : Z) : res Z :=
  if size =? 1 then let! b := byte src (off + i / 2) in Ok (if i mod 2 =? 0 then Z.land b 15 else Z.shiftr b 4)
  else if size =? 2 then byte src (off + i)
  else if size =? 4 then bytes_le src (off + i * 2) 2
  else bytes_le src (off + i * 2) 4.
Fixpoint cy_groups (fuel : nat) (src : list Z) (data_size cutoff off channel : Z) : res (list (Z * Z)) :=
  match fuel with
  | O => Err OutOfFuel
  | S k =>
      if data_size <=? off then Ok []
      else
        let! size := byte src off in
        let! n := byte src (off + 1) in
        if size =? 0 then cy_groups k src data_size cutoff (off + 2) (channel + n)
        else
          let! gain := (if size =? 1 then byte src (off + 2) else if size =? 2 then bytes_le src (off + 2) 2
                        else if size =? 4 then bytes_le src (off + 2) 4 else bytes_le src (off + 2) 5) in
          let o := off + 2 + size in
          let! evs := mapM (fun i => let! v := cy_value src size o i in Ok (channel + i, v + gain))
                        (filter (fun i => channel + i <? cutoff) (zseq 0 (Z.to_nat n))) in
          let len := if size =? 1 then (if n mod 2 =? 0 then n / 2 else n / 2 + 1) else n * size / 2 in
          let! r := cy_groups k src data_size cutoff (o + len) (channel + n) in
          Ok (evs ++ r)
  end.

(** hypermap[y, x, channel] += value *)
Definition add_cells (d : dims) (base : Z) (evs : list (Z * Z)) (arr : list Z) : list Z :=
  fold_left (fun a e => if fst e <? d_chan d then set_nth (Z.to_nat (base + fst e)) (wrap d (nth (Z.to_nat (base + fst e)) a 0 + snd e)) a else a) evs arr.
Fixpoint cy_pulses (n : nat) (chunk : Z) (s : stream) : res (list Z * stream) :=
  match n with
  | O => Ok ([], s)
  | S n' => let! (b, s) := cy_read chunk 2 s in let! (r, s) := cy_pulses n' chunk s in Ok (le_val b :: r, s)
  end.
Definition ones (l : list Z) : list (Z * Z) := map (fun c => (c, 1)) l.
Definition cy_pixel (h w : Z) (d : dims) (chunk line : Z) (s : stream) (arr : list Z) : res (stream * list Z) :=
  let! (bx, s) := cy_read chunk 4 s in
  let! (_, s) := cy_read chunk 2 s in
  let! (_, s) := cy_read chunk 2 s in
  let! (_, s) := cy_read chunk 4 s in
  let! (bflag, s) := cy_read chunk 2 s in
  let! (_, s) := cy_read chunk 2 s in
  let! (bn, s) := cy_read chunk 2 s in
  let! (bsize2, s) := cy_read chunk 4 s in
  let flag := le_val bflag in
  let n := le_val bn in
  let size2 := le_val bsize2 in
  let! (evs, s) :=
    (if flag =? 0 then let! (src, s) := cy_read chunk size2 s in let! l := cy16 src n in Ok (ones l, s)
     else if flag =? 1 then let! (src, s) := cy_read chunk size2 s in let! l := cy12 src n in Ok (ones l, s)
     else if size2 <? 4 then Err OtherError
     else
       let! (src, s) := cy_read chunk (size2 - 4) s in
       let! evs := cy_groups (S (List.length src)) src ((size2 - 4) mod 65536) (d_chan d) 0 0 in
       let! (_, s) := cy_read chunk 4 s in
       let! (l, s) := cy_pulses (Z.to_nat n) chunk s in
       Ok (evs ++ ones l, s)) in
  let x := le_val bx / d_ds d in
  let y := line / d_ds d in
  if (x <? w) && (y <? h) then Ok (s, add_cells d ((y * w + x) * d_chan d) evs arr) else Err IndexError.
Definition cy_line (h w : Z) (d : dims) (chunk line : Z) (s : stream) (arr : list Z) : res (stream * list Z) :=
  let! (b, s) := cy_read chunk 4 s in
  times (Z.to_nat (le_val b)) (fun '(s, a) => cy_pixel h w d chunk line s a) (s, arr).
Definition cy_parse (h w c bits ds chunk : Z) (chunks : list (list Z)) : res (list Z) :=
  let! (b, s) := open_stream chunk chunks in
  let height := le_val (slice 0 4 b) in
  let d := mkDims 0 c ds bits in
  let! (_, arr) := map_lines (cy_line h w d chunk) (zseq 0 (Z.to_nat height)) s (repeat 0 (Z.to_nat (h * w * c))) in
  Ok arr.

(** estimate_map_depth (_api.py lines 773-834): width in bits, and whether signed *)
Definition map_depth (maxsum width height ds : Z) (for_numpy : bool) : Z * bool :=
  let roof := maxsum / width / height * 2 * ds * ds in
  let np := for_numpy && (1 <? ds) in
  if 255 <? roof then
    if 65535 <? roof then
      if np then (if 4026531839 <? roof then (64, true) else (32, true)) else (32, false)
    else
      if np then (if 61439 <? roof then (32, true) else (16, true)) else (16, false)
  else
    if np then (if 239 <? roof then (16, true) else (8, true)) else (8, false).
