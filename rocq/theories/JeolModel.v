(** Model of /repo/rsciio/jeol/_api.py: the stream of pts files.  _readframe_dense (lines
    993-1103), _readframe_lazy (lines 1106-1204), _skip_frame (lines 1207-1219), _readcube
    (lines 725-990), and from _read_pts (lines 274-553) the norms, the list of frames and
    the axes.
    Simplifications: the stream is a list of numbers of two bytes; the arrays are functions
    of their index, and numbers in the map do not wrap (the code raises an error before);
    em_image is a part of memory indexed as numba does, without a check of bounds; variables
    that are read before they are set are arguments ([ux], [uy]), as numba leaves them
    unspecified; energies of the axis are left out;
    the norms are computed exactly. *)
From Verif Require Import Base Bytes SfsModel.

Definition kind (v : Z) : Z := Z.land v 61440.
Definition payload (v : Z) : Z := Z.land v 4095.
Definition fdiv (a b : Z) : res Z := if b =? 0 then Err ZeroDivisionError else Ok (a / b).

Record geom := { width : Z; height : Z; channels : Z; wnorm : Z; hnorm : Z; rebin : Z; stride : Z }.
Record shift := { dx : Z; dy : Z; dz : Z }.
Definition cell : Type := Z * Z * Z.
Definition eqb_cell (a b : cell) : bool := let '(y, x, z) := a in let '(y', x', z') := b in (y =? y') && (x =? x') && (z =? z').
Definition add3 (c : cell) (n : Z) (m : cell -> Z) : cell -> Z := fun c' => if eqb_cell c c' then m c' + n else m c'.
Definition add1 (i : Z) (n : Z) (m : Z -> Z) : Z -> Z := fun j => if i =? j then m j + n else m j.

(** * One frame, dense *)
Record state := { sx : Z; sy : Z; px : Z; py : Z; has_em : bool; count : Z; hyper : cell -> Z; em : Z -> Z }.
Definition clip (size v : Z) : Z := if size <=? v then -1 else v.
Definition counted (s : state) : state :=
  {| sx := sx s; sy := sy s; px := px s; py := py s; has_em := has_em s; count := count s + 1; hyper := hyper s; em := em s |}.
(** One turn of the loop; true: break *)
Definition dense_step (g : geom) (d : shift) (countup max_value : Z) (s : state) (v : Z) : res (bool * state) :=
  let k := kind v in
  let p := payload v in
  if k =? 32768 then
    let! q := fdiv p (wnorm g) in
    Ok (false, {| sx := clip (width g) (q + dx d); sy := sy s; px := p; py := py s; has_em := has_em s; count := count s + 1; hyper := hyper s; em := em s |})
  else if k =? 36864 then
    let! q := fdiv p (hnorm g) in
    if p <? py s then Ok (true, s)
    else Ok (false, {| sx := sx s; sy := clip (height g) (q + dy d); px := px s; py := p; has_em := has_em s; count := count s + 1; hyper := hyper s; em := em s |})
  else if (k =? 40960) && (0 <=? sx s) && (0 <=? sy s) then
    Ok (false, {| sx := sx s; sy := sy s; px := px s; py := py s; has_em := true; count := count s + 1; hyper := hyper s;
                  em := add1 (sy s * stride g + sx s) (p * countup) (em s) |})
  else if k =? 45056 then
    let! q := fdiv p (rebin g) in
    let z := q + dz d in
    if (z <? channels g) && (0 <=? sx s) && (0 <=? sy s) && (0 <=? z) then
      let h := add3 (sy s, sx s, z) countup (hyper s) in
      if h (sy s, sx s, z) =? max_value then Err ValueError
      else Ok (false, {| sx := sx s; sy := sy s; px := px s; py := py s; has_em := has_em s; count := count s + 1; hyper := h; em := em s |})
    else Ok (false, counted s)
  else Ok (false, counted s).
Fixpoint dense_run (g : geom) (d : shift) (countup max_value : Z) (s : state) (ws : list Z) : res state :=
  match ws with
  | [] => Ok s
  | v :: ws' => let! (stop, s') := dense_step g d countup max_value s v in if stop then Ok s' else dense_run g d countup max_value s' ws'
  end.
(** Length, whether there is an image, whether the frame is complete, and the arrays *)
Definition readframe_dense (ux : Z) (g : geom) (d : shift) (countup max_value : Z) (h : cell -> Z) (e : Z -> Z) (ws : list Z)
  : res (Z * bool * bool * (cell -> Z) * (Z -> Z)) :=
  let! s := dense_run g d countup max_value {| sx := 0; sy := 0; px := ux; py := -1; has_em := false; count := 0; hyper := h; em := e |} ws in
  Ok (count s, has_em s, (4096 - hnorm g <=? py s) && ((4096 - wnorm g <=? px s) || negb (has_em s)), hyper s, em s).

(** * One frame, lazy: a list of events instead of the map *)
Record lstate := { lx : Z; ly : Z; lpx : Z; lpy : Z; lhas : bool; lcount : Z; events : list cell; lem : Z -> Z }.
Definition lazy_step (g : geom) (d : shift) (s : lstate) (v : Z) : res (bool * lstate) :=
  let k := kind v in
  let p := payload v in
  let n := lcount s + 1 in
  if k =? 32768 then
    let! q := fdiv p (wnorm g) in
    Ok (false, {| lx := clip (width g) (q + dx d); ly := ly s; lpx := p; lpy := lpy s; lhas := lhas s; lcount := n; events := events s; lem := lem s |})
  else if k =? 36864 then
    if p <? lpy s then Ok (true, {| lx := lx s; ly := ly s; lpx := lpx s; lpy := lpy s; lhas := lhas s; lcount := n; events := events s; lem := lem s |})
    else
      let! q := fdiv p (hnorm g) in
      Ok (false, {| lx := lx s; ly := clip (width g) (q + dy d); lpx := lpx s; lpy := p; lhas := lhas s; lcount := n; events := events s; lem := lem s |})
  else if (k =? 40960) && (0 <=? lx s) && (0 <=? ly s) then
    Ok (false, {| lx := lx s; ly := ly s; lpx := lpx s; lpy := lpy s; lhas := true; lcount := n; events := events s; lem := add1 (ly s * stride g + lx s) p (lem s) |})
  else if k =? 45056 then
    let! q := fdiv p (rebin g) in
    let z := q + dz d in
    let ev := if (0 <=? z) && (z <? channels g) then events s ++ [(ly s, lx s, z)] else events s in
    Ok (false, {| lx := lx s; ly := ly s; lpx := lpx s; lpy := lpy s; lhas := lhas s; lcount := n; events := ev; lem := lem s |})
  else Ok (false, {| lx := lx s; ly := ly s; lpx := lpx s; lpy := lpy s; lhas := lhas s; lcount := n; events := events s; lem := lem s |}).
Fixpoint lazy_run (g : geom) (d : shift) (s : lstate) (ws : list Z) : res lstate :=
  match ws with
  | [] => Ok s
  | v :: ws' => let! (stop, s') := lazy_step g d s v in if stop then Ok s' else lazy_run g d s' ws'
  end.
Definition readframe_lazy (ux uy : Z) (g : geom) (d : shift) (e : Z -> Z) (ws : list Z) : res (Z * list cell * bool * bool * (Z -> Z)) :=
  let! s := lazy_run g d {| lx := ux; ly := uy; lpx := 0; lpy := 0; lhas := false; lcount := 0; events := []; lem := e |} ws in
  Ok (lcount s, events s, lhas s, (lpy s =? 4096 - hnorm g) && ((lpx s =? 4096 - wnorm g) || negb (lhas s)), lem s).

(** * Skipping a frame *)
Fixpoint skip_run (previous_y n : Z) (ws : list Z) : Z :=
  match ws with
  | [] => n
  | v :: ws' =>
      if kind v =? 36864 then
        let y := payload v in if y <? previous_y then n else skip_run y (n + 1) ws'
      else skip_run previous_y (n + 1) ws'
  end.
Definition skip_frame (ws : list Z) : Z := skip_run 0 0 ws.

(** * All frames *)
(** frame_start_index[i], and setting it *)
Definition start_of (fsi : list Z) (i : nat) : res Z := match nth_error fsi i with Some p => Ok p | None => Err IndexError end.
Definition set_start (fsi : list Z) (i : nat) (p : Z) : list Z := firstn i fsi ++ match skipn i fsi with [] => [] | _ :: r => p :: r end.
(** The last frame with a known start (lines 840-845) *)
Fixpoint known (fsi : list Z) (i : nat) : res (nat * Z) :=
  let! p := start_of fsi i in
  match i with
  | O => Ok (O, p)
  | S j => if p <? 0 then known fsi j else Ok (i, p)
  end.
(** Skipping to frame i + n (lines 847-851) *)
Fixpoint skip_to (raw : list Z) (fsi : list Z) (i : nat) (p : Z) (n : nat) : res (list Z * Z) :=
  match n with
  | O => Ok (fsi, p)
  | S n' =>
      let p' := p + skip_frame (skipz p raw) in
      let! _ := start_of fsi (S i) in
      skip_to raw (set_start fsi (S i) p') (S i) p' n'
  end.
Definition find_frame (raw : list Z) (fsi : list Z) (i : nat) : res (list Z * Z) :=
  let! (j, p) := known fsi i in skip_to raw fsi j p (i - j).
(** The state of the loop: arrays of the frames, the number of the target, frame_num,
    whether there is an image, the starts and whether the last frame is complete *)
Record cube := { maps : Z -> cell -> Z; ems : Z -> Z -> Z; lists : list (list cell); target : Z; frame_num : Z; any_em : bool; starts : list Z; valid : option bool }.
Definition set_at {A} (m : Z -> A) (i : Z) (a : A) : Z -> A := fun j => if i =? j then a else m j.
Record options := { sum_frames : bool; only_valid : bool; max_value : Z; unset_x : Z; unset_y : Z; n_frames : Z }.
(** The loop (lines 836-911); [sh i]: shift of frame i less the greatest shift *)
Fixpoint dense_loop (o : options) (g : geom) (sh : nat -> shift) (raw : list Z) (frame_list : list nat) (c : cube) : res cube :=
  match frame_list with
  | [] => Ok c
  | i :: rest =>
      let! (fsi, p) := find_frame raw (starts c) i in
      let t := target c in
      if n_frames o <=? t then Err IndexError else
      let! (n, em', v, h, e) := readframe_dense (unset_x o) g (sh i) 1 (max_value o) (maps c t) (ems c t) (skipz p raw) in
      let has := any_em c || em' in
      if n =? 0 then
        Ok {| maps := set_at (maps c) t h; ems := set_at (ems c) t e; lists := []; target := t; frame_num := Z.of_nat i; any_em := has; starts := fsi; valid := Some v |}
      else if v || negb (only_valid o) then
        let fn := Z.of_nat i + 1 in
        let fsi' := if fn <? zlen fsi then set_start fsi (Z.to_nat fn) (p + n) else fsi in
        dense_loop o g sh raw rest
          {| maps := set_at (maps c) t h; ems := set_at (ems c) t e; lists := []; target := t + (if sum_frames o then 0 else 1); frame_num := fn; any_em := has; starts := fsi'; valid := Some v |}
      else if sum_frames o then
        let! (n2, em2, v2, h2, e2) := readframe_dense (unset_x o) g (sh i) (-1) (max_value o) h e (skipz p raw) in
        Ok {| maps := set_at (maps c) t h2; ems := set_at (ems c) t e2; lists := []; target := t; frame_num := Z.of_nat i; any_em := has; starts := fsi; valid := Some v |}
      else
        Ok {| maps := set_at (maps c) t h; ems := set_at (ems c) t e; lists := []; target := t; frame_num := Z.of_nat i; any_em := has; starts := fsi; valid := Some v |}
  end.
Fixpoint lazy_loop (o : options) (g : geom) (sh : nat -> shift) (raw : list Z) (frame_list : list nat) (c : cube) : res cube :=
  match frame_list with
  | [] => Ok c
  | i :: rest =>
      let! (fsi, p) := find_frame raw (starts c) i in
      let t := target c in
      if n_frames o <=? t then Err IndexError else
      let! (n, l, em', v, e) := readframe_lazy (unset_x o) (unset_y o) g (sh i) (ems c t) (skipz p raw) in
      let has := any_em c || em' in
      if n =? 0 then
        Ok {| maps := maps c; ems := set_at (ems c) t e; lists := lists c; target := t; frame_num := Z.of_nat i; any_em := has; starts := fsi; valid := Some v |}
      else if v || negb (only_valid o) then
        let fn := Z.of_nat i + 1 in
        let fsi' := if fn <? zlen fsi then set_start fsi (Z.to_nat fn) (p + n) else fsi in
        lazy_loop o g sh raw rest
          {| maps := maps c; ems := set_at (ems c) t e; lists := lists c ++ [l]; target := t + (if sum_frames o then 0 else 1); frame_num := fn; any_em := has; starts := fsi'; valid := Some v |}
      else
        let! e2 := (if sum_frames o then let! (n2, l2, em2, v2, e2) := readframe_lazy (unset_x o) (unset_y o) g (sh i) e (skipz p raw) in Ok e2 else Ok e) in
        Ok {| maps := maps c; ems := set_at (ems c) t e2; lists := lists c; target := t; frame_num := Z.of_nat i; any_em := has; starts := fsi; valid := Some v |}
  end.
(** The greatest and least shifts of the listed frames (lines 814-824), in y and x; the
    energy shift is kept *)
Definition maxl (l : list Z) : Z := fold_right Z.max (match l with a :: _ => a | [] => 0 end) l.
Definition minl (l : list Z) : Z := fold_right Z.min (match l with a :: _ => a | [] => 0 end) l.
Record result := { r_frames : Z; r_height : Z; r_width : Z; r_channels : Z; r_data : Z -> cell -> Z; r_em : Z -> Z -> Z -> Z; r_has_em : bool;
                   r_sweep : Z; r_starts : list Z; r_valid : option bool; r_origin : Z * Z }.
Definition empty_cube (fsi : list Z) : cube :=
  {| maps := fun _ _ => 0; ems := fun _ _ => 0; lists := []; target := 0; frame_num := 0; any_em := false; starts := fsi; valid := None |}.
(** The number of times an event is listed; sparse adds them up in two bytes *)
Definition listed (c : cell) (l : list cell) : Z := zlen (filter (eqb_cell c) l).
(** _readcube: [n_frames o] is sweep + 1, or 1 if frames are summed; [width], [height] are those of the map, [shifts] of all frames *)
Definition readcube (lazy : bool) (o : options) (w h channels wnorm hnorm rebin : Z) (sweep : Z) (shifts : list shift) (fsi : list Z) (frame_list : list nat) (raw : list Z) : res result :=
  if existsb (fun i => Nat.leb (List.length shifts) i) frame_list then Err IndexError else
  match frame_list with [] => Err ValueError | _ =>
  let s i := nth i shifts {| dx := 0; dy := 0; dz := 0 |} in
  let xs := map (fun i => dx (s i)) frame_list in
  let ys := map (fun i => dy (s i)) frame_list in
  let g := {| width := w + (minl xs - maxl xs); height := h + (minl ys - maxl ys); channels := channels; wnorm := wnorm; hnorm := hnorm; rebin := rebin; stride := h |} in
  let sh i := {| dx := dx (s i) - maxl xs; dy := dy (s i) - maxl ys; dz := dz (s i) |} in
  if lazy then
    let! c := lazy_loop o g sh raw frame_list (empty_cube fsi) in
    match lists c with
    | [] => Err TypeError  (* the sum of no lengths is a float *)
    | _ =>
        if existsb (fun l => match l with [] => true | _ => false end) (lists c) then Err IndexError  (* d[:, 0] of an empty list *)
        else
        Ok {| r_frames := if sum_frames o then 1 else zlen (lists c); r_height := height g; r_width := width g; r_channels := channels;
              r_data := fun f k => if sum_frames o then listed k (List.concat (lists c)) mod 65536 else listed k (nth (Z.to_nat f) (lists c) []) mod 65536;
              r_em := fun f y x => ems c f (y * h + x); r_has_em := any_em c; r_sweep := sweep; r_starts := starts c; r_valid := valid c; r_origin := (maxl ys, maxl xs) |}
    end
  else
    let! c := dense_loop o g sh raw frame_list (empty_cube fsi) in
    Ok {| r_frames := if sum_frames o then 1 else target c; r_height := height g; r_width := width g; r_channels := channels;
          r_data := maps c; r_em := fun f y x => ems c f (y * h + x); r_has_em := any_em c; r_sweep := frame_num c; r_starts := starts c; r_valid := valid c; r_origin := (maxl ys, maxl xs) |}
  end.

(** * From _read_pts *)
(** The frames, starts and shifts from the arguments (lines 425-486).  [shifts]: whether
    shifts are of two numbers, and the shifts *)
Definition listed_frames (frame_list : option (list Z)) (sweep : Z) (shifts : option (bool * list shift)) : list nat :=
  let l := match frame_list with None | Some [] => zseq 0 (Z.to_nat (sweep + 1)) | Some l => l end in
  map Z.to_nat (filter (fun i => (0 <=? i) && (i <=? sweep) && match shifts with None => true | Some (_, s) => i <? zlen s end) l).
Definition prepare (frame_list : option (list Z)) (sweep : Z) (fsi : option (list Z)) (shifts : option (bool * list shift)) : res (list nat * list Z * list shift) :=
  let l := listed_frames frame_list sweep shifts in
  match l with
  | [] => Err ValueError
  | _ =>
      let n := S (fold_right Nat.max O l) in
      let fsi0 := match fsi with None => 0 :: repeat (-1) (n - 1) | Some f => f end in
      let fsi1 := if Nat.ltb (List.length fsi0) n then fsi0 ++ repeat (-1) (n - List.length fsi0) else fsi0 in
      let zero := {| dx := 0; dy := 0; dz := 0 |} in
      let! sh := match shifts with
                 | None => Ok (repeat zero n)
                 | Some (true, s) => if Nat.ltb n (List.length s) then Err ValueError
                                     else Ok (map (fun d => {| dx := dx d; dy := dy d; dz := 0 |}) s ++ repeat zero (n - List.length s))
                 | Some (false, s) => Ok s
                 end in
      Ok (l, fsi1, sh)
  end.
Definition check_divisor (factor number : Z) : res unit := if (1 <? factor) && negb (number mod factor =? 0) then Err ValueError else Ok tt.
(** Width or height, and its norm, with downsampling (lines 340-391) *)
Definition downsampled (size down : Z) : res (Z * Z) :=
  let! _ := check_divisor down size in
  if (size =? 0) || (down =? 0) then Err ZeroDivisionError else Ok (Z.quot size down, Z.quot (4096 * down) size).
(** Names, sizes and offsets of the axes of the map, without energy (lines 520-553) *)
Definition map_axes (o : options) (r : result) : list (string * Z * Z) :=
  (if sum_frames o then [] else [("Frame"%string, r_sweep r, 0)]) ++ [("y"%string, r_height r, snd (r_origin r)); ("x"%string, r_width r, fst (r_origin r))].
Definition data_shape (o : options) (r : result) : list Z := (if sum_frames o then [] else [r_frames r]) ++ [r_height r; r_width r].
