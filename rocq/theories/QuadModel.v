(** Model of /repo/rsciio/quadstar/_api.py (Quadstar SAC and SBC files).
    A file is a list of bytes.  Single precision numbers are words of the file.  Simplifications: times
    are exact multiples of 0.1 ms (the code adds doubles), 10.0**n is exact before it is rounded to single
    precision, scales are rational numbers; the dictionaries of original metadata are left out. *)
From Coq Require Import QArith.
From Verif Require Import Base Text Bytes SfsModel SurFloat RenModel.
Local Open Scope Z_scope.

(** * Bytes.  struct.unpack_from: negative offsets count from the end *)
Definition slice_at (b : list Z) (p n : Z) : list Z := slice (Z.to_nat p) (Z.to_nat n) b.
Definition unpack (w : Z) (b : list Z) (p : Z) : res Z :=
  let len := zlen b in
  if p <? 0 then if (0 <? p + w) || (p + len <? 0) then Err StructError else Ok (le_val (slice_at b (p + len) w))
  else if len - p <? w then Err StructError else Ok (le_val (slice_at b p w)).
(** numpy.frombuffer: items of w bytes, all there are if the count is negative *)
Definition frombuffer (w count : Z) (b : list Z) (p : Z) : res (list (list Z)) :=
  let len := zlen b in
  if (p <? 0) || (len <? p) then Err ValueError else
  let s := len - p in
  if count <? 0 then if s mod w =? 0 then Ok (records (Z.to_nat (s / w)) (Z.to_nat w) (skipz p b)) else Err ValueError
  else if s <? count * w then Err ValueError else Ok (records (Z.to_nat count) (Z.to_nat w) (skipz p b)).
Definition field (r : list Z) (p w : Z) : Z := le_val (slice_at r p w).
Definition field_signed (r : list Z) (p w : Z) : Z := signed (Z.to_nat w) (field r p w).
(** numpy's items of bytes end before trailing zeros; _decode_bytes (lines 115-119).  Latin-1 has the code points of the bytes *)
Definition cut_zeros (s : list Z) : list Z := rev (drop_zeros (rev s)).
(** white space of str.strip among the characters of Latin-1 *)
Definition blank (c : Z) : bool := (9 <=? c) && (c <=? 13) || (28 <=? c) && (c <=? 32) || (c =? 133) || (c =? 160).
Fixpoint drop_blank (s : list Z) : list Z := match s with c :: s' => if blank c then drop_blank s' else s | [] => [] end.
Definition strip_blank (s : list Z) : list Z := rev (drop_blank (rev (drop_blank s))).
Definition text_field (r : list Z) (p w : Z) : pystr := strip_blank (cut_zeros (slice_at r p w)).

(** * Headers (lines 61-163) *)
Record general := { g_second : Z; g_minute : Z; g_hour : Z; g_day : Z; g_month : Z; g_year : Z; g_steps : Z; g_traces : Z; g_length : Z }.
Definition read_general (b : list Z) : res general :=
  let! l := frombuffer 110 1 b 0 in
  match l with
  | r :: _ => Ok {| g_second := field r 8 1; g_minute := field r 9 1; g_hour := field r 10 1; g_day := field r 11 1; g_month := field r 12 1; g_year := field r 13 1;
                    g_steps := field_signed r 100 4; g_traces := field_signed r 104 2; g_length := field_signed r 106 4 |}
  | [] => Err IndexError
  end.
Record trace := { t_type : Z; t_info : Z; t_data : Z }.
Definition read_traces (b : list Z) (n : Z) : res (list trace) :=
  let! l := frombuffer 9 n b 200 in Ok (map (fun r => {| t_type := field r 0 1; t_info := field_signed r 1 4; t_data := field_signed r 5 4 |}) l).
Record info := { i_ytitle : pystr; i_yunit : pystr; i_xtitle : pystr; i_xunit : pystr; i_comment : pystr; i_mass : Z; i_width : Z; i_values : Z }.
Definition read_info (b : list Z) (p : Z) : res info :=
  let! l := frombuffer 137 1 b p in
  match l with
  | r :: _ => Ok {| i_ytitle := text_field r 2 13; i_yunit := text_field r 15 13; i_xtitle := text_field r 29 13; i_xunit := text_field r 42 13; i_comment := text_field r 55 59;
                    i_mass := field r 122 4; i_width := field r 126 2; i_values := field r 128 1 |}
  | [] => Err IndexError
  end.
(** _build_datetime; isoformat of date and time *)
Definition month_days (y m : Z) : Z := nth (Z.to_nat (m - 1)) [31; if leap_year y then 29 else 28; 31; 30; 31; 30; 31; 31; 30; 31; 30; 31] 0.
Definition date_of_header (g : general) : option (pystr * pystr) :=
  let y := 1900 + g_year g in
  if (1 <=? g_month g) && (g_month g <=? 12) && (1 <=? g_day g) && (g_day g <=? month_days y (g_month g)) && (g_hour g <? 24) && (g_minute g <? 60) && (g_second g <? 60)
  then Some (digits 4 y ++ str "-" ++ digits 2 (g_month g) ++ str "-" ++ digits 2 (g_day g), digits 2 (g_hour g) ++ str ":" ++ digits 2 (g_minute g) ++ str ":" ++ digits 2 (g_second g))
  else None.

(** * Signals *)
Inductive scaling := Step (offset scale : Q) | Points (l : list Q).
Record time_axis := { x_size : Z; x_scaling : scaling }.
Record mass_axis := { m_name : pystr; m_units : pystr; m_offset : Z; m_scale : res Q; m_size : Z; m_index : Z }.
Record signal := { s_shape : list Z; s_data : list Z; s_time : option time_axis; s_mass : mass_axis; s_quantity : pystr; s_notes : option pystr; s_date : option (pystr * pystr) }.
(** times in units of 0.1 ms *)
Definition seconds (t : Z) : Q := t # 10000.
Fixpoint diffs (l : list Z) : list Z := match l with a :: (b :: _) as l' => (b - a) :: diffs l' | _ => [] end.
Definition mean (l : list Z) : Q := (sumZ l # Z.to_pos (zlen l)).
Definition time_axis_of (uniform : bool) (ts : list Z) : option time_axis :=
  match ts with
  | t0 :: _ :: _ =>
      let rel := map (fun t => t - t0) ts in
      Some {| x_size := zlen ts; x_scaling := if uniform then let s := (mean (diffs rel) * (1 # 10000))%Q in Step 0 (if Qle_bool s 0 then 1 else s) else Points (map seconds rel) |}
  | _ => None
  end.

(** * SAC files (lines 171-353) *)
Definition nan_word : Z := 2143289344.
(** 10.0 ** e, rounded to single precision for the comparison with single precision numbers *)
Definition limit_word (e : Z) : res Z :=
  if 308 <? e then Err OverflowError
  else if e <? -60 then Ok 0
  else match pack32 (if 0 <=? e then inject_Z (10 ^ e) else 1 # Z.to_pos (10 ^ (- e))) with Ok w => Ok w | Err _ => Ok (255 * 2 ^ 23) end.
Definition overflow (limit w : Z) : Z := if gt32 w limit then nan_word else w.
Definition read_row (b : list Z) (shift : Z) (t : trace) : res (info * list Z) :=
  let! i := read_info b (t_info t) in
  let n := i_width i * i_values i in
  let p := t_data t + shift in
  let! e := unpack 2 b (p + 4) in
  let! limit := limit_word (signed 2 e) in
  let! l := frombuffer 4 n b (p + 6) in
  Ok (i, map (fun r => overflow limit (le_val r)) l).
Definition or_else (s : pystr) (d : string) : pystr := match s with [] => str d | _ => s end.
Definition sac_signal (uniform : bool) (date : option (pystr * pystr)) (ts : list Z) (i : info) (rows : list (list Z)) : signal :=
  let n := i_width i * i_values i in
  let one := zlen rows =? 1 in
  {| s_shape := if one then [n] else [zlen rows; n]; s_data := List.concat rows;
     s_time := time_axis_of uniform ts;
     s_mass := {| m_name := or_else (i_xtitle i) "Mass-to-charge ratio"; m_units := or_else (i_xunit i) "m/z"; m_offset := i_mass i; m_scale := Ok (if 0 <? n then i_width i # Z.to_pos n else 1)%Q; m_size := n;
                  m_index := if one then 0 else 1 |};
     s_quantity := match i_ytitle i with [] => str "Intensity" | t => t ++ str " (" ++ i_yunit i ++ str ")" end;
     s_notes := match i_comment i with [] => None | c => Some c end; s_date := date |}.
Definition read_sac (uniform : bool) (b : list Z) (g : general) : res (list signal) :=
  let! traces := read_traces b (g_traces g) in
  let scans := filter (fun t => t_type t =? 17) traces in
  match scans with
  | [] => Err ValueError
  | first :: _ =>
      let! s0 := unpack 4 b 194 in
      let! m0 := unpack 2 b 198 in
      let! steps := mapM (fun n =>
        let shift := n * g_length g in
        let! s := unpack 4 b (t_data first - 6 + shift) in
        let! m := unpack 2 b (t_data first - 2 + shift) in
        let! rows := mapM (read_row b shift) scans in
        Ok ((s0 + s) * 10000 + (m0 + m), rows)) (zseq 0 (Z.to_nat (g_steps g))) in
      match steps with
      | [] => Err ValueError
      | (_, rows0) :: _ =>
          Ok (map (fun ki => sac_signal uniform (date_of_header g) (map fst steps) (snd ki) (map (fun st => snd (nth (fst ki) (snd st) (snd ki, []))) steps))
                (combine (seq 0 (List.length rows0)) (map fst rows0)))
      end
  end.

(** * SBC files (lines 361-521) *)
Definition every_other (start : nat) (l : list (list Z)) : list Z := map (fun j => le_val (nth (2 * j + start) l [])) (seq 0 ((List.length l + 1 - start) / 2)).
Definition read_sbc (uniform : bool) (b : list Z) (g : general) : res (list signal) :=
  let size := zlen b in
  let cycles := g_steps g in
  let! width := unpack 2 b 203 in
  let masses := width + 1 in
  let bytes := masses * 8 in
  let stride := bytes + 13 in
  let start := size - cycles * stride in
  if (start <? 256) || (size <=? start) then Err ValueError else
  let d := skipz start b in
  let pairs i := records (Z.to_nat (2 * masses)) 4 (slice_at d (i * stride + 13) bytes) in
  let labels := every_other 0 (pairs 0) in
  let rows := map (fun i => every_other 1 (pairs i)) (zseq 0 (Z.to_nat cycles)) in
  let! times := mapM (fun i => unpack 4 d (i * stride)) (zseq 0 (Z.to_nat cycles)) in
  let one := cycles =? 1 in
  Ok [{| s_shape := if one then [masses] else [cycles; masses]; s_data := List.concat rows;
         s_time := time_axis_of uniform (map (fun t => t * 10000) times);
         s_mass := {| m_name := str "Mass-to-charge ratio"; m_units := str "m/z"; m_offset := hd 0 labels;
                      m_scale := if 1 <? masses then let! p := val32 (hd 0 labels) in let! q := val32 (last labels 0) in Ok ((q - p) / inject_Z (masses - 1))%Q else Ok 1%Q;
                      m_size := masses; m_index := if one then 0 else 1 |};
         s_quantity := str "Intensity"; s_notes := None; s_date := date_of_header g |}].

(** * file_reader (lines 529-575) *)
Definition lower (c : Z) : Z := if (65 <=? c) && (c <=? 90) then c + 32 else c.
Definition file_reader (uniform is_lazy : bool) (name : pystr) (b : list Z) : res (list signal) :=
  if is_lazy then Err NotImplementedError else
  let! g := read_general b in
  if endswith (str ".sbc") (map lower name) then read_sbc uniform b g else read_sac uniform b g.
