(** Model of three readers of log files: /repo/rsciio/dens/_api.py, /repo/rsciio/protochips/_api.py and
    /repo/rsciio/impulse/_api.py.
    A file is a list of lines, each ending in a newline.  Simplifications: float() of a text is a function to
    rational numbers or None (no infinities and nan) and arithmetic on them is exact; numerals are of
    ASCII digits; the line fitted to the times of a DENS file is a function; log messages are left out. *)
From Coq Require Import QArith.
From Verif Require Import Base Text Bytes HierModel SfsModel RplModel RenModel QuadModel.
Local Open Scope Z_scope.

(** * Texts.  str.replace, str.split() and str.split(" = ") *)
Definition replace (p r : string) (s : pystr) : pystr := replace_sub (S (List.length s)) (str p) (str r) s.
Fixpoint word_list (s cur : pystr) : list pystr :=
  match s with
  | [] => match cur with [] => [] | _ => [rev cur] end
  | c :: s' => if is_space c then match cur with [] => word_list s' [] | _ => rev cur :: word_list s' [] end else word_list s' (c :: cur)
  end.
Fixpoint split_at (fuel : nat) (p cur s : pystr) : list pystr :=
  match fuel, s with
  | _, [] => [rev cur]
  | O, _ => [rev cur]
  | S n, c :: s' => if startswith p s then rev cur :: split_at n p [] (skipn (List.length p) s) else split_at n p (c :: cur) s'
  end.
Definition split_on (p : string) (s : pystr) : list pystr := split_at (S (List.length s)) (str p) [] s.
Definition newline (s : pystr) : pystr := s ++ [10].
Definition nth_cell (l : list pystr) (i : nat) : res pystr := match nth_error l i with Some s => Ok s | None => Err IndexError end.
Definition last_cell (l : list pystr) : pystr := last l [].

(** * DENS heater logs *)
(** One or two digits, for strptime *)
Definition numeral (s : pystr) : option Z := match s with [_] | [_; _] => undec s | _ => None end.
Definition in_range (lo hi : Z) (v : option Z) : option Z := match v with Some z => if (lo <=? z) && (z <=? hi) then Some z else None | None => None end.
(** "%H:%M:%S.%f" in microseconds (dens lines 28-38) *)
Definition fraction (s : pystr) : option Z :=
  if (List.length s <=? 6)%nat then match undec s with Some z => Some (z * 10 ^ (6 - zlen s)) | None => None end else None.
Definition clock (s : pystr) : option Z :=
  match split_char 58 s with
  | [h; m; sf] =>
      match split_char 46 sf with
      | [sec; f] =>
          match in_range 0 23 (numeral h), in_range 0 59 (numeral m), in_range 0 59 (numeral sec), fraction f with
          | Some h, Some m, Some s, Some f => Some ((h * 3600 + m * 60 + s) * 1000000 + f)
          | _, _, _, _ => None
          end
      | _ => None
      end
  | _ => None
  end.
(** "%d/%m/'%y %H:%M" (lines 75-77): the texts of the date and the time *)
Definition two_digit_year (y : Z) : Z := if y <? 69 then 2000 + y else 1900 + y.
Definition dens_date (s : pystr) : option (pystr * pystr) :=
  match split_char 47 s with
  | [d; m; 39 :: y1 :: y2 :: t] =>
      match split_char 58 (lstrip t) with
      | [h; mi] =>
          match in_range 1 31 (match d with [32; c] => undec [c] | _ => numeral d end), in_range 1 12 (numeral m), undec [y1; y2], in_range 0 23 (numeral h), in_range 0 59 (numeral mi) with
          | Some d, Some m, Some y, Some h, Some mi =>
              let y := two_digit_year y in
              if (match t with c :: _ => is_space c | [] => false end) && (d <=? month_days y m)
              then Some (digits 4 y ++ str "-" ++ digits 2 m ++ str "-" ++ digits 2 d, digits 2 h ++ str ":" ++ digits 2 mi ++ str ":00") else None
          | _, _, _, _, _ => None
          end
      | _ => None
      end
  | _ => None
  end.
Section Dens.
  Variable float : pystr -> option Q.
  (** the offset and the scale *)
  Variable fit : list Q -> Q * Q.
  (** _cnv_time *)
  Definition seconds_of (s : pystr) : option Q := match clock s with Some us => Some (us # 1000000) | None => float s end.
  (** np.loadtxt with usecols=(1, 3) *)
  Definition dens_row (line : pystr) : option (res (Q * Q)) :=
    match word_list (before 35 line) [] with
    | [] => None
    | l => Some match nth_error l 1, nth_error l 3 with
                | Some a, Some b => match seconds_of a, float b with Some t, Some v => Ok (t, v) | _, _ => Err ValueError end
                | _, _ => Err ValueError
                end
    end.
  Fixpoint dens_rows (lines : list pystr) : res (list (Q * Q)) :=
    match lines with
    | [] => Ok []
    | l :: lines' => match dens_row l with None => dens_rows lines' | Some r => let! x := r in let! rest := dens_rows lines' in Ok (x :: rest) end
    end.
  (** times after a rollover are a day later (lines 95-98) *)
  Definition add_day (t : Q) : Q := (t + 86400)%Q.
  Definition below (a b : Q) : bool := negb (Qle_bool b a).
  Fixpoint drops (i : nat) (l : list Q) : list nat := match l with a :: (b :: _) as l' => (if below b a then [i] else []) ++ drops (S i) l' | _ => [] end.
  Definition rollover (l : list Q) : list Q := fold_left (fun l i => firstn i l ++ map add_day (skipn i l)) (drops 1 l) l.
  Record dens := { d_data : list Q; d_times : list Q; d_offset : Q; d_scale : Q; d_size : Z; d_date : pystr; d_time : pystr; d_calibration : list Q; d_version : pystr }.
  Definition bad_file {A} : res A := Err OtherError.
  (** leading empty lines; without other lines the loop does not end *)
  Fixpoint skip_empty (lines : list pystr) : res (pystr * list pystr) :=
    match lines with [] => Err OutOfFuel | l :: lines' => match strip l with [] => skip_empty lines' | _ => Ok (newline l, lines') end end.
  Definition readline (lines : list pystr) : pystr * list pystr := match lines with [] => ([], []) | l :: lines' => (newline l, lines') end.
  Definition calibration (line : pystr) : res (list Q) :=
    let! l := mapM (fun v => let! s := nth_cell (split_char 61 v) 1 in match float s with Some q => Ok q | None => bad_file end) (split_char 9 line) in
    if (List.length l =? 4)%nat then Ok l else bad_file.
  Definition dens_header : pystr := join_char 9 (map str ["sample"; "time"; "Tset[C]"; "Tmeas[C]"; "Rheat[ohm]"; "Vheat[V]"; "Iheat[mA]"; "Pheat [mW]"; "c"]%string).
  (** file_reader (lines 45-137) *)
  Definition dens_reader (is_lazy : bool) (file : list pystr) : res dens :=
    if is_lazy then Err NotImplementedError else
    let! p := skip_empty file in let (line, file) := p in
    match split_char 9 line with
    | [date; version] =>
        if negb (eqb_str (strip version) (str "Digiheater 3.1")) then bad_file else
        let (calib, file) := readline file in
        let (_, file) := readline file in
        let (header, file) := readline file in
        let! c := calibration calib in
        match dens_date date with
        | None => bad_file
        | Some (date, time) =>
            if negb (eqb_str (strip header) dens_header) then bad_file else
            match dens_rows file with
            | Err _ => bad_file
            | Ok [] => Err TypeError
            | Ok [_] => Err ValueError
            | Ok l => let ts := rollover (map fst l) in
                      Ok {| d_data := map snd l; d_times := ts; d_offset := fst (fit ts); d_scale := snd (fit ts); d_size := zlen ts; d_date := date; d_time := time; d_calibration := c; d_version := version |}
            end
        end
    | _ => bad_file
    end.
End Dens.

(** * numpy.genfromtxt with names and the delimiter ",": columns of cells.
    There must be rows, all with as many cells as there are names; cells keep their text *)
Definition deleted : pystr := str "~!@#$%^&*()-=+~\|]}[{';: /?.>,<".
Definition excluded : list pystr := map str ["return"; "file"; "print"]%string.
Definition has (c : Z) (s : pystr) : bool := existsb (Z.eqb c) s.
(** NameValidator.validate; names that become empty are left out of the model *)
Definition valid_name (s : pystr) : pystr :=
  let s := filter (fun c => negb (has c deleted)) (map (fun c => if c =? 32 then 95 else c) (strip s)) in
  if existsb (eqb_str s) excluded then s ++ [95] else s.
Fixpoint count (s : pystr) (l : list pystr) : Z := match l with [] => 0 | x :: l' => (if eqb_str s x then 1 else 0) + count s l' end.
Fixpoint valid_names (seen names : list pystr) : list pystr :=
  match names with
  | [] => []
  | n :: names' => let s := valid_name n in (if count s seen =? 0 then s else s ++ 95 :: dec (count s seen)) :: valid_names (s :: seen) names'
  end.
Definition table_row (line : pystr) : option (list pystr) := match strip (before 35 line) with [] => None | s => Some (split_char 44 s) end.
Fixpoint table_rows (lines : list pystr) : list (list pystr) := match lines with [] => [] | l :: lines' => match table_row l with Some r => r :: table_rows lines' | None => table_rows lines' end end.
Definition column (i : nat) (rows : list (list pystr)) : list pystr := map (fun r => nth i r []) rows.
Fixpoint columns (i : nat) (names : list pystr) (rows : list (list pystr)) : list (pystr * list pystr) := match names with [] => [] | n :: names' => (n, column i rows) :: columns (S i) names' rows end.
Definition genfromtxt (names : list pystr) (lines : list pystr) : res (list (pystr * list pystr)) :=
  let rows := table_rows lines in
  if negb (zlen rows =? 0) && forallb (fun r => (List.length r =? List.length names)%nat) rows then Ok (columns 0 (valid_names [] names) rows) else Err ValueError.
Definition get_column (data : list (pystr * list pystr)) (name : pystr) : res (list pystr) := match lookup name data with Some c => Ok c | None => Err ValueError end.
(** np.diff(time[1:-1]).mean(): None is nan *)
Fixpoint qdiffs (l : list Q) : list Q := match l with a :: (b :: _) as l' => (b - a)%Q :: qdiffs l' | _ => [] end.
Definition inner {A} (l : list A) : list A := removelast (tl l).
Definition qsum (l : list Q) : Q := fold_right Qplus 0%Q l.
Definition qmean (l : list Q) : option Q := match l with [] => None | _ => Some (qsum l / inject_Z (zlen l))%Q end.

(** * Protochips logs *)
Section Protochips.
  Variable float : pystr -> option Q.
  (** "%Y.%m.%d%H:%M:%S.%f": the texts of the date and the time *)
  Variable strptime : pystr -> option (pystr * pystr).
  (** _parse_metadata_header (lines 259-260) *)
  Definition parameter (line : pystr) : res (pystr * pystr) :=
    let! c := nth_cell (split_char 44 (replace ", " "," line)) 1 in
    match split_on " = " c with [p; v] => Ok (p, v) | _ => Err ValueError end.
  Record header := { h_calibration : option pystr; h_date : option pystr; h_time : option pystr; h_attrs : list (pystr * pystr); h_user : option (option pystr); h_lines : Z }.
  Definition no_header : header := {| h_calibration := None; h_date := None; h_time := None; h_attrs := []; h_user := None; h_lines := 0 |}.
  Definition set_parameter (h : header) (param value : pystr) : header :=
    if contains (str "Calibration file") param then {| h_calibration := Some value; h_date := h_date h; h_time := h_time h; h_attrs := h_attrs h; h_user := h_user h; h_lines := h_lines h |}
    else if contains (str "Date (yyyy.mm.dd)") param then {| h_calibration := h_calibration h; h_date := Some value; h_time := h_time h; h_attrs := h_attrs h; h_user := h_user h; h_lines := h_lines h |}
    else if contains (str "Time (hh:mm:ss.ms)") param then {| h_calibration := h_calibration h; h_date := h_date h; h_time := Some value; h_attrs := h_attrs h; h_user := h_user h; h_lines := h_lines h |}
    else {| h_calibration := h_calibration h; h_date := h_date h; h_time := h_time h; h_attrs := put (Text.lower (replace " " "_" param)) value (h_attrs h); h_user := h_user h; h_lines := h_lines h |}.
  Definition finish (h : header) (user : option (option pystr)) (i : Z) : header := {| h_calibration := h_calibration h; h_date := h_date h; h_time := h_time h; h_attrs := h_attrs h; h_user := user; h_lines := i |}.
  (** _read_all_metadata_header (lines 228-257): a file that ends has an IndexError in its next line *)
  Fixpoint read_header (h : header) (i : Z) (param value : pystr) (lines : list pystr) : header :=
    if contains (str "User") param then finish h (Some (Some value)) i else
    let h := set_parameter h param value in
    match lines with
    | [] => finish h None (i + 1)
    | l :: lines' =>
        match parameter (newline l) with
        | Ok (p, v) => read_header h (i + 1) p v lines'
        | Err ValueError => finish h (Some None) (i + 1)
        | Err _ => finish h None (i + 1)
        end
    end.
  Record protochips := { c_names : list pystr; c_header : header; c_start : pystr * pystr; c_notes : list pystr; c_time : option (list pystr); c_data : list (pystr * list pystr) }.
  Definition column_names (line : pystr) : list pystr := split_char 44 (replace ", " "," line).
  Definition mem_name (s : string) (l : list pystr) : bool := existsb (eqb_str (str s)) l.
  (** _read_data (lines 150-168): notes, time, and the other columns.  Empty notes make a column of truth values, all False;
      columns of notes that are all numerals or truth values are left out *)
  Definition as_text (c : list pystr) : list pystr := if forallb (fun s => eqb_str (strip s) []) c then map (fun _ => str "False") c else c.
  Definition file_columns (data : list (pystr * list pystr)) (st : list pystr * option (list pystr) * list (pystr * list pystr)) (name : pystr) : res (list pystr * option (list pystr) * list (pystr * list pystr)) :=
    let '(notes, time, d) := st in
    let! c := get_column data (map (fun c => if c =? 32 then 95 else c) name) in
    Ok (if eqb_str name (str "Notes") then (as_text c, time, d) else if eqb_str name (str "Time") then (notes, Some c, d) else (notes, time, put name c d)).
  Fixpoint fold_columns (data : list (pystr * list pystr)) st (names : list pystr) := match names with [] => Ok st | n :: names' => let! st := file_columns data st n in fold_columns data st names' end.
  Definition open_protochips (file : list pystr) : res protochips :=
    match file with
    | [] => Err IOError
    | first :: rest =>
        let names := column_names first in
        if negb (mem_name "Time" names && mem_name "Notes" names && (3 <=? zlen names)) then Err IOError else
        match rest with
        | [] => Err IndexError
        | l :: rest' =>
            let! pv := parameter (newline l) in
            let h := read_header no_header 2 (fst pv) (snd pv) rest' in
            match h_date h, h_time h with
            | Some d, Some t =>
                match strptime (d ++ t) with
                | None => Err ValueError
                | Some start =>
                    let! data := genfromtxt (map (map (fun c => if c =? 32 then 95 else c)) names) (skipz (h_lines h) file) in
                    let! st := fold_columns data ([], None, []) names in
                    let '(notes, time, d) := st in Ok {| c_names := names; c_header := h; c_start := start; c_notes := notes; c_time := time; c_data := d |}
                end
            | _, _ => Err NameError
            end
        end
    end.
  Record log := { l_data : list pystr; l_title : pystr; l_quantity : pystr; l_size : Z; l_scale : Q; l_date : pystr; l_time : pystr; l_user : option pystr; l_calibration : pystr; l_notes : list (pystr * pystr) }.
  (** _parse_quantity_units (lines 224-226) *)
  Definition units (f : protochips) (quantity : pystr) : res pystr :=
    match lookup (Text.lower (last_cell (split_char 32 quantity)) ++ str "_units") (h_attrs (c_header f)) with Some u => Ok u | None => Err KeyError end.
  Definition floats (l : list pystr) : res (list Q) := mapM (fun s => match float s with Some q => Ok q | None => Err TypeError end) l.
  (** _get_axes (lines 189-218): an empty array has no maximum *)
  Definition time_scale (f : protochips) (ts : list Q) : res Q :=
    match qmean (qdiffs (inner ts)) with
    | None => Err ValueError
    | Some s => match lookup (str "time_units") (h_attrs (c_header f)) with Some u => Ok (if eqb_str u (str "Milliseconds") then s / 1000 else s)%Q | None => Err AttributeError end
    end.
  Definition no_calibration : pystr := str "The calibration files names are saved in the 'Original notes' array of the original metadata.".
  Definition dictionary (f : protochips) (quantity : pystr) : res log :=
    let! data := match lookup quantity (c_data f) with Some c => Ok c | None => Err KeyError end in
    let! time := match c_time f with Some t => Ok t | None => Err AttributeError end in
    let! ts := floats time in
    let! scale := time_scale f ts in
    let! u := units f quantity in
    let! _ := mapM (units f) (skipn 2 (c_names f)) in
    let! user := match h_user (c_header f) with Some u => Ok u | None => Err AttributeError end in
    Ok {| l_data := data; l_title := quantity ++ str " (" ++ u ++ str ")"; l_quantity := last_cell (split_char 32 quantity) ++ str " (" ++ u ++ str ")"; l_size := zlen time; l_scale := scale; l_date := fst (c_start f); l_time := snd (c_start f);
          l_user := match user with Some [] => None | u => u end; l_calibration := match h_calibration (c_header f) with Some c => c | None => no_calibration end;
          l_notes := filter (fun tn => negb (eqb_str (snd tn) [])) (combine time (c_notes f)) |}.
  Definition protochips_reader (is_lazy : bool) (file : list pystr) : res (list log) :=
    if is_lazy then Err NotImplementedError else
    let! f := open_protochips file in
    mapM (fun q => match dictionary f q with Ok d => Ok d | Err _ => Err IOError end) (skipn 2 (c_names f)).
End Protochips.

(** * Impulse logs *)
Section Impulse.
  Variable float : pystr -> option Q.
  (** The texts of the other files, by name *)
  Variable folder : pystr -> option (list pystr).
  Definition impulse_name (s : pystr) : pystr :=
    replace "%" "Perc" (replace "/" "_" (replace ")" "" (replace "(" "" (replace "#" "No" (replace_sub (S (List.length (replace " " "_" s))) [176; 67] (str "C") (replace " " "_" s)))))).
  (** _read_metadatafile (lines 140-170).  csv rows: fields without quotes at their start *)
  Definition metadata_name (name : pystr) : pystr := map (fun c => if c =? 92 then 47 else c) (join_char 95 (removelast (split_char 95 name)) ++ str "_Metadata.log").
  Definition csv_row (line : pystr) : list pystr := match line with [] => [] | _ => split_char 44 line end.
  Fixpoint metadata_rows (notes : option (list pystr)) (d : list (pystr * pystr)) (rows : list (list pystr)) : res (list (pystr * pystr) * list pystr) :=
    match rows with
    | [] => Ok (d, match notes with Some n => n | None => [] end)
    | r :: rows' =>
        let! a := nth_cell r 0 in
        match notes with
        | Some n => metadata_rows (Some (n ++ [a])) d rows'
        | None => let! b := nth_cell r 1 in if eqb_str a (str "Live notes") then metadata_rows (Some [strip b]) d rows' else metadata_rows None (put (replace " " "_" a) (strip b) d) rows'
        end
    end.
  Definition impulse_metadata (name : pystr) : res (list (pystr * pystr) * list pystr) :=
    if contains (str "_Synchronized data") name || contains (str "raw") name
    then match folder (metadata_name name) with Some lines => metadata_rows None [] (map csv_row lines) | None => Ok ([], []) end
    else Err IOError.
  (** MixValve (lines 127-136): a number is written to a cell of the width of the column; numbers of more than
      32 bits are errors *)
  Definition mix_valve (width : nat) (s : pystr) : res Z :=
    let l := split_char 59 s in
    let! a := nth_cell l 0 in let! a := parse_int a in
    let! b := nth_cell l 1 in let! b := parse_int b in
    let! c := nth_cell l 2 in let! c := parse_int c in
    let! n := parse_int (firstn width (str_int ((a + 2) * 100 + (b + 2) * 10 + (c + 2)))) in
    if (- 2 ^ 31 <=? n) && (n <? 2 ^ 31) then Ok n else Err OverflowError.
  Definition width_of (c : list pystr) : nat := fold_right (fun s n => Nat.max (List.length s) n) 0%nat c.
  Inductive cells := Plain (c : list pystr) | Ints (l : list Z).
  Definition impulse_column (data : list (pystr * list pystr)) (st : option (list pystr) * list (pystr * cells)) (name : pystr) : res (option (list pystr) * list (pystr * cells)) :=
    let (time, d) := st in
    let! c := get_column data (impulse_name name) in
    if eqb_str name (str "Experiment time") then Ok (Some c, d)
    else if eqb_str name (str "MixValve") then match c with [_] => Err TypeError | _ => let! l := mapM (mix_valve (width_of c)) c in Ok (time, put name (Ints l) d) end
    else Ok (time, put name (Plain c) d).
  Fixpoint impulse_columns (data : list (pystr * list pystr)) st (names : list pystr) := match names with [] => Ok st | n :: names' => let! st := impulse_column data st n in impulse_columns data st names' end.
  (** _parse_quantity_units (lines 93-102) *)
  Definition ends_with (c : Z) (s : pystr) : bool := match rev s with x :: _ => x =? c | [] => false end.
  Definition begins_with (c : Z) (s : pystr) : bool := match s with x :: _ => x =? c | [] => false end.
  Definition quantity_units (q : pystr) : pystr :=
    let l := split_char 32 (strip q) in
    let w := last_cell l in
    if (1 <? zlen l) && begins_with 40 w && ends_with 41 w then filter (fun c => negb ((c =? 40) || (c =? 41))) w else [].
  Record impulse := { i_data : cells; i_title : pystr; i_units : pystr; i_date : pystr; i_time : pystr; i_size : Z; i_scale : option Q }.
  Definition impulse_dictionary (time : option (list pystr)) (d : list (pystr * cells)) (m : list (pystr * pystr)) (q : pystr) : res impulse :=
    let! data := match lookup q d with Some c => Ok c | None => Err KeyError end in
    let! time := match time with Some [_] => Err IndexError | Some t => Ok t | None => Err AttributeError end in
    let! ts := mapM (fun s => match float s with Some q => Ok q | None => Err TypeError end) time in
    let! date := match lookup (str "Experiment_date") m with Some s => Ok s | None => Err KeyError end in
    let! tm := match lookup (str "Experiment_time") m with Some s => Ok s | None => Err KeyError end in
    Ok {| i_data := data; i_title := q; i_units := quantity_units q; i_date := date; i_time := tm; i_size := zlen time; i_scale := qmean (qdiffs (inner ts)) |}.
  Definition impulse_reader (is_lazy : bool) (name : pystr) (file : list pystr) : res (list impulse) :=
    if is_lazy then Err NotImplementedError else
    let (first, rest) := match file with [] => ([], []) | l :: r => (l, r) end in
    let names := split_char 44 (strip first) in
    if negb (existsb (eqb_str (str "TimeStamp")) names && (3 <=? zlen names)) then Err IOError else
    let! m := impulse_metadata name in
    let! data := genfromtxt (map impulse_name names) rest in
    let! st := impulse_columns data (None, []) names in
    mapM (impulse_dictionary (fst st) (snd st) (fst m)) (skipn 2 names).
End Impulse.
