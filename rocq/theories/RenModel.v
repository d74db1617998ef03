(** Model of /repo/rsciio/renishaw/_api.py (Renishaw WiRE .wdf files).
    A file is a list of bytes.  Single and double precision numbers of data, axes and metadata are kept
    as the words of the file, and arithmetic on them (steps of a series, quotient of the date) is exact.  Simplifications:
    numbers of 64 bits do not overflow; an unknown unit has the text of Python 3.11 or later;
    the mean of several spectra and the line fitted to a signal axis are functions; a property
    name that is compressed is an error of its own; log messages and the white light image are
    left out.  An unknown flag or map type is DefaultEnum.Unknown, which equals 0 and has the hash of
    0, so that an unknown flag of a property is read as a normal one. *)
From Coq Require Import QArith.
From Verif Require Import Base Text Bytes Utf8 SfsModel HierModel RowMajor SurFloat.
Local Open Scope Z_scope.

(** * Numbers and text (__read_numeric, __read_utf8, lines 479-504): value and rest of the file.
    numpy.fromfile gives the items there are *)
Definition read_words (w n : Z) (b : list Z) : list Z * list Z :=
  let have := zlen b / w in let k := if n <? 0 then have else Z.min n have in
  (map le_val (records (Z.to_nat k) (Z.to_nat w) b), if (0 <=? n) && (n <=? have) then skipz (n * w) b else []).
Definition read_word (w : Z) (b : list Z) : res (Z * list Z) := match read_words w 1 b with (x :: _, r) => Ok (x, r) | ([], _) => Err IndexError end.
(** uint64 becomes int64 *)
Definition read_u64 (b : list Z) : res (Z * list Z) := let! p := read_word 8 b in Ok (signed 8 (fst p), snd p).
Definition read_utf8 (n : Z) (b : list Z) : res (pystr * list Z) :=
  if n <? -1 then Err ValueError else
  let n := if n <? 0 then zlen b else n in
  let! s := utf8_decode (firstz n b) in Ok (filter (fun c => negb (c =? 0)) s, skipz n b).

(** * Dates: convert_windowstime_to_datetime (lines 120-123).  datetime._ord2ymd, days from 1601-01-01 *)
Definition leap_year (y : Z) : bool := (y mod 4 =? 0) && (negb (y mod 100 =? 0) || (y mod 400 =? 0)).
Fixpoint month_of (leap : bool) (n m : Z) (lengths : list Z) : Z * Z :=
  match lengths with
  | l :: lengths' => let l := if (m =? 2) && leap then l + 1 else l in if n <? l then (m, n + 1) else month_of leap (n - l) (m + 1) lengths'
  | [] => (m, n + 1)
  end.
Definition civil (days : Z) : Z * Z * Z :=
  let n400 := days / 146097 in let n := days mod 146097 in
  let n100 := n / 36524 in let n := n mod 36524 in
  let n4 := n / 1461 in let n := n mod 1461 in
  let n1 := n / 365 in let n := n mod 365 in
  let y := n400 * 400 + n100 * 100 + n4 * 4 + n1 in
  if (n1 =? 4) || (n100 =? 4) then (1600 + y, 12, 31)
  else let (m, d) := month_of (leap_year (1601 + y)) n 1 [31; 28; 31; 30; 31; 30; 31; 31; 30; 31; 30; 31] in (1601 + y, m, d).
Definition digits (n : nat) (z : Z) : pystr := map (fun i => 48 + z / 10 ^ i mod 10) (rev (zseq 0 n)).
Definition windows_time (wt : Z) : res pystr :=
  let us := round_div wt 10 in
  let '(y, m, d) := civil (us / 86400000000) in
  let s := us mod 86400000000 / 1000000 in
  if (1 <=? y) && (y <=? 9999)
  then Ok (digits 4 y ++ str "-" ++ digits 2 m ++ str "-" ++ digits 2 d ++ str "#" ++ digits 2 (s / 3600) ++ str ":" ++ digits 2 (s / 60 mod 60) ++ str ":" ++ digits 2 (s mod 60))
  else Err OverflowError.

(** * Blocks (lines 506-549) *)
Definition block := (Z * Z)%type.
Definition read_block (pos : Z) (f : list Z) : res (pystr * Z * Z) :=
  if pos <? 0 then Err ValueError else
  let! p := read_utf8 4 (skipz pos f) in let (name, b) := p in
  let! p := read_word 4 b in let (uid, b) := p in
  let! p := read_u64 b in Ok (name, uid, fst p).
Definition block_key (name : pystr) (uid : Z) : pystr := filter (fun c => negb (c =? 32)) name ++ str "_" ++ str_int uid.
(** block_name is not bound before the first block *)
Fixpoint locate_blocks (fuel : nat) (first : bool) (pos : Z) (info : list (pystr * block)) (f : list Z) : res (list (pystr * block)) :=
  match fuel with
  | O => Err OutOfFuel
  | S fuel' =>
      if zlen f <=? pos then Ok info else
      match read_block pos f with
      | Err UnicodeError => if first then Err NameError else Ok info
      | Err e => Err e
      | Ok (name, uid, size) => locate_blocks fuel' false (pos + size) (put (block_key name uid) (pos + 16, size) info) f
      end
  end.
Definition find_block (key : string) (info : list (pystr * block)) : option block := lookup (str key) info.

(** * Property sets (lines 575-693) *)
Inductive kind := I1 | U1 | I2 | I4 | I8 | F4 | F8 | FileTime.
Inductive value :=
| Num (k : kind) (x : Z) | Nums (k : kind) (l : list Z) | Date (s : pystr) | Dates (l : list pystr)
| Txt (s : pystr) | Dict (d : list (pystr * value)) | Missing.
Definition kind_of (c : Z) : option kind :=
  if c =? 99 then Some I1 else if c =? 63 then Some U1 else if c =? 115 then Some I2 else if c =? 105 then Some I4 else if c =? 119 then Some I8
  else if c =? 114 then Some F4 else if c =? 113 then Some F8 else if c =? 116 then Some FileTime else None.
Definition kind_width (k : kind) : Z := match k with I1 | U1 => 1 | I2 => 2 | I4 | F4 => 4 | I8 | F8 | FileTime => 8 end.
Definition kind_value (k : kind) (x : Z) : Z := match k with I1 => signed 1 x | I2 => signed 2 x | I4 => signed 4 x | I8 => signed 8 x | _ => x end.
Definition read_single (k : kind) (n : Z) (b : list Z) : res (value * list Z) :=
  let (l, r) := read_words (kind_width k) n b in
  match k with
  | FileTime => let! l := mapM windows_time l in if n =? 1 then match l with s :: _ => Ok (Date s, r) | [] => Err IndexError end else Ok (Dates l, r)
  | _ => let l := map (kind_value k) l in if n =? 1 then match l with x :: _ => Ok (Num k x, r) | [] => Err IndexError end else Ok (Nums k l, r)
  end.
Definition hex_digit (d : Z) : Z := if d <? 10 then 48 + d else 55 + d.
Definition hex_text (b : list Z) : pystr := flat_map (fun x => [hex_digit (x / 16); hex_digit (x mod 16)]) b.
Record unmatched := { u_keys : list (pystr * pystr); u_values : list (pystr * value) }.
Definition remove {A} (k : pystr) (l : list (pystr * A)) : list (pystr * A) := filter (fun p => negb (eqb_str k (fst p))) l.
(** _pset_match_keys_and_values *)
Fixpoint match_keys (todo : list (pystr * pystr)) (keys : list (pystr * pystr)) (vals : list (pystr * value)) (d : list (pystr * value)) : list (pystr * value) * list (pystr * pystr) * list (pystr * value) :=
  match todo with
  | [] => (d, keys, vals)
  | (k, name) :: todo' =>
      match lookup k vals with
      | Some v => match_keys todo' (remove k keys) (remove k vals) (put name v d)
      | None => match_keys todo' keys vals d
      end
  end.
Definition matched (id : pystr) (keys : list (pystr * pystr)) (vals : list (pystr * value)) (um : list (pystr * unmatched)) : value * list (pystr * unmatched) :=
  let '(d, keys, vals) := match_keys keys keys vals [] in
  (Dict d, match keys, vals with [], [] => um | _, _ => put id {| u_keys := keys; u_values := vals |} um end).
(** _pset_read_metadata and the functions it calls *)
Fixpoint pset (fuel : nat) (id : pystr) (remaining : Z) (keys : list (pystr * pystr)) (vals : list (pystr * value)) (um : list (pystr * unmatched)) (b : list Z)
  : res (value * list (pystr * unmatched) * list Z) :=
  match fuel with
  | O => Err OutOfFuel
  | S fuel' =>
      if remaining <=? 0 then let (d, um) := matched id keys vals um in Ok (d, um, b) else
      let! p := read_utf8 1 b in let (type, b) := p in
      let! p := read_word 1 b in let (flag, b) := p in
      let! p := read_word 2 b in let (key, b) := p in
      let key := str_int key in
      let remaining := remaining - 4 in
      let sub := id ++ str "_" ++ str_int remaining in
      let entry (size : Z) (b : list Z) : res (value * Z * list (pystr * unmatched) * list Z) :=
        match type with
        | [c] =>
            match kind_of c with
            | Some k => let! p := read_single k size b in Ok (fst p, kind_width k * size, um, snd p)
            | None =>
                if (c =? 98) || (c =? 117) || (c =? 107) || (c =? 112) then
                  let! p := read_word 4 b in let (len, b) := p in
                  if c =? 98 then Ok (Txt (str "binary: " ++ hex_text (firstz len b)), len + 4, um, skipz len b)
                  else if c =? 112 then let! p := pset fuel' sub len [] [] um b in let '(d, um, b) := p in Ok (d, len + 4, um, b)
                  else let! p := read_utf8 len b in Ok (Txt (fst p), len + 4, um, snd p)
                else Err OtherError
            end
        | _ => Err OtherError
        end in
      let! p := (if flag =? 64 then let! p := read_word 4 b in let (len, b) := p in Ok (Missing, len + 4, um, skipz len b)
                 else if flag =? 128 then let! p := read_word 4 b in let (size, b) := p in let! p := entry size b in let '(v, n, um, b) := p in Ok (v, n + 4, um, b)
                 else entry 1 b) in
      let '(v, n, um, b) := p in
      match type, v with
      | [107], Txt name => pset fuel' id (remaining - n) (put key name keys) vals um b
      | [107], _ => Err NotImplementedError
      | _, _ => pset fuel' id (remaining - n) keys (put key v vals) um b
      end
  end.
Definition read_pset (id : pystr) (len : Z) (um : list (pystr * unmatched)) (b : list Z) : res (value * list (pystr * unmatched) * list Z) := pset (S (List.length b)) id len [] [] um b.
(** _get_psetsize and _parse_metadata: nothing without a property set *)
Definition pset_size (info : list (pystr * block)) (id : string) (f : list Z) : res (Z * list Z) :=
  match find_block id info with
  | None => Ok (0, [])
  | Some (pos, _) =>
      let! p := read_word 4 (skipz pos f) in let (is_pset, b) := p in
      let! p := read_word 4 b in let (size, b) := p in
      Ok (if is_pset =? 1413829456 then size else 0, b)
  end.
Definition metadata := list (pystr * value).
Definition parse_metadata (info : list (pystr * block)) (f : list Z) (id : string) (st : metadata * list (pystr * unmatched)) : res (metadata * list (pystr * unmatched)) :=
  let (om, um) := st in
  let! p := pset_size info id f in let (size, b) := p in
  if size =? 0 then Ok st else let! p := read_pset (str id) size um b in let '(d, um, _) := p in Ok (put (str id) d om, um).
Fixpoint parse_all (info : list (pystr * block)) (f : list Z) (ids : list string) (st : metadata * list (pystr * unmatched)) : res (metadata * list (pystr * unmatched)) :=
  match ids with [] => Ok st | id :: ids' => let! st := parse_metadata info f id st in parse_all info f ids' st end.
(** _parse_MAP (lines 749-763) *)
Definition parse_map (info : list (pystr * block)) (f : list Z) (id : string) (st : metadata * list (pystr * unmatched)) : res (metadata * list (pystr * unmatched)) :=
  match find_block id info with
  | None => Ok st
  | Some _ =>
      let (om, um) := st in
      let! p := pset_size info id f in let (size, b) := p in
      let! p := read_pset (str id) size um b in let '(d, um, b) := p in
      let! p := read_u64 b in let (n, b) := p in
      let! p := read_single F4 n b in
      match d with Dict d => Ok (put (str id) (Dict (put (str "data") (fst p) (put (str "npoints") (Num I8 n) d))) om, um) | _ => Err TypeError end
  end.
(** _match_WXDM_values and _map_WXDM (lines 698-742); the words "keys" and "values" are never among the numbered names, so that both are removed from every WXDM entry at the end, even the ones not matched *)
Definition count_us (s : pystr) : Z := countZ (fun c => c =? 95) s.
Fixpoint sub_values (keys : list (pystr * pystr)) (vals : list (pystr * value)) (d : list (pystr * value)) : list (pystr * value) :=
  match vals with
  | [] => d
  | (k, v) :: vals' => sub_values keys vals' (match lookup k keys with Some name => put name v d | None => d end)
  end.
Definition values_of (um : list (pystr * unmatched)) (id : pystr) : list (pystr * value) := match lookup id um with Some u => u_values u | None => [] end.
(** ids of the level, ids left *)
Fixpoint match_values (fuel : nat) (level : Z) (ids : list pystr) (keys : list (pystr * pystr)) (um : list (pystr * unmatched)) : list (pystr * value) :=
  match fuel with
  | O => []
  | S fuel' =>
      let fix each (here : list pystr) (left : list pystr) (num : Z) (d : list (pystr * value)) : list (pystr * value) :=
        match here with
        | [] => d
        | k :: here' =>
            let left := filter (fun i => negb (eqb_str i k)) left in
            let subs := match_values fuel' (level + 1) (filter (startswith k) left) keys um in
            let sub := match subs with [] => [] | _ => [(str "subdicts", Dict subs)] end in
            each here' left (num + 1) (put (str "sub" ++ str_int num) (Dict (sub_values keys (values_of um k) sub)) d)
        end in
      each (filter (fun i => count_us i =? level) ids) ids 0 []
  end.
Definition map_wxdm (st : metadata * list (pystr * unmatched)) : res (metadata * list (pystr * unmatched)) :=
  let (om, um) := st in
  match lookup (str "WXDM_0") om with
  | None => Ok st
  | Some d =>
      match lookup (str "WXDM_0") um with
      | None => Err KeyError
      | Some u =>
          let ids := filter (startswith (str "WXDM")) (map fst um) in
          let m := match_values (S (List.length ids)) 1 ids (u_keys u) um in
          match lookup (str "sub0") m, d with
          | Some (Dict s), Dict d =>
              match lookup (str "subdicts") s with
              | Some subs => Ok (put (str "WXDM_0") (Dict (put (str "extra_matches") subs d)) om,
                  map (fun iu => if startswith (str "WXDM") (fst iu) then (fst iu, {| u_keys := []; u_values := [] |}) else iu) um)
              | None => Err KeyError
              end
          | _, _ => Err KeyError
          end
      end
  end.
(** _parse_TEXT (lines 1264-1270) *)
Definition parse_text (info : list (pystr * block)) (f : list Z) (om : metadata) : res metadata :=
  match find_block "TEXT_0" info with
  | None => Ok om
  | Some (pos, size) => let! p := read_utf8 (size - 16) (skipz pos f) in Ok (put (str "TEXT_0") (Txt (fst p)) om)
  end.

(** * The header (lines 765-834) *)
Inductive measurement := Unspecified | Single | Series | Mapping | UnknownType.
Record header := { h_flags : Z; h_uuid : list Z; h_tracks : Z; h_status : Z; h_points : Z; h_capacity : Z; h_spectra : Z; h_accumulations : Z; h_ylist : Z; h_xlist : Z;
  h_origins : Z; h_app : pystr; h_version : list Z; h_scan : Z; h_type : measurement; h_start : pystr; h_end : pystr; h_unit : Z; h_laser : Z; h_user : pystr; h_title : pystr }.
Definition measurement_of (z : Z) : measurement := if z =? 0 then Unspecified else if z =? 1 then Single else if z =? 2 then Series else if z =? 3 then Mapping else UnknownType.
Fixpoint read_each (w : Z) (n : nat) (b : list Z) : res (list Z * list Z) :=
  match n with O => Ok ([], b) | S n' => let! p := read_word w b in let (x, b) := p in let! p := read_each w n' b in Ok (x :: fst p, snd p) end.
Definition parse_header (info : list (pystr * block)) (f : list Z) : res header :=
  match find_block "WDF1_1" info with
  | None => Err KeyError
  | Some (pos, _) =>
      let! p := read_u64 (skipz pos f) in let (flags, b) := p in
      let! p := read_each 4 4 b in let (uuid, b) := p in
      let b := snd (read_words 4 3 b) in
      let! p := read_word 4 b in let (tracks, b) := p in
      let! p := read_word 4 b in let (status, b) := p in
      let! p := read_word 4 b in let (points, b) := p in
      let! p := read_u64 b in let (capacity, b) := p in
      let! p := read_u64 b in let (spectra, b) := p in
      let! p := read_word 4 b in let (acc, b) := p in
      let! p := read_word 4 b in let (ylist, b) := p in
      let! p := read_word 4 b in let (xlist, b) := p in
      let! p := read_word 4 b in let (origins, b) := p in
      let! p := read_utf8 24 b in let (app, b) := p in
      let! p := read_each 2 4 b in let (version, b) := p in
      let! p := read_word 4 b in let (scan, b) := p in
      let! p := read_word 4 b in let (type, b) := p in
      let! p := read_u64 b in let (t0, b) := p in
      let! p := read_u64 b in let (t1, b) := p in
      let! t0 := windows_time t0 in let! t1 := windows_time t1 in
      let! p := read_word 4 b in let (unit, b) := p in
      let! p := read_word 4 b in let (laser, b) := p in
      let b := snd (read_words 8 6 b) in
      let! p := read_utf8 32 b in let (user, b) := p in
      let! p := read_utf8 160 b in let (title, b) := p in
      if points =? xlist then
        Ok {| h_flags := flags; h_uuid := uuid; h_tracks := tracks; h_status := status; h_points := points; h_capacity := capacity; h_spectra := spectra; h_accumulations := acc; h_ylist := ylist;
              h_xlist := xlist; h_origins := origins; h_app := app; h_version := version; h_scan := scan; h_type := measurement_of type; h_start := t0; h_end := t1; h_unit := unit; h_laser := laser;
              h_user := user; h_title := title |}
      else Err OtherError
  end.

(** * Axes (lines 836-1118) *)
(** Numbers: words of the file, exact numbers, the length of the vector of two steps, nan *)
Inductive number := Word4 (w : Z) | Word8 (w : Z) | Exact (q : Q) | Length (x y : Z) | NaN.
Inductive scaling := Uniform (offset scale : number) | Values (l : list Z) | Default.
Record axis := { a_name : pystr; a_size : Z; a_index : option Z; a_units : option pystr; a_scaling : scaling; a_navigate : bool }.
(** str of UnitType, and of DefaultEnum.Unknown *)
Definition unit_names : list pystr := map str
  [""; "1/cm"; "nm"; "nm"; "eV"; ""; "counts"; "electrons"; "mm"; "m"; "K"; "Pa"; "s"; "ms"; "h"; "d"; "px"; ""; ""; ""; "rad"; ""; ""; "K/min"; "ns"; ""]%string.
(** with characters that are not ASCII *)
Definition unit_text (u : Z) : pystr :=
  if u =? 5 then [181; 109] else if u =? 19 then [176] else if u =? 21 then [176; 67] else if u =? 22 then [176; 70] else if u =? 25 then [181; 115]
  else if (0 <=? u) && (u <? 26) then nth (Z.to_nat u) unit_names [] else str "0".
Definition signal_name (u : Z) : pystr := if u =? 1 then str "Raman Shift" else if u =? 2 then str "Wavenumber" else if (u =? 3) || (u =? 5) then str "Wavelength" else str "Unknown".
(** IEEE single precision comparison *)
Definition nan32 (w : Z) : bool := 255 * 2 ^ 23 <? w mod 2 ^ 31.
Definition order32 (w : Z) : Z := if 2 ^ 31 <=? w then - (w mod 2 ^ 31) else w.
Definition gt32 (a b : Z) : bool := negb (nan32 a) && negb (nan32 b) && (order32 b <? order32 a).
Section Reader.
  (** numpy.polyfit and numpy.mean *)
  Variable fit : list Z -> number * number.
  Variable mean : list Z -> Z.

  (** _parse_XLST_or_YLST and _parse_XLST: the axis, and whether it was reversed *)
  Definition parse_list (pos size : Z) (f : list Z) : res (Z * value) :=
    let! p := read_word 4 (skipz pos f) in
    let! p := read_word 4 (snd p) in let (unit, b) := p in
    let! p := read_single F4 size b in Ok (unit, fst p).
  Definition parse_xlist (uniform : bool) (info : list (pystr * block)) (h : header) (f : list Z) : res (axis * bool) :=
    match find_block "XLST_0" info with
    | None => Err OtherError
    | Some (pos, _) =>
        let! p := parse_list pos (h_points h) f in
        match p with
        | (unit, Nums _ (x0 :: x1 :: l)) =>
            let data := x0 :: x1 :: l in let reversed := gt32 x0 x1 in let data := if reversed then rev data else data in
            Ok ({| a_name := signal_name unit; a_size := h_points h; a_index := None; a_units := Some (unit_text unit);
                   a_scaling := if uniform then Uniform (fst (fit data)) (snd (fit data)) else Values data; a_navigate := false |}, reversed)
        | _ => Err IndexError
        end
    end.
  Definition parse_ylist (info : list (pystr * block)) (h : header) (f : list Z) (om : metadata) : res metadata :=
    match find_block "YLST_0" info with
    | None => Ok om
    | Some (pos, _) =>
        let! p := parse_list pos (h_ylist h) f in let (unit, data) := p in
        Ok (put (str "YLST_0") (Dict [(str "name", Txt (signal_name unit)); (str "units", Txt (unit_text unit)); (str "size", Num I8 (h_ylist h)); (str "data", data)]) om)
    end.
  (** _parse_ORGN (lines 906-986): kinds of axes, units, and times or words *)
  Record origin := { o_type : Z; o_units : pystr; o_note : bool; o_data : list Z }.
  Definition known_type (t : Z) : Z := if ((0 <=? t) && (t <=? 19)) || ((22 <=? t) && (t <=? 27)) then t else -1.
  Definition is_time (t : Z) : bool := t =? 11.
  Fixpoint put_origin (o : origin) (l : list origin) : list origin :=
    match l with [] => [o] | o' :: l' => if o_type o' =? o_type o then o :: l' else o' :: put_origin o l' end.
  Fixpoint parse_origins (n : nat) (spectra : Z) (nav : list origin) (b : list Z) : res (list origin) :=
    match n with
    | O => Ok nav
    | S n' =>
        let! p := read_word 4 b in let (t, b) := p in let t := known_type (t mod 2 ^ 31) in
        let! p := read_word 4 b in let (unit, b) := p in
        let note := is_ok (utf8_decode (firstz 16 b)) in let b := skipz 16 b in
        let (data, b) := read_words 8 spectra b in
        let! data := if is_time t then match map (signed 8) data with [] => Err IndexError | x :: l => Ok (map (fun y => y - x) (x :: l)) end else Ok data in
        parse_origins n' spectra (if (t =? 16) || (t =? 17) then nav else put_origin {| o_type := t; o_units := unit_text unit; o_note := note; o_data := data |} nav) b
    end.
  Definition parse_orgn (info : list (pystr * block)) (h : header) (f : list Z) : res (list origin) :=
    match find_block "ORGN_0" info with
    | None => Ok []
    | Some (pos, _) =>
        let! p := read_word 4 (skipz pos f) in let (n, b) := p in
        let! nav := parse_origins (Z.to_nat n) (h_spectra h) [] b in
        Ok (match h_type h, nav with Series, ([] | [_]) => nav | _, _ => filter (fun o => negb (is_time (o_type o))) nav end)
    end.
  (** _parse_WMAP (lines 976-1000) *)
  Record wmap := { w_flag : Z; w_offset : list Z; w_scale : list Z; w_size : list Z }.
  Definition parse_wmap (info : list (pystr * block)) (f : list Z) : res (option wmap) :=
    match find_block "WMAP_0" info with
    | None => Ok None
    | Some (pos, _) =>
        let! p := read_word 4 (skipz pos f) in let (flag, b) := p in
        let! p := read_word 4 b in let (_, b) := p in
        let! p := read_each 4 3 b in let (offset, b) := p in
        let! p := read_each 4 3 b in let (scale, b) := p in
        let! p := read_each 4 3 b in let (size, b) := p in
        let! p := read_word 4 b in
        Ok (Some {| w_flag := flag; w_offset := offset; w_scale := scale; w_size := size |})
    end.
  Definition unfinished (h : header) : bool := negb (h_spectra h =? h_capacity h).
  (** numpy's quotient by 0 is 0 *)
  Definition map_axes (h : header) (w : wmap) (units : pystr) : list (pystr * axis) :=
    let x i l := nth i l 0 in
    let nx := x 0%nat (w_size w) in let ny := if unfinished h then h_spectra h / nx else x 1%nat (w_size w) in
    let ax name size index i := {| a_name := str name; a_size := size; a_index := index; a_units := Some units; a_scaling := Uniform (Word4 (x i (w_offset w))) (Word4 (x i (w_scale w))); a_navigate := true |} in
    if w_flag w =? 128 then
      [(str "Distance", {| a_name := str "Abs. Distance"; a_size := nx; a_index := None; a_units := Some units;
                           a_scaling := Uniform (Exact 0) (Length (x 0%nat (w_scale w)) (x 1%nat (w_scale w))); a_navigate := true |})]
    else [(str "X", ax "X"%string nx None 0%nat); (str "Y", ax "Y"%string ny None 1%nat)].
  (** names of DataType and DefaultEnum.Unknown *)
  Definition type_names : list string :=
    ["Arbitrary"; "Spectral"; "Intensity"; "X"; "Y"; "Z"; "Spatial_R"; "Spatial_Theta"; "Spatial_Phi"; "Temperature"; "Pressure"; "Time"; "Derivative"; "Polarization"; "FocusTrack_Z"; "TempRampRate";
     "SpectrumDataChecksum"; "BitFlags"; "ElapsedTimeIntervals"; "Frequency"; ""; ""; "Mp_Well_Spatial_X"; "Mp_Well_Spatial_Y"; "Mp_LocationIndex"; "Mp_WellReference"; "EndMarker"; "ExposureTime"]%string.
  Definition type_name (t : Z) : pystr := if t <? 0 then str "Unknown" else str (nth (Z.to_nat t) type_names ""%string).
  (** Double precision numbers that are finite *)
  Definition val64 (w : Z) : res Q :=
    let a := w mod 2 ^ 63 in let e := a / 2 ^ 52 in let m := a mod 2 ^ 52 in
    if e =? 2047 then Err NotImplementedError
    else let (m, e) := if e =? 0 then (m, -1074) else (m + 2 ^ 52, e - 1075) in Ok (q2 (if 2 ^ 63 <=? w then - m else m) e).
  Definition series_value (t w : Z) : res Q := if is_time t then Ok (inject_Z w) else val64 w.
  (** _set_nav_via_ORGN (lines 1065-1100) *)
  Definition series_axis (o : origin) : res (pystr * axis) :=
    let name := type_name (o_type o) in
    if negb (o_note o) then Err KeyError else
    let ax units s := Ok (name, {| a_name := name; a_size := zlen (o_data o); a_index := None; a_units := units; a_scaling := s; a_navigate := true |}) in
    let! qs := mapM (series_value (o_type o)) (o_data o) in
    match qs with
    | q0 :: q1 :: l =>
        let step := ((last (q1 :: l) q1 - q0) / inject_Z (zlen (q1 :: l)))%Q in
        if (o_type o =? 14) || Qeq_bool step 0 then ax None Default
        else ax (Some (o_units o)) (Uniform (if is_time (o_type o) then Exact q0 else Word8 (hd 0 (o_data o))) (Exact step))
    | [q0] => if o_type o =? 14 then ax None Default else ax (Some (o_units o)) (Uniform (if is_time (o_type o) then Exact q0 else Word8 (hd 0 (o_data o))) NaN)
    | [] => if o_type o =? 14 then ax None Default else Err IndexError
    end.
  (** _set_nav_axes *)
  Definition nav_axes (h : header) (nav : list origin) (w : option wmap) : res (list (pystr * axis)) :=
    match h_type h with
    | UnknownType => Err ValueError
    | Mapping => match nav with [] => Err StopIteration | o :: _ => match w with Some w => Ok (map_axes h w (o_units o)) | None => Err KeyError end end
    | Series => mapM series_axis nav
    | _ => Ok []
    end.
  (** _set_axes *)
  Definition at_index (i : Z) (a : axis) : axis := {| a_name := a_name a; a_size := a_size a; a_index := Some i; a_units := a_units a; a_scaling := a_scaling a; a_navigate := a_navigate a |}.
  Definition all_axes (signal : axis) (nav : list (pystr * axis)) : res (list axis) :=
    match nav with
    | [] => Ok [at_index 0 signal]
    | [(_, a)] => Ok [at_index 0 a; at_index 1 signal]
    | [_; _] => match lookup (str "Y") nav, lookup (str "X") nav with Some y, Some x => Ok [at_index 0 y; at_index 1 x; at_index 2 signal] | _, _ => Err KeyError end
    | _ => Err KeyError
    end.

  (** * Data (lines 1120-1160) *)
  Definition parse_data (info : list (pystr * block)) (h : header) (f : list Z) : res (list Z) :=
    match find_block "DATA_0" info with
    | None => Err OtherError
    | Some (pos, _) => Ok (fst (read_words 4 (h_points h * h_spectra h) (skipz pos f)))
    end.
  Definition columns (n : nat) (rows : list (list Z)) : list (list Z) := map (fun j => map (fun r => nth j r 0) rows) (seq 0 n).
  Definition average (spectra : Z) (data : list Z) : res (list Z) :=
    if (0 <? spectra) && (zlen data mod spectra =? 0)
    then let n := Z.to_nat (zlen data / spectra) in Ok (map mean (columns n (records (Z.to_nat spectra) n data)))
    else Err ValueError.
  Definition signal_size (a : axis) : Z := match a_scaling a with Values l => zlen l | _ => a_size a end.
  Definition reshape (h : header) (axes : list axis) (signal : axis) (reversed : bool) (data : list Z) : res (list Z * list Z) :=
    let sizes := map a_size (removelast axes) in
    let! data := if negb (unfinished h) && negb (h_spectra h =? prodZ sizes) then average (h_spectra h) data else Ok data in
    let n := signal_size signal in
    let shape := sizes ++ [n] in
    if (0 <=? prodZ shape) && (prodZ shape <=? zlen data)
    then let data := firstz (prodZ shape) data in Ok (shape, if reversed then List.concat (map (@rev Z) (records (Z.to_nat (prodZ sizes)) (Z.to_nat n) data)) else data)
    else Err ValueError.

  (** * Metadata (lines 89-108, 1162-1262) *)
  (** The first value of a key, depth first *)
  Fixpoint find_key (target : pystr) (v : value) : option value :=
    match v with
    | Dict d => fold_right (fun kv r => match snd kv with
                                        | Dict _ => match find_key target (snd kv) with Some x => Some x | None => r end
                                        | x => if eqb_str (fst kv) target then Some x else r
                                        end) None d
    | _ => None
    end.
  Definition get_in (om : metadata) (block key : string) : res (option value) :=
    match lookup (str block) om with
    | None => Ok None
    | Some (Dict d) => Ok (lookup (str key) d)
    | Some _ => Err AttributeError
    end.
  Definition not_missing (v : option value) : option value := match v with Some Missing => None | _ => v end.
  Record acquisition := { q_wavenumber : option value; q_groove : option value; q_model : option value; q_temperature : option value; q_frames : option value; q_exposure : option value; q_cosmic : option value }.
  Definition map_acquisition (om : metadata) : res acquisition :=
    let! lasers := get_in om "WXCS_0" "Lasers" in let! gratings := get_in om "WXCS_0" "Gratings" in
    let! ccd := get_in om "WXCS_0" "CCD" in let! extra := get_in om "WXDM_0" "extra_matches" in
    let! det := match not_missing ccd with
                | None => Ok (None, None, None, None, None)
                | Some (Dict d) =>
                    let m := not_missing (lookup (str "CCD") d) in let t := not_missing (lookup (str "Target temperature") d) in
                    match extra with
                    | None => Ok (m, t, None, None, None)
                    | Some e => let get k := not_missing (find_key (str k) e) in Ok (m, t, get "Accumulations"%string, get "Exposure Time"%string, get "Use Cosmic Ray Remove"%string)
                    end
                | Some _ => Err AttributeError
                end in
    let! wave := match not_missing lasers with
                 | None => Ok None
                 | Some (Dict d) => match not_missing (find_key (str "Wavenumber") (Dict d)) with Some (Txt _ | Date _ | Dates _ | Dict _) | None => Err TypeError | v => Ok v end
                 | Some _ => Err AttributeError
                 end in
    let! groove := match not_missing gratings with
                   | None => Ok None
                   | Some (Dict d) => Ok (not_missing (find_key (str "Groove Density (lines/mm)") (Dict d)))
                   | Some _ => Err AttributeError
                   end in
    let '(m, t, n, e, c) := det in
    Ok {| q_wavenumber := wave; q_groove := groove; q_model := m; q_temperature := t; q_frames := n; q_exposure := e; q_cosmic := c |}.
  Definition date_and_time (s : pystr) : pystr * pystr := match split_char 35 s with [d; t] => (d, t) | _ => ([], []) end.

  (** * read_file (lines 418-477) *)
  Record signal := { s_header : header; s_shape : list Z; s_data : list Z; s_axes : list axis; s_acquisition : acquisition; s_date : pystr * pystr; s_original : metadata; s_unmatched : list (pystr * unmatched) }.
  Definition read_file (uniform : bool) (f : list Z) : res signal :=
    let! info := locate_blocks (S (List.length f)) true 0 [] f in
    let! h := parse_header info f in
    let! om := parse_ylist info h f [] in
    let! st := parse_all info f ["WXIS_0"; "WXCS_0"; "WXDA_0"; "ZLDC_0"; "WARP_0"; "WARP_1"; "WXDM_0"]%string (om, []) in
    let! st := map_wxdm st in
    let! st := parse_map info f "MAP_0" st in let! st := parse_map info f "MAP_1" st in
    let (om, um) := st in
    let! om := parse_text info f om in
    let! p := parse_xlist uniform info h f in let (sig, reversed) := p in
    let! nav := parse_orgn info h f in
    let! w := parse_wmap info f in
    let! nav := nav_axes h nav w in
    let! axes := all_axes sig nav in
    let! data := parse_data info h f in
    let! p := reshape h axes sig reversed data in
    let! q := map_acquisition om in
    Ok {| s_header := h; s_shape := fst p; s_data := snd p; s_axes := axes; s_acquisition := q; s_date := date_and_time (h_start h); s_original := om; s_unmatched := um |}.
End Reader.
