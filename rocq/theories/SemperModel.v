(** Model of the SEMPER UNF reader and writer, /repo/rsciio/semper/_api.py.
    Simplifications, for the whole file:
    - an array element is the list of its bytes in the file, so float and complex data are
      compared bit for bit; the conversion of float16 and complex of smaller size to
      float32/complex64 (lines 337-347) has happened before, and arrays are little endian;
    - scales and offsets are float32 bit patterns (0..2^32-1); rounding a double to a
      float32 in struct.pack("<f") is not modelled;
    - the text "{:.4g},{:.4g}" of the data range is an input (line 308);
    - AssertionError is [OtherError]; files are not closed or left partial on errors. *)
From Verif Require Import Base Text Bytes Utf8 DistModel.

(** LABEL_DTYPES (lines 148-185): name and number of int16 words. *)
Definition label_dtypes : list (string * nat) :=
  [("SEMPER", 6); ("NCOL", 2); ("NROW", 2); ("NLAY", 2); ("ICCOLN", 2); ("ICROWN", 2); ("ICLAYN", 2);
   ("ICLASS", 1); ("IFORM", 1); ("IWP", 1); ("DATE", 6); ("NCRANG", 1); ("RANGE", 27); ("IPLTYP", 1);
   ("NCOLH", 1); ("NROWH", 1); ("NLAYH", 1); ("ICCOLNH", 1); ("ICROWNH", 1); ("ICLAYNH", 1);
   ("REALCO", 1); ("NBLOCK", 1); ("FREE", 3); ("DATAV6", 4); ("DATAV7", 4); ("DZV5", 4); ("Z0V4", 4);
   ("DYV3", 4); ("Y0V2", 4); ("DXV1", 4); ("X0V0", 4); ("NTITLE", 1); ("TITLE", 144);
   ("XUNIT", 4); ("YUNIT", 4); ("ZUNIT", 4)]%string%nat.

(** IFORM_DICT (line 134), as item sizes. *)
Definition itemsize (iform : Z) : option Z :=
  match iform with 0 => Some 1 | 1 => Some 2 | 2 => Some 4 | 3 => Some 8 | 4 => Some 4 | _ => None end.

Fixpoint field {A} (k : string) (l : list (string * A)) : option A :=
  match l with [] => None | (k', v) :: l' => if String.eqb k k' then Some v else field k l' end.
Definition get {A} (k : string) (l : list (string * A)) : res A :=
  match field k l with Some v => Ok v | None => Err KeyError end.

Definition in16 (x : Z) : bool := (-32768 <=? x) && (x <? 32768).
Definition wrap16 (x : Z) : Z := signed 2 (x mod 65536).
(** Assignment of Python integers to an int16 array raises OverflowError when out of range. *)
Definition words16 (l : list Z) : res (list Z) :=
  if forallb in16 l then Ok (flat_map (le 2) l) else Err OverflowError.
Fixpoint read16 (l : list Z) : list Z :=
  match l with a :: b :: l' => signed 2 (a + 256 * b) :: read16 l' | _ => [] end.

(** A SemperFormat object before it is written (lines 187-208). *)
Record sem := mkSem {
  nlay : Z; nrow : Z; ncol : Z;
  elems : list (list Z);               (* row-major *)
  iform : Z;
  title : option pystr;
  offsets : list Z; scales : list Z;   (* three float32 patterns each *)
  units : list (option pystr);         (* three *)
  iclass : Z; iccoln : Z; icrown : Z; iclayn : Z;
  date : pystr;
  range : pystr }.

(** A signal as far as the writer looks at it; [s_now] is str(datetime.now()). *)
Record axis := mkAxis { a_scale : Z; a_offset : Z; a_units : option pystr; a_navigate : bool }.
Record ssig := mkSig {
  s_shape : list Z; s_elems : list (list Z);
  s_iform : option Z;                  (* None: data type not supported *)
  s_axes : list axis;
  s_title : option pystr; s_date : option pystr; s_time : option pystr;
  s_now : pystr; s_range : pystr }.

(** Lines 487-492: the first len(data.shape) entries come from the axes, in order. *)
Fixpoint fill_defaults {A} (n : nat) (l : list A) (d : A) : list A :=
  match n with O => [] | S n' => match l with [] => d :: fill_defaults n' [] d | x :: l' => x :: fill_defaults n' l' d end end.

(** from_signal (lines 469-537).  Assumes one axis per dimension. *)
Definition from_signal (g : ssig) : res sem :=
  if 3 <? Z.of_nat (List.length (s_shape g)) then Err OtherError
  else if negb (Nat.eqb (List.length (s_axes g)) (List.length (s_shape g))) then Err IndexError
  else
    let ax := s_axes g in
    let sh := repeat 1 (3 - List.length (s_shape g)) ++ s_shape g in
    let nl := nth 0 sh 1 in let nr := nth 1 sh 1 in let nc := nth 2 sh 1 in
    let sigdim := List.length (filter (fun a => negb (a_navigate a)) ax) in
    let icl := match sigdim with 1%nat => 4 | 2%nat => 1 | _ => 6 end in
    match s_iform g with
    | None => Err IOError
    | Some f =>
        let dt := match s_date g, s_time g with
                  | Some d, Some t => d ++ [32] ++ t
                  | _, _ => s_now g end in
        Ok (mkSem nl nr nc (s_elems g) f (s_title g)
              (fill_defaults 3 (map a_offset ax) 0) (fill_defaults 3 (map a_scale ax) 1065353216)
              (fill_defaults 3 (map a_units ax) None)
              icl (nc / 2 + 1) (nr / 2 + 1) (nl / 2 + 1)
              (hd [] (split_char 46 dt)) (s_range g))
    end.

Definition digits256 (x : Z) : list Z := [x mod 65536 / 256; x mod 65536 mod 256].

(** [label[key][:, :len(s)] = [ord(c) for c in s]] on a zero field of [n] words. *)
Definition put_text (n : nat) (s : pystr) : res (list Z) :=
  if (List.length s <=? n)%nat then Ok (s ++ repeat 0 (n - List.length s)) else Err ValueError.

Definition ints_of (l : list pystr) : res (list Z) :=
  fold_right (fun s r => let! t := r in let! i := parse_int s in Ok (i :: t)) (Ok []) l.

(** Lines 302-306: the DATE words. *)
Definition date_words (d : pystr) : res (list Z) :=
  match split_char 32 d with
  | [y; t] =>
      let! a := ints_of (split_char 45 y) in
      let! b := ints_of (split_char 58 t) in
      match a ++ b with
      | [y0; m; d0; h; mi; s] => Ok [y0 - 1900; m; d0; h; mi; s]
      | _ => Err ValueError
      end
  | _ => Err ValueError
  end.

Definition unit_text (u : option pystr) : pystr := match u with Some s => s | None => [] end.

(** _get_label (lines 273-332); fields that are not set stay zero. *)
Definition label_fields (s : sem) : res (list (string * list Z)) :=
  let! dt := date_words (date s) in
  let! rg := put_text 27 (range s) in
  match title s with
  | None => Err TypeError
  | Some ti =>
    let! tw := put_text 144 ti in
    let! u := put_text 4 (unit_text (nth 0 (units s) None)) in
    Ok [("SEMPER", str "Semper");
        ("NCOLH", [ncol s / 65536]); ("NCOL", digits256 (ncol s));
        ("NROWH", [nrow s / 65536]); ("NROW", digits256 (nrow s));
        ("NLAYH", [nlay s / 65536]); ("NLAY", digits256 (nlay s));
        ("ICCOLNH", [iccoln s / 65536]); ("ICCOLN", digits256 (iccoln s));
        ("ICROWNH", [icrown s / 65536]); ("ICROWN", digits256 (icrown s));
        ("ICLAYNH", [iclayn s / 65536]); ("ICLAYN", digits256 (iclayn s));
        ("ICLASS", [iclass s]); ("IFORM", [iform s]); ("IWP", [0]); ("DATE", dt);
        ("NCRANG", [Z.of_nat (List.length (range s))]); ("RANGE", rg); ("IPLTYP", [248]);
        ("REALCO", [1]); ("NBLOCK", [4]); ("FREE", [0; 0; 0]);
        ("DATAV6", le 4 0); ("DATAV7", le 4 0);
        ("DZV5", le 4 (nth 2 (scales s) 0)); ("Z0V4", le 4 (nth 2 (offsets s) 0));
        ("DYV3", le 4 (nth 1 (scales s) 0)); ("Y0V2", le 4 (nth 1 (offsets s) 0));
        ("DXV1", le 4 (nth 0 (scales s) 0)); ("X0V0", le 4 (nth 0 (offsets s) 0));
        ("NTITLE", [Z.of_nat (List.length ti)]); ("TITLE", tw);
        ("XUNIT", u); ("YUNIT", u); ("ZUNIT", u)]%string
  end.

(** The structured array as words, in the order of the dtype. *)
Definition label_words (fs : list (string * list Z)) : list Z :=
  flat_map (fun p => match field (fst p) fs with Some w => w | None => repeat 0 (snd p) end) label_dtypes.

(** One record of picture data (lines 440-457): length, bytes, length.  The padding byte
    of line 455 is computed but never written. *)
Definition row_record (isz nc : Z) (row : list (list Z)) : list Z :=
  le 4 (isz * nc) ++ List.concat row ++ le 4 (isz * nc).

(** save_to_unf with skip_header=False (lines 402-457). *)
Definition save (s : sem) : res (list Z) :=
  let ti := match title s with Some t => t | None => [] end in
  let n := Z.of_nat (List.length ti) in
  match itemsize (iform s) with
  | None => Err IOError
  | Some isz =>
    let! hd := words16 [ncol s; nrow s; nlay s; iclass s; iform s; 2 * 10000 + 1000 + n] in
    let! tb := utf8_encode ti in
    let! fs := label_fields s in
    let! lb := words16 (label_words fs) in
    let rows := records (Z.to_nat (nlay s * nrow s)) (Z.to_nat (ncol s)) (elems s) in
    Ok (le 4 12 ++ hd ++ le 4 12
        ++ (if 0 <? n then le 4 n ++ tb ++ le 4 n else [])
        ++ le 4 512 ++ lb ++ le 4 512
        ++ flat_map (row_record isz (ncol s)) rows)
  end.

Definition semper_write (g : ssig) : res (list Z) := let! s := from_signal g in save s.

(** Reading from the current position: bytes and the rest of the file. *)
Definition take (n : Z) (l : list Z) : res (list Z * list Z) :=
  if Z.of_nat (List.length l) <? n then Err IndexError
  else Ok (firstn (Z.to_nat n) l, skipn (Z.to_nat n) l).
Definition rd4 (l : list Z) : res (Z * list Z) :=
  let! (b, r) := take 4 l in Ok (signed 4 (le_val b), r).

Fixpoint split_fields (dt : list (string * nat)) (w : list Z) : list (string * list Z) :=
  match dt with [] => [] | (k, n) :: dt' => (k, firstn n w) :: split_fields dt' (skipn n w) end.

(** Python's [l[:n]] for any integer [n]. *)
Definition upto {A} (n : Z) (l : list A) : list A :=
  firstn (Z.to_nat (if n <? 0 then n + Z.of_nat (List.length l) else n)) l.
(** chr() of each word; negative words raise ValueError. *)
Definition chars (l : list Z) : res pystr := if forallb (fun c => 0 <=? c) l then Ok l else Err ValueError.
(** unpack_from_intbytes("<f", …) (lines 616-620), as a bit pattern. *)
Definition unpack_f (l : list Z) : res Z :=
  if forallb (fun c => (0 <=? c) && (c <? 256)) l then Ok (le_val l) else Err ValueError.

Inductive rangeval := RText (s : pystr) | RFloats (lo hi : Z).
Record label := mkLabel {
  l_ncol : Z; l_nrow : Z; l_nlay : Z; l_iccoln : Z; l_icrown : Z; l_iclayn : Z;
  l_iclass : Z; l_iform : Z;
  l_date : list Z;                       (* the six numbers of the text of line 238 *)
  l_range : rangeval;
  l_coords : option (list Z * list Z);   (* offsets and scales, if REALCO = 1 *)
  l_title : pystr;
  l_units : list pystr }.

(** _read_label (lines 210-271) after the record length; 256 words. *)
Definition dim_of (fs : list (string * list Z)) (k kh : string) : res Z :=
  let! h := get kh fs in let! d := get k fs in
  Ok (65536 * nth 0 h 0 + wrap16 (256 * nth 0 d 0) + nth 1 d 0).
Definition unit_of (fs : list (string * list Z)) (k : string) : res pystr :=
  let! w := get k fs in let! c := chars w in Ok (filter (fun x => negb (x =? 0)) c).
Definition float_of (fs : list (string * list Z)) (k : string) : res Z :=
  let! w := get k fs in unpack_f w.

Definition decode_label (w : list Z) : res label :=
  let fs := split_fields label_dtypes w in
  let! sm := (let! x := get "SEMPER" fs in chars x) in
  if negb (eqb_str sm (str "Semper")) then Err OtherError
  else
  let! nc := dim_of fs "NCOL" "NCOLH" in
  let! nr := dim_of fs "NROW" "NROWH" in
  let! nl := dim_of fs "NLAY" "NLAYH" in
  let! cc := dim_of fs "ICCOLN" "ICCOLNH" in
  let! cr := dim_of fs "ICROWN" "ICROWNH" in
  let! cl := dim_of fs "ICLAYN" "ICLAYNH" in
  let! icl := get "ICLASS" fs in
  let! ifo := get "IFORM" fs in
  let! dt := get "DATE" fs in
  let! ncr := get "NCRANG" fs in
  let! rg := get "RANGE" fs in
  let! rv := (if nth 0 ncr 0 =? 255
              then let! lo := unpack_f (firstn 4 rg) in
                   let! hi := unpack_f (firstn 4 (skipn 4 rg)) in Ok (RFloats lo hi)
              else let! t := chars (upto (nth 0 ncr 0) rg) in Ok (RText t)) in
  let! x0 := float_of fs "X0V0" in let! dx := float_of fs "DXV1" in
  let! y0 := float_of fs "Y0V2" in let! dy := float_of fs "DYV3" in
  let! z0 := float_of fs "Z0V4" in let! dz := float_of fs "DZV5" in
  let! rc := get "REALCO" fs in
  let! _ := float_of fs "DATAV6" in
  let! _ := float_of fs "DATAV7" in
  let! nt := get "NTITLE" fs in
  let! tw := get "TITLE" fs in
  let! ti := chars (upto (nth 0 nt 0) tw) in
  let! xu := unit_of fs "XUNIT" in
  let! yu := unit_of fs "YUNIT" in
  let! zu := unit_of fs "ZUNIT" in
  Ok (mkLabel nc nr nl cc cr cl (nth 0 icl 0) (nth 0 ifo 0)
        (match dt with y :: r => wrap16 (y + 1900) :: r | [] => [] end) rv
        (if nth 0 rc 0 =? 1 then Some ([x0; y0; z0], [dx; dy; dz]) else None)
        ti [xu; yu; zu]).

(** Lines 387-393: a label that cannot be read is skipped with a warning; reading goes on
    from the position reached. *)
Definition read_label (l : list Z) : option label * list Z :=
  match rd4 l with
  | Err _ => (None, [])
  | Ok (n, r1) =>
      match take 512 r1 with
      | Err _ => (None, [])
      | Ok (b, r2) =>
          match decode_label (read16 b) with
          | Err _ => (None, r2)
          | Ok lb =>
              match rd4 r2 with
              | Err _ => (None, [])
              | Ok (m, r3) => if m =? n then (Some lb, r3) else (None, r3)
              end
          end
      end
  end.

(** _read_data (lines 630-650): [n] rows one after the other.  A row is cut to [nc]
    elements; a row of a single element is repeated by numpy's broadcasting. *)
Fixpoint read_rows (n : nat) (nc isz : Z) (l : list Z) : res (list (list (list Z)) * list Z) :=
  match n with
  | O => Ok ([], l)
  | S n' =>
      let! (rec, l1) := rd4 l in
      let count := rec / isz in
      if count <? 0 then Err IndexError
      else
        let! (b, l2) := take (count * isz) l1 in
        let row := upto nc (records (Z.to_nat count) (Z.to_nat isz) b) in
        let! row' := (if Z.of_nat (List.length row) =? nc then Ok row
                      else match row with
                           | [x] => Ok (repeat x (Z.to_nat nc))
                           | _ => Err ValueError end) in
        let! (m, l3) := rd4 l2 in
        if negb (m =? rec) then Err OtherError
        else let! (rows, l4) := read_rows n' nc isz l3 in Ok (row' :: rows, l4)
  end.

Record loaded := mkLoaded {
  f_shape : list Z; f_rows : list (list (list Z)); f_iform : Z;
  f_title : pystr; f_offsets : list Z; f_scales : list Z; f_units : list (option pystr);
  f_label : option label }.

(** load_from_unf (lines 354-400), eager; the lazy branch calls the same _read_data. *)
Definition load (l : list Z) : res loaded :=
  let! (n, l1) := rd4 l in
  let k := n / 2 in
  if 7 <=? k then Err ValueError                      (* IFORM twice in the dtype *)
  else if negb ((k =? 6) || (k =? -1)) then Err KeyError
  else
    let! (h, l2) := take 12 l1 in
    let! (n', l3) := rd4 l2 in
    if negb (n' =? n) then Err OtherError
    else
      match read16 h with
      | [hnc; hnr; hnl; _; ifo; ifl] =>
          match itemsize ifo with
          | None => Err KeyError
          | Some isz =>
              let ilabel := ifl mod 10000 / 1000 in
              let nt := ifl mod 10000 mod 1000 in
              let! (ti, l4) :=
                (if 0 <? nt
                 then let! (a, r1) := rd4 l3 in
                      if negb (a =? nt) then Err OtherError
                      else let! (b, r2) := take nt r1 in
                           let! t := utf8_decode b in
                           let! (c, r3) := rd4 r2 in
                           if negb (c =? nt) then Err OtherError else Ok (t, r3)
                 else Ok ([], l3)) in
              let (lb, l5) := (if ilabel =? 0 then (None, l4) else read_label l4) in
              let '(nl, nr, nc) := match lb with
                                   | Some b => (l_nlay b, l_nrow b, l_ncol b)
                                   | None => (hnl, hnr, hnc) end in
              if (nl <? 0) || (nr <? 0) || (nc <? 0) then Err ValueError
              else
                let! (rows, _) := read_rows (Z.to_nat (nl * nr)) nc isz l5 in
                let '(off, sc) := match lb with
                                  | Some b => match l_coords b with Some p => p | None => ([0; 0; 0], [1065353216; 1065353216; 1065353216]) end
                                  | None => ([0; 0; 0], [1065353216; 1065353216; 1065353216]) end in
                let un := match lb with Some b => map Some (l_units b) | None => [None; None; None] end in
                Ok (mkLoaded [nl; nr; nc] rows ifo ti off sc un lb)
          end
      | _ => Err OtherError
      end.

(** _convert_date_time_from_label (lines 574-580): the text "y-m-d h:m:s" without leading
    zeros through strptime with %Y (exactly four digits), then with %y (exactly two). *)
Definition leap (y : Z) : bool := (y mod 4 =? 0) && (negb (y mod 100 =? 0) || (y mod 400 =? 0)).
Definition month_days (y m : Z) : Z :=
  match m with
  | 2 => if leap y then 29 else 28
  | 4 | 6 | 9 | 11 => 30
  | _ => 31 end.
Definition valid_datetime (y m d h mi s : Z) : bool :=
  (1 <=? y) && (y <=? 9999) && (1 <=? m) && (m <=? 12) && (1 <=? d) && (d <=? month_days y m)
  && (0 <=? h) && (h <? 24) && (0 <=? mi) && (mi <? 60) && (0 <=? s) && (s <? 60).
Definition two (n : Z) : pystr := [48 + n / 10; 48 + n mod 10].
Definition four (n : Z) : pystr := [48 + n / 1000; 48 + n / 100 mod 10; 48 + n / 10 mod 10; 48 + n mod 10].
Definition iso_date (y m d : Z) : pystr := four y ++ [45] ++ two m ++ [45] ++ two d.
Definition iso_time (h m s : Z) : pystr := two h ++ [58] ++ two m ++ [58] ++ two s.
Definition convert_date (l : list Z) : res (pystr * pystr) :=
  match l with
  | [y; m; d; h; mi; s] =>
      let! y' := (if (1000 <=? y) && (y <=? 9999) then Ok y
                  else if (10 <=? y) && (y <=? 99) then Ok (if y <=? 68 then 2000 + y else 1900 + y)
                  else Err ValueError) in
      if valid_datetime y' m d h mi s then Ok (iso_date y' m d, iso_time h mi s) else Err ValueError
  | _ => Err ValueError
  end.

(** to_dictionary (lines 539-572). *)
Record daxis := mkDaxis { d_name : string; d_size : Z; d_scale : Z; d_offset : Z; d_units : option pystr }.
Fixpoint zip_axes (names : list string) (sc off : list Z) (un : list (option pystr)) (sh : list Z) : list daxis :=
  match names, sc, off, un, sh with
  | n :: ns, s :: ss, o :: os, u :: us, z :: zs => mkDaxis n z s o u :: zip_axes ns ss os us zs
  | _, _, _, _, _ => []
  end.
Record sdict := mkDict {
  d_shape : list Z; d_elems : list (list Z); d_axes : list daxis;
  d_title : pystr; d_date : option (pystr * pystr) }.
Definition to_dictionary (f : loaded) : res sdict :=
  let sh := squeeze_shape (f_shape f) in
  let! dt := (match f_label f with
              | Some lb => let! p := convert_date (l_date lb) in Ok (Some p)
              | None => Ok None end) in
  Ok (mkDict sh (List.concat (f_rows f))
        (zip_axes ["x"; "y"; "z"]%string (f_scales f) (f_offsets f) (f_units f) sh)
        (f_title f) dt).

(** file_reader (lines 653-668). *)
Definition semper_read (l : list Z) : res sdict := let! f := load l in to_dictionary f.
