(** Model of /repo/rsciio/edax/_api.py (lines 50-1137): EDAX spectra (.spc), maps (.spd) and line
    scans (.lsd), with the headers of .spc and .ipr files and the calibration in a .csv file.
    Files are lists of bytes.  Simplifications: numbers of type f4 are kept as the 32-bit words of
    the file, except for the version; numbers of 64 bits do not overflow; quotients and differences of numbers are exact; the
    number of points of a map is not negative; a scale that is an empty array is an error; a .csv
    file is a list of lines without quotes, decoded; chunks of lazy data are left out (see DistModel.v),
    and errors of lazy data are raised at once. *)
From Coq Require Import QArith.
From Verif Require Import Base Text Bytes SfsModel HierModel RowMajor Utf8 SurFloat.
Local Open Scope Z_scope.

(** * Structures of NumPy *)
Inductive kind := Int (n : Z) | Uint (n : Z) | Flt | Raw (n : Z).
Record field := { f_name : pystr; f_kind : kind; f_count : Z }.
Definition fld (name : string) (k : kind) (n : Z) : field := {| f_name := str name; f_kind := k; f_count := n |}.
Definition item_width (k : kind) : Z := match k with Int n | Uint n | Raw n => n | Flt => 4 end.
Definition width (f : field) : Z := f_count f * item_width (f_kind f).
Definition size_of (l : list field) : Z := sumZ (map width l).
Definition items_of (n w : Z) (b : list Z) : list (list Z) := records (Z.to_nat n) (Z.to_nat w) b.
(** Values of a field: numbers, words of type f4, or bytes *)
Definition read_field (big : bool) (f : field) (b : list Z) : list Z :=
  match f_kind f with
  | Int n => map (fun r => signed (Z.to_nat n) (dec_int big r)) (items_of (f_count f) n b)
  | Uint n => map (dec_int big) (items_of (f_count f) n b)
  | Flt => map (dec_int big) (items_of (f_count f) 4 b)
  | Raw _ => firstz (width f) b
  end.
Fixpoint read_fields (big : bool) (l : list field) (b : list Z) : list (pystr * list Z) :=
  match l with [] => [] | f :: l' => (f_name f, read_field big f b) :: read_fields big l' (skipz (width f) b) end.
(** numpy.fromfile with count=1 and sarray2dict (/repo/rsciio/utils/_array.py): a file that is too short
    gives empty arrays *)
Definition read_struct (big : bool) (l : list field) (b : list Z) : list (pystr * list Z) :=
  if zlen b <? size_of l then map (fun f => (f_name f, [])) l else read_fields big l b.
Definition get (name : string) (h : list (pystr * list Z)) : res (list Z) := match lookup (str name) h with Some v => Ok v | None => Err KeyError end.
(** A scalar: [e] is the error of using an empty array instead *)
Definition number_of (e : exn) (name : string) (h : list (pystr * list Z)) : res Z :=
  let! v := get name h in match v with [x] => Ok x | _ => Err e end.

(** get_spd_dtype_list (lines 50-94) *)
Definition spd_layout : list field := [
  fld "tag" (Int 1) 16; fld "version" (Int 4) 1; fld "nSpectra" (Int 4) 1; fld "nPoints" (Int 4) 1; fld "nLines" (Uint 4) 1; fld "nChannels" (Uint 4) 1;
  fld "countBytes" (Uint 4) 1; fld "dataOffset" (Uint 4) 1; fld "nFrames" (Uint 4) 1; fld "fName" (Int 1) 120; fld "filler" (Raw 900) 1].
(** get_spc_dtype_list (lines 134-503): with load_all *)
Definition spc_full : list field := [
  fld "fVersion" Flt 1; fld "aVersion" Flt 1; fld "fileName" (Int 1) 8; fld "collectDateYear" (Int 2) 1; fld "collectDateDay" (Int 1) 1;
  fld "collectDateMon" (Int 1) 1; fld "collectTimeMin" (Int 1) 1; fld "collectTimeHour" (Int 1) 1; fld "collectTimeHund" (Int 1) 1;
  fld "collectTimeSec" (Int 1) 1; fld "fileSize" (Int 4) 1; fld "dataStart" (Int 4) 1; fld "numPts" (Int 2) 1; fld "intersectingDist" (Int 2) 1;
  fld "workingDist" (Int 2) 1; fld "scaleSetting" (Int 2) 1; fld "filler1" (Raw 24) 1; fld "spectrumLabel" (Int 1) 256; fld "imageFilename" (Int 1) 8;
  fld "spotX" (Int 2) 1; fld "spotY" (Int 2) 1; fld "imageADC" (Int 2) 1; fld "discrValues" (Int 4) 5; fld "discrEnabled" (Int 1) 5;
  fld "pileupProcessed" (Int 1) 1; fld "fpgaVersion" (Int 4) 1; fld "pileupProcVersion" (Int 4) 1; fld "NB5000CFG" (Int 4) 1; fld "filler2" (Raw 12) 1;
  fld "evPerChan" (Int 4) 1; fld "ADCTimeConstant" (Int 2) 1; fld "analysisType" (Int 2) 1; fld "preset" Flt 1; fld "maxp" (Int 4) 1;
  fld "maxPeakCh" (Int 4) 1; fld "xRayTubeZ" (Int 2) 1; fld "filterZ" (Int 2) 1; fld "current" Flt 1; fld "sampleCond" (Int 2) 1; fld "sampleType" (Int 2) 1;
  fld "xrayCollimator" (Uint 2) 1; fld "xrayCapilaryType" (Uint 2) 1; fld "xrayCapilarySize" (Uint 2) 1; fld "xrayFilterThickness" (Uint 2) 1;
  fld "spectrumSmoothed" (Uint 2) 1; fld "detector_Size_SiLi" (Uint 2) 1; fld "spectrumReCalib" (Uint 2) 1; fld "eagleSystem" (Uint 2) 1;
  fld "sumPeakRemoved" (Uint 2) 1; fld "edaxSoftwareType" (Uint 2) 1; fld "filler3" (Raw 6) 1; fld "escapePeakRemoved" (Uint 2) 1; fld "analyzerType" (Uint 4) 1;
  fld "startEnergy" Flt 1; fld "endEnergy" Flt 1; fld "liveTime" Flt 1; fld "tilt" Flt 1; fld "takeoff" Flt 1; fld "beamCurFact" Flt 1;
  fld "detReso" Flt 1; fld "detectType" (Uint 4) 1; fld "parThick" Flt 1; fld "alThick" Flt 1; fld "beWinThick" Flt 1; fld "auThick" Flt 1;
  fld "siDead" Flt 1; fld "siLive" Flt 1; fld "xrayInc" Flt 1; fld "azimuth" Flt 1; fld "elevation" Flt 1; fld "bCoeff" Flt 1;
  fld "cCoeff" Flt 1; fld "tailMax" Flt 1; fld "tailHeight" Flt 1; fld "kV" Flt 1; fld "apThick" Flt 1; fld "xTilt" Flt 1;
  fld "yTilt" Flt 1; fld "yagStatus" (Uint 4) 1; fld "filler4" (Raw 24) 1; fld "rawDataType" (Uint 2) 1; fld "totalBkgdCount" Flt 1;
  fld "totalSpectralCount" (Uint 4) 1; fld "avginputCount" Flt 1; fld "stdDevInputCount" Flt 1; fld "peakToBack" (Uint 2) 1;
  fld "peakToBackValue" Flt 1; fld "filler5" (Raw 38) 1; fld "numElem" (Int 2) 1; fld "at" (Uint 2) 48; fld "line" (Uint 2) 48; fld "energy" Flt 48;
  fld "height" (Uint 4) 48; fld "spkht" (Int 2) 48; fld "filler5_1" (Raw 30) 1; fld "numRois" (Int 2) 1; fld "st" (Int 2) 48; fld "end" (Int 2) 48;
  fld "roiEnable" (Int 2) 48; fld "roiNames" (Int 1) 192; fld "filler5_2" (Raw 1) 1; fld "userID" (Int 1) 80; fld "filler5_3" (Raw 111) 1;
  fld "sRoi" (Int 2) 48; fld "scaNum" (Int 2) 48; fld "filler6" (Raw 12) 1; fld "backgrdWidth" (Int 2) 1; fld "manBkgrdPerc" Flt 1;
  fld "numBkgrdPts" (Int 2) 1; fld "backMethod" (Uint 4) 1; fld "backStEng" Flt 1; fld "backEndEng" Flt 1; fld "bg" (Int 2) 64; fld "bgType" (Uint 4) 1;
  fld "concenKev1" Flt 1; fld "concenKev2" Flt 1; fld "concenMethod" (Int 2) 1; fld "jobFilename" (Int 1) 32; fld "filler7" (Raw 16) 1;
  fld "numLabels" (Int 2) 1; fld "label" (Int 1) 320; fld "labelx" (Int 2) 10; fld "labely" (Int 4) 10; fld "zListFlag" (Int 4) 1; fld "bgPercents" Flt 64;
  fld "IswGBg" (Int 2) 1; fld "BgPoints" Flt 5; fld "IswGConc" (Int 2) 1; fld "numConcen" (Int 2) 1; fld "ZList" (Int 2) 24; fld "GivenConc" Flt 24;
  fld "filler8" (Raw 598) 1; fld "s" (Int 4) 4096; fld "longFileName" (Int 1) 256; fld "longImageFileName" (Int 1) 256].
(** from version 0.7 *)
Definition spc_new : list field := [
  fld "ADCTimeConstantNew" Flt 1; fld "filler9" (Raw 60) 1; fld "numZElements" (Int 2) 1; fld "zAtoms" (Int 2) 48; fld "zShells" (Int 2) 48].
(** without load_all *)
Definition spc_part : list field := [
  fld "filler1" (Raw 28) 1; fld "dataStart" (Int 4) 1; fld "numPts" (Int 2) 1; fld "filler1_1" (Raw 350) 1; fld "evPerChan" (Int 4) 1;
  fld "filler2" (Raw 60) 1; fld "startEnergy" Flt 1; fld "endEnergy" Flt 1; fld "liveTime" Flt 1; fld "tilt" Flt 1; fld "filler3" (Raw 8) 1;
  fld "detReso" Flt 1; fld "filler4" (Raw 32) 1; fld "azimuth" Flt 1; fld "elevation" Flt 1; fld "filler5" (Raw 16) 1; fld "kV" Flt 1;
  fld "filler6" (Raw 102) 1; fld "numElem" (Int 2) 1; fld "at" (Uint 2) 48; fld "filler7" (Raw 20004) 1].
(** get_ipr_dtype_list (lines 535-645) *)
Definition ipr_layout : list field := [
  fld "version" (Uint 2) 1; fld "imageType" (Uint 2) 1; fld "label" (Raw 8) 1; fld "sMin" (Uint 2) 1; fld "sMax" (Uint 2) 1; fld "color" (Uint 2) 1;
  fld "presetMode" (Uint 2) 1; fld "presetTime" (Uint 4) 1; fld "dataType" (Uint 2) 1; fld "timeConstantOld" (Uint 2) 1; fld "reserved1" (Int 2) 1;
  fld "roiStartChan" (Uint 2) 1; fld "roiEndChan" (Uint 2) 1; fld "userMin" (Int 2) 1; fld "userMax" (Int 2) 1; fld "iADC" (Uint 2) 1; fld "reserved2" (Int 2) 1;
  fld "iBits" (Uint 2) 1; fld "nReads" (Uint 2) 1; fld "nFrames" (Uint 2) 1; fld "fDwell" Flt 1; fld "accV" (Uint 2) 1; fld "tilt" (Int 2) 1;
  fld "takeoff" (Int 2) 1; fld "mag" (Uint 4) 1; fld "wd" (Uint 2) 1; fld "mppX" Flt 1; fld "mppY" Flt 1; fld "nTextLines" (Uint 2) 1;
  fld "charText" (Raw 32) 4; fld "reserved3" Flt 4; fld "nOverlayElements" (Uint 2) 1; fld "overlayColors" (Uint 2) 16].
(** from version 334 *)
Definition ipr_new : list field := [
  fld "timeConstantNew" Flt 1; fld "reserved4" Flt 2].

(** __get_spc_header (lines 97-131): round(version, 2) >= 0.7 *)
Definition hundredths (w : Z) : Z := match val32 w with Ok q => round_div (Qnum q * 100) (Zpos (Qden q)) | Err _ => if w <=? 255 * 2 ^ 23 then 100 else 0 end.
Definition spc_layout (all : bool) (version : Z) : list field := if all then if 70 <=? version then spc_full ++ spc_new else spc_full else spc_part.
Definition spc_header (big all : bool) (f : list Z) : res (list (pystr * list Z)) :=
  if zlen f <? 4 then Err ValueError else Ok (read_struct big (spc_layout all (hundredths (dec_int big (firstz 4 f)))) f).
(** __get_ipr_header (lines 506-532) *)
Definition ipr_header (big : bool) (f : list Z) : res (list (pystr * list Z)) :=
  if zlen f <? 2 then Err ValueError
  else let version := signed 2 (dec_int big (firstz 2 f)) in Ok (read_struct big (if 334 <=? version then ipr_layout ++ ipr_new else ipr_layout) f).

(** * Metadata: /repo/rsciio/utils/_elements.py and _add_spc_metadata (lines 648-694) *)
Definition el (z : Z) (s : string) : Z * string := (z, s).
Definition elements : list (Z * string) :=
  [el 1 "H"; el 2 "He"; el 3 "Li"; el 4 "Be"; el 5 "B"; el 6 "C"; el 7 "N"; el 8 "O"; el 9 "F"; el 10 "Ne"; el 11 "Na"; el 12 "Mg"; el 13 "Al";
   el 14 "Si"; el 15 "P"; el 16 "S"; el 17 "Cl"; el 18 "Ar"; el 19 "K"; el 20 "Ca"; el 21 "Sc"; el 22 "Ti"; el 23 "V"; el 24 "Cr"; el 25 "Mn"; el 26 "Fe";
   el 27 "Co"; el 28 "Ni"; el 29 "Cu"; el 30 "Zn"; el 31 "Ga"; el 32 "Ge"; el 33 "As"; el 34 "Se"; el 35 "Br"; el 36 "Kr"; el 37 "Rb"; el 38 "Sr";
   el 39 "Y"; el 40 "Zr"; el 41 "Nb"; el 42 "Mo"; el 43 "Tc"; el 44 "Ru"; el 45 "Rh"; el 46 "Pd"; el 47 "Ag"; el 48 "Cd"; el 49 "In"; el 50 "Sn";
   el 51 "Sb"; el 52 "Te"; el 53 "I"; el 54 "Xe"; el 55 "Cs"; el 56 "Ba"; el 57 "La"; el 58 "Ce"; el 59 "Pr"; el 60 "Nd"; el 61 "Pm"; el 62 "Sm";
   el 63 "Eu"; el 64 "Gd"; el 65 "Tb"; el 66 "Dy"; el 67 "Ho"; el 68 "Er"; el 69 "Tm"; el 70 "Yb"; el 71 "Lu"; el 72 "Hf"; el 73 "Ta"; el 74 "W";
   el 75 "Re"; el 76 "Os"; el 77 "Ir"; el 78 "Pt"; el 79 "Au"; el 80 "Hg"; el 81 "Tl"; el 82 "Pb"; el 83 "Bi"; el 84 "Po"; el 85 "At"; el 86 "Rn";
   el 87 "Fr"; el 88 "Ra"; el 89 "Ac"; el 90 "Th"; el 91 "Pa"; el 92 "U"; el 93 "Np"; el 94 "Pu"; el 95 "Am"; el 96 "Cm"; el 97 "Bk"; el 98 "Cf";
   el 99 "Es"; el 100 "Fm"; el 101 "Md"; el 102 "No"; el 103 "Lr"; el 104 "Rf"; el 105 "Db"; el 106 "Sg"; el 107 "Bh"; el 108 "Hs"; el 109 "Mt";
   el 110 "Ds"; el 111 "Rg"; el 112 "Cp"; el 113 "Uut"; el 114 "Uuq"; el 115 "Uup"; el 116 "Uuh"; el 117 "Uus"; el 118 "Uuo"; el 119 "Uue"].
Definition element_name (z : Z) : res pystr := match find (fun p => fst p =? z) elements with Some p => Ok (str (snd p)) | None => Err KeyError end.
Fixpoint insert_str (x : pystr) (l : list pystr) : list pystr := match l with [] => [x] | y :: l' => if leb_str x y then x :: l else y :: insert_str x l' end.
Fixpoint sort_str (l : list pystr) : list pystr := match l with [] => [] | x :: l' => insert_str x (sort_str l') end.
Record spc_meta := { m_azimuth : list Z; m_elevation : list Z; m_resolution : list Z; m_live_time : list Z; m_beam_energy : list Z; m_tilt : list Z; m_elements : option (list pystr) }.
Definition spc_metadata (h : list (pystr * list Z)) : res spc_meta :=
  let! az := get "azimuth" h in let! el := get "elevation" h in let! re := get "detReso" h in let! lt := get "liveTime" h in
  let! kv := get "kV" h in let! ti := get "tilt" h in
  let! n := number_of ValueError "numElem" h in
  let! names := if 0 <? n then let! zs := get "at" h in let! l := mapM element_name (firstz n zs) in Ok (Some (sort_str l)) else Ok None in
  Ok {| m_azimuth := az; m_elevation := el; m_resolution := re; m_live_time := lt; m_beam_energy := kv; m_tilt := ti; m_elements := names |}.

(** * Numbers in a file *)
(** numpy.fromfile with an offset: as many of [count] numbers as there are, or all if [count] is negative *)
Definition fromfile (big : bool) (w offset count : Z) (f : list Z) : res (list Z) :=
  if offset <? 0 then Err IOError
  else let rest := skipz offset f in let have := zlen rest / w in
       Ok (map (dec_int big) (items_of (if count <? 0 then have else Z.min count have) w rest)).
(** numpy.memmap *)
Definition memmap (big : bool) (w offset count : Z) (f : list Z) : res (list Z) :=
  if (offset <? 0) || (count <? 0) then Err ValueError
  else if zlen f <? offset + count * w then Err ValueError else Ok (map (dec_int big) (items_of count w (skipz offset f))).

(** Axes; scales and offsets are thousandths of numbers, words of type f4, or numbers *)
Inductive number := Number (q : Q) | Word (w : Z).
Record axis := { a_name : string; a_size : Z; a_index : Z; a_scale : number; a_offset : number; a_units : option string; a_navigate : bool }.
Record signal := { s_shape : list Z; s_data : list Z; s_axes : list axis; s_title : string; s_meta : option spc_meta }.

(** * spc_reader (lines 697-770) *)
Definition energy_axis (size index : Z) (h : option (list (pystr * list Z))) : res axis :=
  match h with
  | Some h => let! ev := number_of OtherError "evPerChan" h in let! start := number_of OtherError "startEnergy" h in
      Ok {| a_name := "Energy"%string; a_size := size; a_index := index; a_scale := Number (ev # 1000); a_offset := Word start; a_units := Some "keV"%string; a_navigate := false |}
  | None => Ok {| a_name := "Energy"%string; a_size := size; a_index := index; a_scale := Number 1; a_offset := Number 1; a_units := None; a_navigate := false |}
  end.
Definition spc_reader (lazy big all : bool) (f : list Z) : res signal :=
  let! h := spc_header big all f in
  let! start := number_of TypeError "dataStart" h in
  let! nz := number_of TypeError "numPts" h in
  let! data := (if lazy then memmap else fromfile) big 4 start nz f in
  let! ax := energy_axis (zlen data) 0 (Some h) in
  let! m := spc_metadata h in
  Ok {| s_shape := [zlen data]; s_data := data; s_axes := [ax]; s_title := "EDS Spectrum"%string; s_meta := Some m |}.

(** * Names of files: os.path *)
Fixpoint rfind (c : Z) (s : pystr) : option nat :=
  match s with [] => None | x :: s' => match rfind c s' with Some i => Some (S i) | None => if x =? c then Some O else None end end.
Fixpoint drop_slashes (s : pystr) : pystr := match s with 47 :: s' => drop_slashes s' | _ => s end.
Definition basename (p : pystr) : pystr := match rfind 47 p with Some i => skipn (S i) p | None => p end.
Definition dirname (p : pystr) : pystr :=
  match rfind 47 p with
  | Some i => let head := firstn (S i) p in match drop_slashes (rev head) with [] => head | r => rev r end
  | None => []
  end.
(** os.path.splitext: at the last dot, unless only dots come before it in the name *)
Definition splitext (p : pystr) : pystr * pystr :=
  let start := match rfind 47 p with Some i => S i | None => O end in
  match rfind 46 (skipn start p) with
  | Some i => if forallb (fun c => c =? 46) (firstn i (skipn start p)) then (p, []) else (firstn (start + i) p, skipn (start + i) p)
  | None => (p, [])
  end.
Definition path_join (a b : pystr) : pystr :=
  if startswith [47] b then b else match rev a with [] => b | c :: _ => if c =? 47 then a ++ b else a ++ 47 :: b end.
Definition spc_name (filename : pystr) : pystr := path_join (dirname filename) (fst (splitext (basename filename)) ++ str ".spc").
Definition csv_name (filename : pystr) : pystr := path_join (dirname filename) (fst (splitext filename) ++ str ".csv").
(** A char array as NumPy bytes: zeros at the end are left out *)
Definition bytes_text (v : list Z) : list Z := rev (drop_zeros (rev (map (fun x => x mod 256) v))).
Definition ipr_name (filename : pystr) (fname : list Z) : res pystr :=
  let! s := utf8_decode (fst (splitext (basename fname))) in Ok (path_join (dirname filename) (s ++ str ".ipr")).

(** * The .csv file of a line scan (lines 938-960) *)
Definition csv_header_line (d : list (pystr * pystr)) (line : pystr) : list (pystr * pystr) :=
  let line := strip line in
  match rev (split_char 44 line) with
  | [] | [_] => d
  | _ => match split_char 44 line with
         | label :: rest => put (strip label) (strip (join_char 44 rest)) d
         | [] => d
         end
  end.
Fixpoint csv_header (n : nat) (d : list (pystr * pystr)) (lines : list pystr) : res (list (pystr * pystr) * list pystr) :=
  match n, lines with
  | O, _ => Ok (d, lines)
  | S n', line :: lines' => csv_header n' (csv_header_line d line) lines'
  | S _, [] => Err StopIteration
  end.
(** Rows of csv.reader with skipinitialspace, and of csv.DictReader *)
Fixpoint skip_spaces (s : pystr) : pystr := match s with 32 :: s' => skip_spaces s' | _ => s end.
Definition csv_row (line : pystr) : list pystr := match line with [] => [] | _ => map skip_spaces (split_char 44 line) end.
Fixpoint dict_row (names : list pystr) (row : list pystr) (d : list (pystr * option pystr)) : list (pystr * option pystr) :=
  match names, row with
  | n :: names', x :: row' => dict_row names' row' (put n (Some x) d)
  | n :: names', [] => dict_row names' [] (put n None d)
  | [], _ => d
  end.
Section Csv.
  Variable float : pystr -> res Q.
  Definition csv_position (names row : list pystr) : res Q :=
    match lookup (str "Distance (nm)") (dict_row names row []) with Some (Some s) => float s | Some None => Err TypeError | None => Err KeyError end.
  Definition csv_positions (lines : list pystr) : res (list Q) :=
    match lines with
    | [] => Ok []
    | names :: lines' => mapM (csv_position (csv_row names)) (filter (fun r => match r with [] => false | _ => true end) (map csv_row lines'))
    end.
  (** Offset, scale and header *)
  Definition read_csv (lines : list pystr) : res (Q * Q * list (pystr * pystr)) :=
    let! p := csv_header 14 [] lines in let (d, rest) := p in
    let! ps := csv_positions rest in
    match ps with a :: b :: _ => Ok (a, b - a, d)%Q | _ => Err IndexError end.

  (** * si_reader (lines 776-1037) *)
  (** {"1": "u1", "2": "u2", "4": "u4"} *)
  Definition count_bytes (n : Z) : res Z := if (n =? 1) || (n =? 2) || (n =? 4) then Ok n else Err KeyError.
  (** Numbers of the machine are little-endian: fromfile is not given the byte order *)
  Definition map_data (lazy big : bool) (w offset : Z) (sh : list Z) (f : list Z) : res (list Z) :=
    if lazy then memmap big w offset (prodZ sh) f
    else let! data := fromfile false w offset (prodZ sh) f in if zlen data =? prodZ sh then Ok data else Err ValueError.
  (** data.squeeze()[:n, :] *)
  Definition first_spectra (n : Z) (sh data : list Z) : res (list Z * list Z) :=
    match filter (fun k => negb (k =? 1)) sh with
    | k :: ((_ :: _) as rest) =>
        let m := if n <? 0 then Z.max 0 (k + n) else Z.min n k in Ok (m :: rest, firstz (m * prodZ rest) data)
    | _ => Err IndexError
    end.
  Record files := { bytes_file : pystr -> option (list Z); text_file : pystr -> option (list pystr) }.
  Definition nav_axis (name : string) (size index : Z) (scale : option number) (offset : number) (units : string) : axis :=
    {| a_name := name; a_size := size; a_index := index; a_scale := match scale with Some s => s | None => Number 1 end; a_offset := offset;
       a_units := match scale with Some _ => Some units | None => None end; a_navigate := true |}.
  Definition si_reader (fs : files) (lazy big all : bool) (spc ipr csv : option pystr) (filename : pystr) (f : list Z) : res signal :=
    let linescan := eqb_str (lower (tl (snd (splitext filename)))) (str "lsd") in
    let h := read_struct big spd_layout f in
    let! offset := number_of TypeError "dataOffset" h in
    let! nx := number_of TypeError "nPoints" h in let! ny := number_of TypeError "nLines" h in let! nz := number_of TypeError "nChannels" h in
    let! n := number_of TypeError "nSpectra" h in
    let! w := (let! b := number_of TypeError "countBytes" h in count_bytes b) in
    if nx <? 0 then Err NotImplementedError else
    let! data := map_data lazy big w offset [ny; nx; nz] f in
    let! fname := get "fName" h in
    let! sh := match bytes_file fs (match spc with Some s => s | None => spc_name filename end) with
               | Some b => let! sh := spc_header big all b in let! m := spc_metadata sh in Ok (Some (sh, m))
               | None => Ok None
               end in
    let! energy := energy_axis nz (-1) (option_map fst sh) in
    if linescan then
      let! p := first_spectra n [ny; nx; nz] data in let (shape, data) := p in
      let! cal := match text_file fs (match csv with Some s => s | None => csv_name filename end) with
                  | Some lines => let! c := read_csv lines in let '(o, s, _) := c in Ok (Some (Number s), Number o)
                  | None => Ok (None, Number 0)
                  end in
      Ok {| s_shape := shape; s_data := data; s_axes := [nav_axis "x" (hd 0 shape) 0 (fst cal) (snd cal) "nm"; energy]; s_title := "EDS Line Scan"%string; s_meta := option_map snd sh |}
    else
      let! name := match ipr with Some s => Ok s | None => ipr_name filename (bytes_text fname) end in
      let! cal := match bytes_file fs name with
                  | Some b => let! ih := ipr_header big b in let! x := number_of OtherError "mppX" ih in let! y := number_of OtherError "mppY" ih in Ok (Some (Word x), Some (Word y))
                  | None => Ok (None, None)
                  end in
      Ok {| s_shape := [ny; nx; nz]; s_data := data; s_axes := [nav_axis "y" ny 0 (snd cal) (Number 0) "um"; nav_axis "x" nx 1 (fst cal) (Number 0) "um"; energy];
            s_title := "EDS Spectrum Image"%string; s_meta := option_map snd sh |}.
  (** file_reader (lines 1044-1137) *)
  Definition edax_reader (fs : files) (lazy big all : bool) (spc ipr csv : option pystr) (filename : pystr) : res signal :=
    match bytes_file fs filename with
    | None => Err IOError
    | Some f =>
        let ext := lower (tl (snd (splitext filename))) in
        if eqb_str ext (str "spd") || eqb_str ext (str "lsd") then si_reader fs lazy big all spc ipr csv filename f
        else if eqb_str ext (str "spc") then spc_reader lazy big all f
        else Err ValueError
    end.
End Csv.
