(** Model of the MSA plugin, rsciio/msa/_api.py. *)
From Verif Require Import Base Text HierModel RplModel.

(** * The table of keywords, [_api.py:60-161] *)
Inductive kwtype := KStr | KFloat.
Record kw := { k_name : pystr; k_type : kwtype; k_path : option pystr }.
Definition mk (n : string) (t : kwtype) (p : option string) : kw :=
  {| k_name := str n; k_type := t; k_path := option_map str p |}.
Local Notation "'TEM' s" := (Some (String.append "Acquisition_instrument.TEM." s)) (at level 10).
Definition keywords : list kw :=
  [mk "FORMAT" KStr None; mk "VERSION" KStr None; mk "TITLE" KStr (Some "General.title"%string); mk "DATE" KStr None;
   mk "TIME" KStr None; mk "OWNER" KStr None; mk "NPOINTS" KFloat None; mk "NCOLUMNS" KFloat None;
   mk "DATATYPE" KStr None; mk "XPERCHAN" KFloat None; mk "OFFSET" KFloat None; mk "SIGNALTYPE" KStr None;
   mk "XLABEL" KStr None; mk "YLABEL" KStr None; mk "XUNITS" KStr None; mk "YUNITS" KStr None;
   mk "CHOFFSET" KFloat None; mk "COMMENT" KStr None;
   mk "BEAMKV" KFloat (TEM "beam_energy"%string); mk "EMISSION" KFloat None;
   mk "PROBECUR" KFloat (TEM "beam_current"%string); mk "BEAMDIAM" KFloat None; mk "MAGCAM" KFloat None;
   mk "OPERMODE" KStr None; mk "CONVANGLE" KFloat (TEM "convergence_angle"%string);
   mk "THICKNESS" KFloat (Some "Sample.thickness"%string); mk "XTILTSTGE" KFloat (TEM "Stage.tilt_alpha"%string);
   mk "YTILTSTGE" KFloat None; mk "XPOSITION" KFloat None; mk "YPOSITION" KFloat None; mk "ZPOSITION" KFloat None;
   mk "INTEGTIME" KFloat (TEM "Detector.EELS.exposure"%string); mk "DWELLTIME" KFloat (TEM "Detector.EELS.dwell_time"%string);
   mk "COLLANGLE" KFloat (TEM "Detector.EELS.collection_angle"%string); mk "ELSDET" KStr None;
   mk "ELEVANGLE" KFloat (TEM "Detector.EDS.elevation_angle"%string); mk "AZIMANGLE" KFloat (TEM "Detector.EDS.azimuth_angle"%string);
   mk "SOLIDANGLE" KFloat (TEM "Detector.EDS.solid_angle"%string); mk "LIVETIME" KFloat (TEM "Detector.EDS.live_time"%string);
   mk "REALTIME" KFloat (TEM "Detector.EDS.real_time"%string); mk "FWHMMNKA" KFloat (TEM "Detector.EDS.energy_resolution_MnKa"%string);
   mk "TBEWIND" KFloat None; mk "TAUWIND" KFloat None; mk "TDEADLYR" KFloat None; mk "TACTLYR" KFloat None;
   mk "TALWIND" KFloat None; mk "TPYWIND" KFloat None; mk "TBNWIND" KFloat None; mk "TDIWIND" KFloat None;
   mk "THCWIND" KFloat None; mk "EDSDET" KStr (TEM "Detector.EDS.EDS_det"%string)].

Fixpoint find_kw (n : pystr) (t : list kw) : option kw :=
  match t with [] => None | k :: t' => if eqb_str (k_name k) n then Some k else find_kw n t' end.

(** * Writing *)

(** [_api.py:507-514]: the paths are changed in the table itself, which stays changed. *)
Definition to_sem (p : pystr) : pystr := replace_sub (List.length p) (str "TEM") (str "SEM") p.
Definition shift (t : list kw) : list kw :=
  map (fun k => {| k_name := k_name k; k_type := k_type k; k_path := option_map to_sem (k_path k) |}) t.
Definition write_table (sigtype : pystr) (t : list kw) : list kw :=
  if contains (str "SEM") sigtype then shift t else t.

(** Metadata of a signal by dotted path; values as the text str() gives. *)
Definition paths := list (pystr * pystr).
Fixpoint from_metadata (t : list kw) (md : paths) (d : list (pystr * pystr)) : list (pystr * pystr) :=
  match t with
  | [] => d
  | k :: t' =>
      from_metadata t' md
        match k_path k with
        | Some p => match lookup p md with Some v => put (k_name k) v d | None => d end
        | None => d
        end
  end.

Fixpoint del (k : pystr) (d : list (pystr * pystr)) : list (pystr * pystr) :=
  match d with [] => [] | (k', v) :: d' => if eqb_str k k' then d' else (k', v) :: del k d' end.

Definition FORMAT : pystr := str "EMSA/MAS Spectral Data File".

(** [_api.py:441-460]: the SIGNALTYPE keyword. *)
Definition sigtype_key (s : pystr) : pystr :=
  if existsb (eqb_str s) (map str ["EDS_SEM"; "EDS_TEM"]%string) then str "EDS"
  else if eqb_str s (str "EELS") then str "ELS"
  else if existsb (eqb_str s) (map str ["CL"; "CL_SEM"; "CL_STEM"]%string) then str "CLS"
  else if existsb (eqb_str s) (map str ["EDS"; "WDS"; "ELS"; "AES"; "PES"; "XRF"; "CLS"; "GAM"]%string) then s
  else [].

(** [_api.py:504-506]: later values replace earlier ones unless they are empty. *)
Fixpoint update (ks d : list (pystr * pystr)) : list (pystr * pystr) :=
  match ks with
  | [] => d
  | (k, v) :: ks' =>
      update ks' match lookup k d, v with Some _, [] => d | _, _ => put k v d end
  end.

(** A signal: original metadata (text values), metadata, signal type, the values taken
    from its axis (NPOINTS, XPERCHAN, OFFSET, XLABEL, XUNITS) and the spectrum (the text
    of x and y of every channel in the chosen format). *)
Record msig := { ms_om : list (pystr * pystr); ms_md : paths; ms_type : pystr; ms_date : option pystr;
                 ms_axis : list (pystr * pystr); ms_data : list (pystr * pystr) }.

(** [_api.py:419-440, 461-520]: the keywords to write, and the signal's original metadata
    afterwards: the dictionary is the signal's own when it has the MSA format (line 423).
    [comment] is "File created by RosettaSciIO version ...".  [format] is not None;
    the date is given in the form written.  TIME is never written from the metadata
    (line 438 tests for "General.item"). *)
Definition is_msa (s : msig) : bool :=
  match lookup (str "FORMAT") (ms_om s) with Some f => eqb_str f FORMAT | None => false end.
Definition loc_kwds (comment format : pystr) (t : list kw) (s : msig) : list (pystr * pystr) :=
  let d0 := if is_msa s then put (str "DATATYPE") format (ms_om s)
            else match ms_date s with Some v => [(str "DATE", v)] | None => [] end in
  let d1 := put (str "SIGNALTYPE") (sigtype_key (ms_type s)) d0 in
  let d2 := match lookup (str "COMMENT") d1 with Some _ => d1 | None => put (str "COMMENT") comment d1 end in
  let title := match lookup (str "General.title") (ms_md s) with Some v => v | None => [] end in
  let ks := [(str "FORMAT", FORMAT); (str "VERSION", str "1.0"); (str "TITLE", title); (str "DATE", []); (str "TIME", []);
             (str "OWNER", []); (str "NCOLUMNS", str "1"); (str "DATATYPE", format); (str "SIGNALTYPE", [])] ++ ms_axis s in
  let d3 := update ks d2 in
  del (str "ENDOFDATA") (del (str "SPECTRUM") (from_metadata t (ms_md s) d3)).
Definition written_kwds (d : list (pystr * pystr)) : list (pystr * pystr) := del (str "VERSION") (del (str "FORMAT") d).
Definition om_after (comment format : pystr) (t : list kw) (s : msig) : list (pystr * pystr) :=
  if is_msa s then written_kwds (loc_kwds comment format t s) else ms_om s.

(** [_api.py:523-538]: one header line, and the 64-character pieces of long fields. *)
Definition pad12 (s : pystr) : pystr := s ++ repeat 32 (12 - List.length s).
Definition hline (k v : pystr) : pystr := 35 :: pad12 k ++ [58; 32] ++ v ++ [13; 10].
Fixpoint pieces (fuel n : nat) (s : pystr) : list pystr :=
  match fuel, s with
  | S f, _ :: _ => firstn n s :: pieces f n (skipn n s)
  | _, _ => []
  end.
Definition multiline (k : pystr) : bool := existsb (eqb_str k) (map str ["TITLE"; "COMMENT"]%string).
Definition values_of (k v : pystr) : list pystr :=
  if multiline k then match v with [] => [v] | _ => pieces (List.length v) 64 v end else [v].
Definition field_lines (p : pystr * pystr) : pystr := flat_map (hline (fst p)) (values_of (fst p) (snd p)).

(** [_api.py:520-554]: the text of the file; separator ", ". *)
Definition data_lines (xy : bool) (data : list (pystr * pystr)) : pystr :=
  flat_map (fun p => (if xy then fst p ++ [44; 32] ++ snd p else snd p ++ [44; 32]) ++ [13; 10]) data.
Definition msa_text (version : pystr) (d : list (pystr * pystr)) (xy : bool) (data : list (pystr * pystr)) : pystr :=
  latin1 (hline (str "FORMAT") FORMAT ++ hline (str "VERSION") version ++ flat_map field_lines d ++
          hline (str "SPECTRUM") (str "Spectral Data Starts Here") ++ data_lines xy data ++
          35 :: pad12 (str "ENDOFDATA") ++ str ": End Of Data and File").

Definition format_key (xy : bool) : pystr := if xy then str "XY" else str "Y".
(** file_writer: the file, the table of keywords and the signal's original metadata. *)
Definition msa_write (comment : pystr) (xy : bool) (t : list kw) (s : msig) : pystr * list kw * list (pystr * pystr) :=
  let t' := write_table (ms_type s) t in
  let d := loc_kwds comment (format_key xy) t' s in
  let version := match lookup (str "VERSION") d with Some v => v | None => [] end in
  (msa_text version (written_kwds d) xy (ms_data s), t', om_after comment (format_key xy) t' s).

(** * Reading *)

(** [s.split(": ")]: the two-character separator. *)
Fixpoint split_colon (s : pystr) : list pystr :=
  match s with
  | [] => [[]]
  | 58 :: 32 :: s' => [] :: split_colon s'
  | c :: s' => match split_colon s' with [] => [[c]] | w :: ws => (c :: w) :: ws end
  end.

(** [key.strip("#")]. *)
Fixpoint lstrip_hash (s : pystr) : pystr := match s with 35 :: s' => lstrip_hash s' | _ => s end.
Definition strip_hash (s : pystr) : pystr := rev (lstrip_hash (rev (lstrip_hash s))).

(** Values are None when the line has no or several ": ". *)
Definition params := list (pystr * option pystr).

(** [_api.py:188-205]: a line before the data.  A line is given without its newline, so an
    empty list is a line whose first character is the newline.  (A file never yields an
    empty string.)  Result: parameters and whether the data starts. *)
Definition header_line (line : pystr) (d : params) : res (params * bool) :=
  match line with
  | 35 :: _ =>
      let '(key, value) := match split_colon line with [k; v] => (k, Some (rstrip v)) | _ => (line, None) end in
      let key := strip (strip_hash key) in
      if multiline key then
        match lookup key d, value with
        | Some (Some w), Some v => Ok (put key (Some (w ++ v)) d, false)
        | Some _, _ => Err TypeError
        | None, _ => Ok (put key value d, false)
        end
      else if eqb_str key (str "SPECTRUM") then Ok (d, true)
      else Ok (put key value d, false)
  | _ => Ok (d, false)
  end.

(** [s.split()]: pieces between runs of white space. *)
Fixpoint words_aux (s : pystr) (cur : pystr) : list pystr :=
  match s with
  | [] => match cur with [] => [] | _ => [rev cur] end
  | c :: s' => if is_space c then match cur with [] => words_aux s' [] | _ => rev cur :: words_aux s' [] end
               else words_aux s' (c :: cur)
  end.
Definition words (s : pystr) : list pystr := words_aux s [].

Section Floats.
Context {F : Type} (tofloat : pystr -> option F).
Definition float_of (s : pystr) : res F := match tofloat s with Some f => Ok f | None => Err ValueError end.
Fixpoint floats_of (l : list pystr) : res (list F) :=
  match l with [] => Ok [] | w :: l' => let! f := float_of w in let! fs := floats_of l' in Ok (f :: fs) end.

(** [_api.py:206-217]: a line of the data. *)
Definition data_line (line : pystr) (d : params) (y : list F) : res (list F) :=
  match line, strip line with
  | 35 :: _, _ | _, [] => Ok y
  | _, _ =>
      let ws := words (strip (map (fun c => if c =? 44 then 32 else c) line)) in
      match lookup (str "DATATYPE") d with
      | None => Err KeyError
      | Some None => Ok y
      | Some (Some t) =>
          if eqb_str t (str "XY") then
            match ws with
            | [] | [_] => Err IndexError
            | [_; w] => let! f := float_of w in Ok (y ++ [f])
            | [_; w; _] => let! f := float_of w in Err IndexError
            | _ :: w :: _ :: w2 :: _ => let! f := float_of w in let! f2 := float_of w2 in Ok (y ++ [f; f2])
            end
          else if eqb_str t (str "Y") then let! fs := floats_of ws in Ok (y ++ fs)
          else Ok y
      end
  end.

Fixpoint read_data (ls : list pystr) (d : params) (y : list F) : res (params * list F) :=
  match ls with
  | [] => Ok (d, y)
  | l :: ls' => let! y' := data_line l d y in read_data ls' d y'
  end.
Fixpoint read_lines (ls : list pystr) (d : params) : res (params * list F) :=
  match ls with
  | [] => Ok (d, [])
  | l :: ls' => let! p := header_line l d in
                let '(d', data) := p in
                if data : bool then read_data ls' d' [] else read_lines ls' d'
  end.
(** [_api.py:180-220]: parameters (with FORMAT rewritten) and spectrum of a file. *)
Definition msa_parse (file : pystr) : res (params * list F) :=
  let! p := read_lines (file_lines file) [] in
  Ok (put (str "FORMAT") (Some FORMAT) (fst p), snd p).

(** [_api.py:225-263]: conversion and mapping of the parameters.  A value that cannot be
    converted stays text. *)
Inductive mval := MText (s : pystr) | MNum (f : F).
Definition convert_par (ty : kwtype) (v : pystr) : mval :=
  match ty with
  | KStr => MText v
  | KFloat =>
      match tofloat v with
      | Some f => MNum f
      | None =>
          let v' := if existsb (Z.eqb 101) (lower v) then filter (fun c => negb (c =? 32)) v
                    else match split_char 32 v with w :: _ => w | [] => [] end in
          match tofloat v' with Some f => MNum f | None => MText v end
      end
  end.
Fixpoint map_params (t : list kw) (d : params) (m : list (pystr * mval)) : res (list (pystr * mval)) :=
  match d with
  | [] => Ok m
  | (name, value) :: d' =>
      let! cu := match split_char 45 name with
                 | [_] => Ok (name, None)
                 | [c; u] => Ok (strip c, Some (strip u))
                 | _ => Err ValueError
                 end in
      let '(c, u) := cu in
      map_params t d'
        match value with
        | Some ((_ :: _) as v) =>
            match find_kw c t with
            | Some {| k_type := ty; k_path := Some p |} =>
                let m1 := put p (convert_par ty v) m in
                match u with Some u => put (p ++ str "_units") (MText u) m1 | None => m1 end
            | _ => m
            end
        | _ => m
        end
  end.
(** file_reader: the mapped metadata (without the date, time, signal type and quantity)
    and the spectrum. *)
Definition msa_read (t : list kw) (file : pystr) : res (list (pystr * mval) * list F) :=
  let! p := msa_parse file in
  let! m := map_params t (fst p) [] in Ok (m, snd p).
End Floats.
Arguments mval F : clear implicits.

(** * Numbers as text *)
(** a/b rounded to the nearest integer, halves to even. *)
Definition round_half_even (a b : Z) : Z :=
  let q := a / b in let r := a mod b in
  if 2 * r <? b then q else if b <? 2 * r then q + 1 else if Z.even q then q else q + 1.

(** [_api.py:549]: "%f" % y, for the number y = n / 2^k (every finite double is one);
    C's printf rounds the exact value. *)
Definition digits6 (b : Z) : pystr :=
  map (fun i => 48 + (b / 10 ^ i) mod 10) [5; 4; 3; 2; 1; 0].
Definition fmt_f (n : Z) (k : nat) : pystr :=
  let m := round_half_even (Z.abs n * 10 ^ 6) (2 ^ Z.of_nat k) in
  (if n <? 0 then [45] else []) ++ dec (m / 10 ^ 6) ++ [46] ++ digits6 (m mod 10 ^ 6).

(** [_api.py:546]: "%g" % y for an integer y >= 0: six significant digits. *)
Fixpoint drop_zeros (s : pystr) : pystr := match s with 48 :: s' => drop_zeros s' | _ => s end.
Definition fmt_g (n : Z) : pystr :=
  if n <? 10 ^ 6 then dec n else
  let e := Z.of_nat (List.length (dec n)) - 1 in
  let m := round_half_even n (10 ^ (e - 5)) in
  let '(m, e) := if m =? 10 ^ 6 then (10 ^ 5, e + 1) else (m, e) in
  let frac := rev (drop_zeros (rev (skipn 1 (digits6 m)))) in
  dec (m / 10 ^ 5) ++ match frac with [] => [] | _ => 46 :: frac end ++ str "e+" ++ (if e <? 10 then [48] else []) ++ dec e.
