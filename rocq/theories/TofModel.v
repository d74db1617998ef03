(** Tofwerk files: /repo/rsciio/tofwerk/_api.py, /repo/rsciio/tofwerk/_reconstruction.py.
    The library h5py is left out: a file is its attributes and datasets. Simplifications: numbers are exact (masses, limits and
    attributes are rational, elements are integers); counts are not beyond the range of their type; dates, texts and most
    of the metadata, lazy reading, chunks and progress bars are left out; arrays with one element are not repeated to fill others;
    np.argsort keeps the order of equal values; labels and digits are ASCII. *)
From Coq Require Import QArith Qround.
From Verif Require Import Base Text HierModel DistModel RowMajor SfsModel DateModel.
Local Open Scope Z_scope.

Record peak := { p_label : pystr; p_mass : Q; p_low : Q; p_high : Q }.
Record array := { a_shape : list Z; a_at : list Z -> Z }.
Record events := { e_shape : Z * Z * Z; e_at : Z -> Z -> Z -> list Z }.
Record picture := { i_shape : Z * Z; i_at : Z -> Z -> Z }.
Record tof := { t_groups : bool * bool * bool; t_version : bool; t_writes : option Z; t_segments : option Z; t_waveforms : option Z; t_ini : pystr;
                t_sample : option Q; t_clock : option Q; t_view : option Q; t_masses : option (list Q); t_sum : option (list Z);
                t_peaks : option (list peak); t_data : option array; t_events : option events; t_images : option (list (pystr * picture)) }.

(** * Reconstruction (_reconstruction.py) *)
(** count_active_channels (lines 80-117): re.findall(r"Ch\dRecord=(\d)", ini) *)
Definition channel (s : pystr) : option (Z * pystr) :=
  match s with
  | a :: b :: d :: r =>
      if (a =? 67) && (b =? 104) && is_digit d && startswith (str "Record=") r then
        match skipn 7 r with e :: r => if is_digit e then Some (e - 48, r) else None | [] => None end
      else None
  | _ => None
  end.
Fixpoint channels (fuel : nat) (s : pystr) : list Z :=
  match fuel with
  | O => []
  | S fuel => match channel s with
              | Some (k, r) => k :: channels fuel r
              | None => match s with [] => [] | _ :: s => channels fuel s end
              end
  end.
Definition active_channels (ini : pystr) : Z := Z.max (sumZ (channels (S (List.length ini)) ini)) 1.
(** np.argsort *)
Fixpoint insert (key : nat -> Q) (i : nat) (l : list nat) : list nat :=
  match l with [] => [i] | j :: r => if Qle_bool (key j) (key i) then j :: insert key i r else i :: l end.
Definition argsort_by (key : nat -> Q) (n : nat) : list nat := fold_left (fun acc i => insert key i acc) (seq 0 n) [].
Definition argsort (l : list Q) : list nat := argsort_by (fun i => nth i l 0%Q) (List.length l).
Definition argsort_nat (l : list nat) : list nat := argsort_by (fun i => inject_Z (Z.of_nat (nth i l 0%nat))) (List.length l).
Definition take {A} (d : A) (l : list A) (idx : list nat) : list A := map (fun i => nth i l d) idx.
(** np.searchsorted(l, v, side="right") of a sorted array *)
Fixpoint search_right (l : list Q) (v : Q) : nat := match l with a :: l => if Qle_bool a v then S (search_right l v) else O | [] => O end.
Section Counting.
  Variable masses : list Q.
  Variable samples ratio : Z.
  Variables low high : list Q.
  Definition bin (mass : Q) : option nat :=
    match search_right low mass with
    | O => None
    | S b => match nth_error high b with Some h => if Qle_bool mass h then Some b else None | None => None end
    end.
  Definition event_bin (e : Z) : option nat :=
    let s := e / ratio in
    if (s <? 0) || (samples <=? s) then None else match nth_error masses (Z.to_nat s) with Some m => bin m | None => None end.
  Fixpoint add_one (b : nat) (l : list Z) : list Z := match l with [] => [] | c :: l => match b with O => (c + 1) :: l | S b => c :: add_one b l end end.
  (** _flatten_event_row (lines 120-147) *)
  Fixpoint cumsum (a : nat) (l : list nat) : list nat := match l with [] => [a] | n :: l => a :: cumsum (a + n) l end.
  Definition flatten (row : list (list Z)) : list Z * list nat := (List.concat row, cumsum 0 (map (@List.length Z) row)).
  (** _accumulate_peak_counts (lines 150-197), for one pixel *)
  Definition accumulate (flat : list Z) (offsets : list nat) (npeaks x : nat) : list Z :=
    let start := nth x offsets O in let stop := nth (S x) offsets O in
    fold_left (fun acc e => match event_bin e with Some b => add_one b acc | None => acc end) (firstn (stop - start) (skipn start flat)) (repeat 0 npeaks).
  (** The same without numba (lines 339-367) *)
  Definition counted (evs : list Z) (npeaks : nat) : list Z :=
    let valid := filter (fun s => (0 <=? s) && (s <? samples)) (map (fun e => e / ratio) evs) in
    let bins := map (fun s => match nth_error masses (Z.to_nat s) with Some m => bin m | None => None end) valid in
    map (fun b => countZ (fun o => match o with Some c => Nat.eqb b c | None => false end) bins) (seq 0 npeaks).
End Counting.
Fixpoint set_nth (i : nat) (v : Z) (l : list Z) : list Z := match l with [] => [] | c :: l => match i with O => v :: l | S i => c :: set_nth i v l end end.
Definition scatter (idx : list nat) (counts : list Z) (l : list Z) : list Z := fold_left (fun l iv => set_nth (fst iv) (snd iv) l) (combine idx counts) l.
(** compute_peak_data_from_eventlist (lines 200-373): the counts of one row of pixels, by the compiled and by the other path *)
Definition row_counts (numba : bool) (masses : list Q) (samples ratio : Z) (peaks : list peak) (row : list (list Z)) : res (list (list Z)) :=
  let order := argsort (map p_low peaks) in
  let low := take 0%Q (map p_low peaks) order in
  let high := take 0%Q (map p_high peaks) order in
  let n := List.length peaks in
  if numba then
    let '(flat, offsets) := flatten row in
    if (ratio =? 0) && negb (Nat.eqb (List.length flat) 0) then Err ZeroDivisionError else
    Ok (map (fun x => take 0 (accumulate masses samples ratio low high flat offsets n x) (argsort_nat order)) (seq 0 (List.length row)))
  else Ok (map (fun evs => match evs with [] => repeat 0 n | _ => scatter order (counted masses samples ratio low high evs n) (repeat 0 n) end) row).
Definition row_of (ev : events) (w s : Z) : list (list Z) := let '(_, _, nx) := e_shape ev in map (fun x => e_at ev w s x) (zseq 0 (Z.to_nat nx)).
Definition rows (ev : events) : list (Z * Z) := let '(nw, ns, _) := e_shape ev in flat_map (fun w => map (fun s => (w, s)) (zseq 0 (Z.to_nat ns))) (zseq 0 (Z.to_nat nw)).
Definition peak_data (numba : bool) (ev : events) (masses : list Q) (samples ratio norm : Z) (peaks : list peak) : res array :=
  let! _ := mapM (fun ws => row_counts numba masses samples ratio peaks (row_of ev (fst ws) (snd ws))) (rows ev) in
  let '(nw, ns, nx) := e_shape ev in
  Ok {| a_shape := [nw; ns; nx; Z.of_nat (List.length peaks)];
        a_at := fun i => match i with
                         | [w; s; x; k] => match row_counts numba masses samples ratio peaks (row_of ev w s) with Ok r => nth (Z.to_nat k) (nth (Z.to_nat x) r []) 0 / norm | Err _ => 0 end
                         | _ => 0
                         end |}.

(** * _compute_peak_data_from_file (lines 607-681) *)
Definition round_q (q : Q) : Z := round_half_even (Qnum q) (Zpos (Qden q)).
Definition clock_ratio (t : tof) : Z :=
  match t_clock t with
  | Some c => if Qeq_bool c 0 then 1 else round_q (match t_sample t with Some s => s | None => 1 end / c)%Q
  | None => 1
  end.
Definition clip (start stop n : Z) : Z := Z.max 0 (Z.min stop n - start).
Definition sliced (ev : events) (start stop : Z) : events :=
  let '(nw, ns, nx) := e_shape ev in
  if (start =? 0) && (stop =? nw) then ev else {| e_shape := (clip start stop nw, ns, nx); e_at := fun w => e_at ev (w + start) |}.
Definition from_events (numba : bool) (t : tof) (peaks : list peak) (start stop : Z) : res array :=
  match t_masses t, t_events t with
  | Some m, Some ev => peak_data numba (sliced ev start stop) m (zlen m) (clock_ratio t) (match t_waveforms t with Some w => w | None => 1 end * active_channels (t_ini t)) peaks
  | _, _ => Err KeyError
  end.

(** * Signals (_api.py) *)
Inductive kind := Sum | Nominal | Additional | EventList | Fib.
Definition kind_name (k : kind) : string := match k with Sum => "sum_spectrum" | Nominal => "nominal_peak_data" | Additional => "additional_peak_data" | EventList => "event_list" | Fib => "fib_images" end.
Definition kinds : list kind := [Sum; Nominal; Additional; EventList; Fib].
Definition kind_eqb (a b : kind) : bool := match a, b with Sum, Sum | Nominal, Nominal | Additional, Additional | EventList, EventList | Fib, Fib => true | _, _ => false end.
Record axis := { x_name : string; x_size : Z; x_values : option (list Q); x_scale : option Q; x_units : option pystr; x_navigate : bool }.
Inductive data := Spectrum (l : list Z) | Elements (a : array) | Ragged (e : events).
Record signal := { s_kind : kind; s_data : data; s_axes : list axis; s_table : option (list peak) }.
(** _is_tofwerk_file (lines 145-152) *)
Definition is_tofwerk (t : tof) : bool := let '(a, b, c) := t_groups t in a && b && c && t_version t.
(** _parse_pixel_size (lines 210-229) *)
Definition pixel_size (t : tof) (n : Z) : option Q := match t_view t with Some v => if n =? 0 then None else Some (v * 1000 / inject_Z n)%Q | None => None end.
(** _build_axes_... (lines 237-372) *)
Definition depth_axis (n : Z) : axis := {| x_name := "depth"; x_size := n; x_values := None; x_scale := Some 1%Q; x_units := Some (str "slice"); x_navigate := true |}.
Definition place_axis (name : string) (n : Z) (px : option Q) (nav : bool) : axis :=
  {| x_name := name; x_size := n; x_values := None; x_scale := px; x_units := match px with Some _ => Some [181; 109] | None => None end; x_navigate := nav |}.
Definition mass_axis (m : list Q) : axis := {| x_name := "m/z"; x_size := zlen m; x_values := Some m; x_scale := None; x_units := Some (str "Da"); x_navigate := false |}.
Definition peak_axes (nw ns nx : Z) (m : list Q) (px : option Q) : list axis := [depth_axis nw; place_axis "y" ns px true; place_axis "x" nx px true; mass_axis m].
(** _split_peak_table (lines 576-599) and the columns (lines 965-996) *)
Definition is_nominal (p : peak) : bool := startswith (str "nominal") (p_label p).
Definition columns (f : peak -> bool) (l : list peak) : list nat := map fst (filter (fun ip => f (snd ip)) (combine (seq 0 (List.length l)) l)).
Definition table (t : tof) : list peak := match t_peaks t with Some l => l | None => [] end.
Definition is_some {A} (o : option A) : bool := match o with Some _ => true | None => false end.
Definition can (t : tof) (k : kind) : bool :=
  let base := is_some (t_data t) || (is_some (t_events t) && is_some (t_peaks t)) in
  match k with
  | Sum => true
  | Nominal => base && existsb is_nominal (table t)
  | Additional => base && existsb (fun p => negb (is_nominal p)) (table t)
  | EventList => is_some (t_events t)
  | Fib => match t_images t with Some (_ :: _) => true | _ => false end
  end.
(** available_signals (lines 731-785) *)
Definition available (t : tof) : res (list pystr) :=
  if negb (is_tofwerk t) then Err IOError else
  let peaks := (is_some (t_data t) || (is_some (t_events t) && is_some (t_peaks t))) && is_some (t_peaks t) in
  Ok ([str "sum_spectrum"]
      ++ (if peaks && existsb is_nominal (table t) then [str "nominal_peak_data"] else [])
      ++ (if peaks && existsb (fun p => negb (is_nominal p)) (table t) then [str "additional_peak_data"] else [])
      ++ (if is_some (t_events t) then [str "event_list"] else [])
      ++ (match t_images t with Some (_ :: _) => [str "fib_images"] | _ => [] end)).
Definition in_range (mz : option (Q * Q)) (m : Q) : bool := match mz with Some (a, b) => Qle_bool a m && Qle_bool m b | None => true end.
(** The sum spectrum (lines 1060-1099) *)
Fixpoint advance (l : list Q) (i : nat) : nat := match l with a :: ((b :: _) as r) => if Qle_bool b a then advance r (S i) else i | _ => i end.
Fixpoint first_positive (l : list Q) : option nat := match l with [] => None | a :: l => if Qle_bool 0 a then Some O else option_map S (first_positive l) end.
Definition first_valid (l : list Q) : res nat :=
  match l with [] => Err ValueError | _ => let i := match first_positive l with Some i => i | None => O end in Ok (advance (skipn i l) i) end.
Definition sum_signal (t : tof) : res signal :=
  match t_sum t, t_masses t with
  | Some s, Some m => let! i := first_valid m in
      Ok {| s_kind := Sum; s_data := Spectrum (skipn i s); s_axes := [mass_axis (skipn i m)]; s_table := t_peaks t |}
  | _, _ => Err KeyError
  end.
(** Columns of PeakData: h5py wants increasing columns *)
Fixpoint increasing (l : list nat) : bool := match l with a :: ((b :: _) as r) => Nat.ltb a b && increasing r | _ => true end.
Definition read_columns (a : array) (start stop : Z) (cols : list nat) : res array :=
  match a_shape a with
  | [nw; ns; nx; np] =>
      if negb (increasing cols) then Err TypeError else
      if forallb (fun c => Z.of_nat c <? np) cols
      then Ok {| a_shape := [clip start stop nw; ns; nx; zlen cols]; a_at := fun i => match i with [w; s; x; k] => a_at a [w + start; s; x; Z.of_nat (nth (Z.to_nat k) cols O)] | _ => 0 end |}
      else Err IndexError
  | _ => Err IndexError
  end.
Definition reorder (idx : list nat) (a : array) : array :=
  {| a_shape := match a_shape a with [nw; ns; nx; _] => [nw; ns; nx; zlen idx] | s => s end;
     a_at := fun i => match i with [w; s; x; k] => a_at a [w; s; x; Z.of_nat (nth (Z.to_nat k) idx O)] | _ => 0 end |}.
(** assignment into an empty array of a given shape *)
Definition filled (shape : list Z) (a : array) : res array := if eqb_zs (a_shape a) shape then Ok a else Err ValueError.
Section Reader.
  Variable numba : bool.
  Variable t : tof.
  Variables start stop : Z.
  Variable mz : option (Q * Q).
  Variables nsegs nx : Z.
  Definition peaks_axes (m : list Q) : list axis := peak_axes (stop - start) nsegs nx m (pixel_size t nx).
  (** Nominal peaks (lines 1101-1190) *)
  Definition nominal_signal : res (list signal) :=
    let nominal := filter is_nominal (table t) in
    let sel := map snd (filter (fun pi => in_range mz (p_mass (fst pi))) (combine nominal (columns is_nominal (table t)))) in
    let kept := filter (fun p => in_range mz (p_mass p)) nominal in
    match kept with
    | [] => Ok []
    | _ =>
        let! a := match t_data t with Some a => read_columns a start stop sel | None => from_events numba t kept start stop end in
        Ok [{| s_kind := Nominal; s_data := Elements a; s_axes := peaks_axes (map p_mass kept); s_table := Some nominal |}]
    end.
  (** Additional peaks (lines 1192-1327) *)
  Definition additional_signal : res (list signal) :=
    let additional := filter (fun p => negb (is_nominal p)) (table t) in
    let cols := columns (fun p => negb (is_nominal p)) (table t) in
    let order := argsort (map p_mass additional) in
    let nothing := {| p_label := []; p_mass := 0; p_low := 0; p_high := 0 |} in
    let sorted := take nothing additional order in
    let kept := filter (fun p => in_range mz (p_mass p)) sorted in
    let sel := map snd (filter (fun pi => in_range mz (p_mass (fst pi))) (combine sorted (take O cols order))) in
    match kept with
    | [] => Ok []
    | _ =>
        let! a := match t_data t with
                  | Some a =>
                      match mz with
                      | None => let! b := read_columns a start stop cols in filled [stop - start; nsegs; nx; zlen cols] (if list_eq_dec Nat.eq_dec order (seq 0 (List.length order)) then b else reorder order b)
                      | Some _ => let asc := argsort_nat sel in let! b := read_columns a start stop (take O sel asc) in Ok (reorder (argsort_nat asc) b)
                      end
                  | None => from_events numba t kept start stop
                  end in
        Ok [{| s_kind := Additional; s_data := Elements a; s_axes := peaks_axes (map p_mass kept); s_table := Some additional |}]
    end.
  (** The event list (lines 1329-1383) *)
  Definition event_signal : res (list signal) :=
    match t_events t with
    | Some ev =>
        let '(nw, ns, n) := e_shape ev in
        if (stop <=? nw) && (ns =? nsegs) && (n =? nx)
        then Ok [{| s_kind := EventList; s_data := Ragged {| e_shape := (stop - start, nsegs, nx); e_at := fun w => e_at ev (w + start) |};
                    s_axes := [depth_axis (stop - start); place_axis "y" nsegs (pixel_size t nx) true; place_axis "x" nx (pixel_size t nx) true]; s_table := None |}]
        else Err ValueError
    | None => Err KeyError
    end.
  (** Images (lines 1385-1444) *)
  Definition shape_eqb (a b : Z * Z) : bool := (fst a =? fst b) && (snd a =? snd b).
  Definition shape_le (l : list (Z * Z)) (a b : Z * Z) : bool :=
    let n c := countZ (shape_eqb c) l in
    (n a <? n b) || ((n a =? n b) && ((fst a <? fst b) || ((fst a =? fst b) && (snd a <=? snd b)))).
  Definition dominant (l : list (Z * Z)) : option (Z * Z) :=
    match l with [] => None | a :: r => Some (fold_left (fun best c => if shape_le l best c then c else best) r a) end.
  Definition images_signal : res (list signal) :=
    match t_images t with
    | Some images =>
        let l := sort_items images in
        match dominant (map (fun p => i_shape (snd p)) l) with
        | None => Err ValueError
        | Some (ny, n) =>
            let same := filter (fun p => shape_eqb (i_shape (snd p)) (ny, n)) l in
            let kept := map snd (firstn (Z.to_nat (stop - start)) (skipn (Z.to_nat start) same)) in
            match kept with
            | [] => Err ValueError
            | d :: _ => Ok [{| s_kind := Fib; s_data := Elements {| a_shape := [zlen kept; ny; n]; a_at := fun i => match i with [k; y; x] => i_at (nth (Z.to_nat k) kept d) y x | _ => 0 end |};
                               s_axes := [depth_axis (zlen kept); place_axis "y" ny (pixel_size t n) false; place_axis "x" n (pixel_size t n) false]; s_table := None |}]
            end
        end
    | None => Err KeyError
    end.
  Definition make (k : kind) : res (list signal) :=
    match k with
    | Sum => let! s := sum_signal t in Ok [s]
    | Nominal => nominal_signal
    | Additional => additional_signal
    | EventList => event_signal
    | Fib => images_signal
    end.
End Reader.
(** file_reader (lines 788-1449): the kinds asked for, or all *)
Inductive asked := Name (k : kind) | All | Unknown.
Definition ask (s : pystr) : asked := if eqb_str s (str "all") then All else match find (fun k => eqb_str s (str (kind_name k))) kinds with Some k => Name k | None => Unknown end.
Definition wants (l : list asked) (k : kind) : bool := existsb (fun a => match a with Name j => kind_eqb j k | All => true | Unknown => false end) l.
Definition tof_reader (numba : bool) (t : tof) (names : list pystr) (mz : option (Q * Q)) (depth : option (Z * Z)) : res (list signal) :=
  if negb (is_tofwerk t) then Err IOError else
  let l := map ask names in
  if existsb (fun a => match a with Unknown => true | _ => false end) l then Err ValueError else
  let nwrites := match t_writes t with Some n => n | None => 1 end in
  let nsegs := match t_segments t with Some n => n | None => 1 end in
  let! nx := match t_data t with
             | Some a => match nth_error (a_shape a) 2 with Some n => Ok n | None => Err IndexError end
             | None => Ok match t_events t with Some ev => snd (e_shape ev) | None => nsegs end
             end in
  let! range := match depth with
                | Some (a, b) => if (a <? 0) || (nwrites <? b) || (b <=? a) then Err ValueError else Ok (a, b)
                | None => Ok (0, nwrites)
                end in
  let! _ := match mz with Some (a, b) => if Qle_bool b a then Err ValueError else Ok tt | None => Ok tt end in
  let all := existsb (fun a => match a with All => true | _ => false end) l in
  if negb all && existsb (fun k => wants l k && negb (can t k)) kinds then Err ValueError else
  let! r := mapM (make numba t (fst range) (snd range) mz nsegs nx) (filter (fun k => wants l k && can t k) kinds) in
  Ok (List.concat r).
