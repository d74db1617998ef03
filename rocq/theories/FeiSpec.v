(** What an event stream means, independently of the decoders: an event word belongs to
    the pixel whose number is the count of markers before it. *)
From Verif Require Import Base.

Definition is_marker (v : Z) : bool := v =? 65535.

(** The events of a stream, each with the number of markers before it; [m] markers have
    been seen already. *)
Fixpoint events_from (m : Z) (s : list Z) : list (Z * Z) :=
  match s with
  | [] => []
  | v :: s' => if is_marker v then events_from (m + 1) s' else (m, v) :: events_from m s'
  end.
Definition events (s : list Z) : list (Z * Z) := events_from 0 s.

(** Event [(m, v)] lies in frame [f], row [y], column [x], channel bin [c]. *)
Definition in_cell (ysize xsize rebin f y x c : Z) (e : Z * Z) : bool :=
  (fst e / (ysize * xsize) =? f) && (fst e mod (ysize * xsize) =? y * xsize + x)
  && (snd e / rebin =? c).

(** Number of events of the stream in a cell of the cube. *)
Definition event_count (ysize xsize rebin : Z) (s : list Z) (f y x c : Z) : Z :=
  countZ (in_cell ysize xsize rebin f y x c) (events s).

(** Event [(m, v)] lies in one of the frames [first <= f < last], row [y], ... *)
Definition in_cell_frames (ysize xsize rebin first last y x c : Z) (e : Z * Z) : bool :=
  (first <=? fst e / (ysize * xsize)) && (fst e / (ysize * xsize) <? last)
  && (fst e mod (ysize * xsize) =? y * xsize + x) && (snd e / rebin =? c).
Definition event_count_frames (ysize xsize rebin first last : Z) (s : list Z) (y x c : Z) : Z :=
  countZ (in_cell_frames ysize xsize rebin first last y x c) (events s).

(** All events of the selected frames have a channel bin below [nch]. *)
Definition channels_fit (ysize xsize rebin first last nch : Z) (s : list Z) : Prop :=
  forall m v, In (m, v) (events s) ->
    first <= m / (ysize * xsize) < last -> v / rebin < nch.
