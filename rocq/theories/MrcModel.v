(** Model of the MRC plugin, rsciio/mrc/_api.py. *)
From Verif Require Import Base Text Bytes HierModel DistModel.

(** * Names of virtual and external images *)

(** f"{x}_{count}". *)
Definition numbered (x : pystr) (c : Z) : pystr := x ++ 95 :: str_int c.

(** [_api.py:110-112]: the search for a free name.  [seen] maps names to counts; fuel
    stands for the loop (a theorem shows it is never used up). *)
Fixpoint free_count (fuel : nat) (x : pystr) (count : Z) (seen : list (pystr * Z)) : res Z :=
  match lookup (numbered x count) seen with
  | None => Ok count
  | Some _ => match fuel with O => Err OutOfFuel | S f => free_count f x (count + 1) seen end
  end.

(** [_api.py:101-117] _dedupe. *)
Fixpoint dedupe_loop (seq : list pystr) (seen : list (pystr * Z)) : res (list pystr) :=
  match seq with
  | [] => Ok []
  | x :: seq' =>
      match lookup x seen with
      | None => let! out := dedupe_loop seq' (put x 1 seen) in Ok (x :: out)
      | Some count =>
          let! c := free_count (List.length seen) x count seen in
          let! out := dedupe_loop seq' (put (numbered x c) 1 (put x (c + 1) seen)) in
          Ok (numbered x c :: out)
      end
  end.
Definition dedupe (seq : list pystr) : res (list pystr) := dedupe_loop seq [].

(** [_api.py:119-134, 164-165]: images and names for a directory listing given as pairs of
    path and name (the match of the regular expressions is not modelled): the paths are
    sorted, the names are in the order of the listing. *)
Definition related_images (listing : list (pystr * pystr)) : res (list pystr * list pystr) :=
  let! names := dedupe (map snd listing) in Ok (map fst (sort_items listing), names).

(** [_api.py:535-575]: the navigators; image [i] is stored under name [i].  As many names as
    images. *)
Fixpoint store {A} (images : list A) (names : list pystr) (d : list (pystr * A)) : list (pystr * A) :=
  match images, names with
  | im :: images', n :: names' => store images' names' (put (str "_sig_" ++ n) im d)
  | _, _ => d
  end.
Definition navigators (virt ext : list (pystr * pystr)) : res (list (pystr * pystr)) :=
  let! v := related_images virt in
  let! e := related_images ext in
  Ok (store (fst e) (snd e) (store (fst v) (snd v) [])).

(** * Volumes *)
(** [_api.py:252-266] get_data_type: bytes per element of each mode. *)
Definition mode_size (mode : Z) : res nat :=
  if mode =? 0 then Ok 1%nat else if mode =? 1 then Ok 2%nat else if mode =? 2 then Ok 4%nat
  else if mode =? 4 then Ok 8%nat else if mode =? 6 then Ok 2%nat else if mode =? 12 then Ok 2%nat
  else Err ValueError.

(** [_api.py:578-604]: header fields, position of the data, and the data as bit patterns in
    row-major order.  [big]: endianness ">".  The element type is built from numpy's
    native (little endian) types whatever the endianness.  The extended FEI header does
    not change the position: either it ends where the data starts or the reader seeks.
    The chunked memory map is the array itself (property C06). *)
Record volume := { v_shape : list Z; v_flat : list Z }.
Definition mrc_read (big : bool) (file : list Z) : res volume :=
  if (List.length file <? 1024)%nat then Err IndexError else
  let field i := dec_int big (slice i 4 file) in
  let nx := field 0%nat in let ny := field 4%nat in let nz := field 8%nat in
  let next := field 92%nat in
  let! size := mode_size (field 12%nat) in
  let count := nx * ny * nz in
  if Z.of_nat (List.length file) <? 1024 + next + count * Z.of_nat size then Err ValueError else
  Ok {| v_shape := [nz; ny; nx];
        v_flat := map (dec_int false) (records (Z.to_nat count) size (skipz (1024 + next) file)) |}.

(** [_api.py:600-602, 659-686]: axes of a file without DE metadata and navigation shape:
    length-one axes are removed from the data, the names are those of the last axes. *)
Definition mrc_axes (v : volume) : list (pystr * Z) :=
  let sh := if existsb (Z.eqb 1) (v_shape v) then squeeze_shape (v_shape v) else v_shape v in
  combine (skipn (3 - List.length sh) (map str ["z"; "y"; "x"]%string)) sh.
