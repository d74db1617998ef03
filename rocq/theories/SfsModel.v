(** Model of the SFS container reader of /repo/rsciio/bruker/_api.py (lines 68-449).
    Simplifications, for the whole file:
    - the container is one list of bytes; a read past the end is short, as in Python;
    - ceil(a / b) is exact (Python divides floats, exact below 2^53);
    - chunk sizes of 35 bytes or less (usable_chunk // 4 = 0) are refused;
    - the times, permissions and version are not kept; dates that datetime cannot hold
      (lines 98-100) do not raise;
    - zlib's decompression is a function [unzip] given by the caller;
    - the iterators are lists; an exception in an iterator is raised at once. *)
From Verif Require Import Base Text Bytes Utf8 HierModel.

Fixpoint firstz {A} (z : Z) (l : list A) : list A :=
  match l with [] => [] | x :: l' => if z <=? 0 then [] else x :: firstz (z - 1) l' end.
(** fn.seek(pos); fn.read(n) *)
Definition fread (f : list Z) (pos n : Z) : list Z := firstz n (skipz pos f).
Definition zlen {A} (l : list A) : Z := Z.of_nat (List.length l).
Definition u32 (f : list Z) (pos : Z) : res Z :=
  if pos <? 0 then Err IOError
  else let b := fread f pos 4 in if zlen b =? 4 then Ok (le_val b) else Err StructError.
Definition cdiv (a b : Z) : Z := - (- a / b).

(** The loops of lines 131-137 and 343-352: [n] chunks linked by the number of the next
    chunk in their headers, [per] bytes from each. *)
Fixpoint chain (n : nat) (f : list Z) (cs per addr : Z) : res (list Z) :=
  match n with
  | O => Ok []
  | S n' =>
      let! next := u32 f (cs * addr + 280) in
      let! r := chain n' f cs per next in
      Ok (fread f (cs * addr + 312) per ++ r)
  end.

Fixpoint words (l : list Z) : list Z :=
  match l with
  | a :: b :: c :: d :: l' => le_val [a; b; c; d] :: words l'
  | _ => []
  end.

(** _calc_pointer_table_size and _fill_pointer_table (lines 107-148). *)
Definition pointer_table (f : list Z) (cs ptr size : Z) : res (list Z) :=
  let u := cs - 32 in
  if u <=? 3 then Err ZeroDivisionError
  else
    let n := cdiv size u in
    let m := cdiv n (u / 4) in
    let! table := (if 1 <? m then chain (Z.to_nat m) f cs u ptr
                   else if cs * ptr + 312 <? 0 then Err IOError else Ok (fread f (cs * ptr + 312) u)) in
    let t := firstz (n * 4) table in
    if negb (zlen t mod 4 =? 0) then Err ValueError
    else Ok (map (fun x => x * cs + 312) (words t)).

(** SFSTreeItem (lines 84-105). *)
Record item := mkItem { i_size : Z; i_parent : Z; i_dir : bool; i_name : pystr; i_ptrs : list Z }.
Fixpoint drop_zeros (l : list Z) : list Z := match l with 0 :: l' => drop_zeros l' | _ => l end.
Definition strip_zeros (l : list Z) : list Z := rev (drop_zeros (rev (drop_zeros l))).
Definition parse_item (f : list Z) (cs : Z) (raw : list Z) : res item :=
  if negb (zlen raw =? 512) then Err StructError
  else
    let ptr := signed 4 (le_val (slice 0 4 raw)) in
    let size := le_val (slice 4 8 raw) in
    let parent := signed 4 (le_val (slice 40 4 raw)) in
    let dir := negb (le_val (slice 220 1 raw) =? 0) in
    let! name := utf8_decode (strip_zeros (slice 224 256 raw)) in
    if cs - 32 =? 0 then Err ZeroDivisionError
    else
      let! ps := (if dir then Ok [] else pointer_table f cs ptr size) in
      Ok (mkItem size parent dir name ps).
Fixpoint parse_items (f : list Z) (cs : Z) (raws : list (list Z)) : res (list item) :=
  match raws with
  | [] => Ok []
  | r :: rs => let! i := parse_item f cs r in let! is := parse_items f cs rs in Ok (i :: is)
  end.

(** read_piece (lines 150-184). *)
Definition ptr_at (ps : list Z) (i : Z) : res Z :=
  match (if i <? 0 then None else nth_error ps (Z.to_nat i)) with Some p => Ok p | None => Err IndexError end.
Definition read_piece (f : list Z) (u : Z) (ps : list Z) (off len : Z) : res (list Z) :=
  let fb := off / u in
  let fbo := off mod u in
  let lb := (off + len) / u in
  let lbco := (off + len) mod u in
  let! p := ptr_at ps fb in
  if negb (fb =? lb)
  then
    let first := fread f (p + fbo) (u - fbo) in
    let mid := flat_map (fun q => fread f q u) (slice (Z.to_nat (fb + 1)) (Z.to_nat (lb - (fb + 1))) ps) in
    if 0 <? lbco
    then let! q := ptr_at ps lb in Ok (first ++ mid ++ fread f q lbco)
    else Ok (first ++ mid)
  else Ok (fread f (p + fbo) len).

(** _iter_read_chunks (lines 186-208). *)
Fixpoint read_at (f : list Z) (u : Z) (ps : list Z) (idx : list Z) : res (list (list Z)) :=
  match idx with
  | [] => Ok []
  | i :: idx' => let! p := ptr_at ps i in let! r := read_at f u ps idx' in Ok (fread f p u :: r)
  end.
Definition iter_chunks (f : list Z) (u size : Z) (ps : list Z) : res (list (list Z)) :=
  let last := cdiv size u in
  let! a := read_at f u ps (zseq 0 (Z.to_nat (last - 1))) in
  (* pointers[-1] of an empty table *)
  let! p := ptr_at ps (last - 1) in
  let stuff := size mod u in
  Ok (a ++ [fread f p (if negb (stuff =? 0) then stuff else u)]).

(** setup_compression_metadata (lines 210-230): size and number of blocks. *)
Definition compression (f : list Z) (ps : list Z) : res (Z * Z) :=
  let! p := ptr_at ps 0 in
  let b := fread f p 16 in
  if negb (zlen b =? 16) then Err StructError
  else if le_val (slice 0 4 b) =? 1396916545 then Ok (le_val (slice 4 4 b), le_val (slice 12 4 b)) else Err ValueError.

(** _iter_read_compr_chunks (lines 232-252). *)
Fixpoint compr_chunks (unzip : list Z -> res (list Z)) (n : nat) (f : list Z) (u : Z) (ps : list Z) (off : Z) : res (list (list Z)) :=
  match n with
  | O => Ok []
  | S n' =>
      let! h := read_piece f u ps off 16 in
      if negb (zlen h =? 16) then Err StructError
      else
        let size := le_val (slice 0 4 h) in
        let! raw := read_piece f u ps (off + 16) size in
        let! b := unzip raw in
        let! r := compr_chunks unzip n' f u ps (off + 16 + size) in
        Ok (b :: r)
  end.

(** The file table (lines 325-362): the raw entries. *)
Definition raw_tree (f : list Z) (cs addr n : Z) : res (list Z) :=
  if cs - 32 =? 0 then Err ZeroDivisionError
  else
    let m := cdiv (n * 512) (cs - 32) in
    if m =? 1 then Ok (fread f (cs * addr + 312) (512 * n))
    else
      let! t := chain (Z.to_nat m) f cs ((cs - 32) / 512 * 512) addr in
      Ok (firstz (n * 512) t).
Definition table_items (f : list Z) (cs addr n : Z) : res (list item) :=
  let! raw := raw_tree f cs addr n in
  parse_items f cs (records (Z.to_nat n) 512 raw).

(** _flat_items_to_dict (lines 373-402). *)
Inductive vnode := VFile (i : nat) | VDir (d : list (pystr * vnode)).
Definition py_get {A} (l : list A) (i : Z) : res A :=
  let j := if i <? 0 then i + zlen l else i in
  match (if j <? 0 then None else nth_error l (Z.to_nat j)) with Some x => Ok x | None => Err IndexError end.
Definition set_nth {A} (n : nat) (x : A) (l : list A) : list A := firstn n l ++ x :: skipn (S n) l.
Definition extend_step (paths : list (list Z)) (f : nat) : res (list (list Z)) :=
  let p := nth f paths [] in
  if last p (-1) =? -1 then Ok paths
  else let! q := py_get paths (last p (-1)) in Ok (set_nth f (p ++ q) paths).
Fixpoint extend_pass (fs : list nat) (paths : list (list Z)) : res (list (list Z)) :=
  match fs with [] => Ok paths | f :: fs' => let! ps := extend_step paths f in extend_pass fs' ps end.
Fixpoint extend_all (fuel : nat) (paths : list (list Z)) : res (list (list Z)) :=
  if forallb (fun g => last g (-1) =? -1) paths then Ok paths
  else match fuel with
       | O => Err OutOfFuel
       | S k => let! ps := extend_pass (seq 0 (List.length paths)) paths in extend_all k ps
       end.
Fixpoint mapM {A B} (f : A -> res B) (l : list A) : res (list B) :=
  match l with [] => Ok [] | x :: l' => let! y := f x in let! r := mapM f l' in Ok (y :: r) end.

Fixpoint put_in (path : list pystr) (name : pystr) (v : vnode) (d : list (pystr * vnode)) : res (list (pystr * vnode)) :=
  match path with
  | [] => Ok (put name v d)
  | j :: path' =>
      match lookup j d with
      | None => let! d' := put_in path' name v [] in Ok (put j (VDir d') d)
      | Some (VDir e) => let! d' := put_in path' name v e in Ok (put j (VDir d') d)
      | Some (VFile _) => Err TypeError
      end
  end.
Fixpoint place (i : nat) (its : list item) (paths : list (list pystr)) (d : list (pystr * vnode)) : res (list (pystr * vnode)) :=
  match its, paths with
  | it :: its', p :: paths' =>
      let! d' := put_in p (i_name it) (if i_dir it then VDir [] else VFile i) d in
      place (S i) its' paths' d'
  | _, _ => Ok d
  end.
Definition root_name : pystr := str "root".
Definition flat_items (fuel : nat) (its : list item) : res (list (pystr * vnode)) :=
  let! paths := extend_all fuel (map (fun it => [i_parent it]) its) in
  let names := map i_name its ++ [root_name] in
  let! named := mapM (mapM (py_get names)) paths in
  place 0 its (map (@rev pystr) named) [].

(** _setup_vfs, end (lines 363-371) with _check_the_compresion (lines 404-416): the items,
    whether they are compressed, and the tree below "root". *)
Record vfs := mkVfs { v_items : list item; v_zlib : bool; v_root : list (pystr * vnode) }.
Definition check_compression (f : list Z) (its : list item) : res bool :=
  match filter (fun it => negb (i_dir it)) its with
  | [] => Err AttributeError
  | it :: _ => let! p := ptr_at (i_ptrs it) 0 in Ok (le_val (fread f p 4) =? 1396916545)
  end.
Definition setup_vfs (fuel : nat) (f : list Z) (cs addr n : Z) : res vfs :=
  let! its := table_items f cs addr n in
  let! z := check_compression f its in
  let! _ := (if z then mapM (fun it => compression f (i_ptrs it)) (filter (fun it => negb (i_dir it)) its) else Ok []) in
  let! t := flat_items fuel its in
  match lookup root_name t with
  | Some (VDir d) => Ok (mkVfs its z d)
  | Some (VFile _) => Err OtherError
  | None => Err KeyError
  end.
(** SFS_reader.__init__ (lines 304-323). *)
Definition sfs_open (fuel : nat) (f : list Z) : res (Z * vfs) :=
  if negb (eqb_str (fread f 0 8) (str "AAMVHFSS")) then Err TypeError
  else
    let b := fread f 292 8 in
    let c := fread f 320 12 in
    if negb ((zlen b =? 8) && (zlen c =? 12)) then Err StructError
    else
      let cs := le_val (slice 4 4 b) in
      let! v := setup_vfs fuel f cs (le_val (slice 0 4 c)) (le_val (slice 4 4 c)) in
      Ok (cs, v).
(** get_file (lines 418-449), on the parts of the path between slashes. *)
Fixpoint get_path (path : list pystr) (n : vnode) : res vnode :=
  match path with
  | [] => Ok n
  | j :: path' =>
      match n with
      | VFile _ => Err TypeError
      | VDir d => match lookup j d with Some n' => get_path path' n' | None => Err KeyError end
      end
  end.
(** get_iter_and_properties (lines 254-278): chunks and the nominal chunk size. *)
Definition file_chunks (unzip : list Z -> res (list Z)) (f : list Z) (cs : Z) (zlib : bool) (it : item) : res (list (list Z) * Z) :=
  let u := cs - 32 in
  if zlib
  then let! (bs, n) := compression f (i_ptrs it) in
       let! l := compr_chunks unzip (Z.to_nat n) f u (i_ptrs it) 128 in Ok (l, bs)
  else let! l := iter_chunks f u (i_size it) (i_ptrs it) in Ok (l, u).
