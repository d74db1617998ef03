(** Model of rsciio/utils/path.py. *)
From Verif Require Import Base Text.

(** A path: its parent and its last component (pathlib's [parent] and [name]).  Path
    normalisation by pathlib is not modelled. *)
Definition path := (pystr * pystr)%type.
Definition eqb_path (a b : path) : bool := eqb_str (fst a) (fst b) && eqb_str (snd a) (snd b).

(** [name.rfind('.')]: index of the last dot. *)
Fixpoint rfind_dot (s : pystr) : option nat :=
  match s with
  | [] => None
  | c :: s' => match rfind_dot s' with
               | Some i => Some (S i)
               | None => if c =? 46 then Some O else None
               end
  end.

(** pathlib's [stem] and [suffix] (CPython up to 3.13): split at the last dot unless it is
    the first or the last character. *)
Definition stem_suffix (name : pystr) : pystr * pystr :=
  match rfind_dot name with
  | Some i => if ((0 <? i) && (i <? List.length name - 1))%nat
              then (firstn i name, skipn i name) else (name, [])
  | None => (name, [])
  end.

(** [path.py:39-56] append2pathname. *)
Definition append2pathname (p : path) (to_append : pystr) : path :=
  let (stem, suffix) := stem_suffix (snd p) in (fst p, stem ++ to_append ++ suffix).

(** [path.py:59-88] incremental_filename.  [is_file] is the state of the file system;
    [depth] is how many nested calls the interpreter still allows: one more raises
    RecursionError ([OtherError]). *)
Fixpoint incremental_filename (depth : nat) (is_file : path -> bool) (p : path) (i : Z) : res path :=
  match depth with
  | O => Err OtherError
  | S depth' =>
      if is_file p then
        let new := append2pathname p (45 :: str_int i) in
        if is_file new then incremental_filename depth' is_file p (i + 1) else Ok new
      else Ok p
  end.

(** [path.py:130-138]: the questions asked once the file is known to exist.  [answers] is
    what the user types, one entry per question; when it is used up, [input] raises
    (end of file) and line 141-149 returns False.  Only the ASCII part of [str.lower] is
    modelled: no other character is lowered to "y" or "n". *)
Fixpoint ask_again (answer : pystr) (answers : list pystr) : bool :=
  if eqb_str answer (str "y") then true
  else if eqb_str answer (str "n") then false
  else match answers with
       | [] => false
       | a :: rest => ask_again a rest
       end.

(** [path.py:110-151] overwrite.  [is_zspy] is [os.path.splitext(filename)[1] == ".zspy"]. *)
Definition overwrite (is_file is_dir is_zspy : bool) (answers : list pystr) : bool :=
  if is_file || (is_dir && is_zspy) then
    match answers with
    | [] => false
    | a :: rest => ask_again (lower a) rest
    end
  else true.
