(** Model of the reading of PantaRhei files, /repo/rsciio/pantarhei/_restricted_unpickling.py
    lines 47-91 and /repo/rsciio/pantarhei/_api.py lines 103-133.
    Simplifications: the pickle machine of the Python library works on operations that are
    already decoded from bytes; operations that only push plain data are one operation;
    numpy and the import system resolve every name that find_class lets through; the cache of
    extension codes is empty.  Of the deflate format only stored blocks are decoded
    (other blocks are a [NotImplementedError]). *)
From Verif Require Import Base Text Bytes Utf8 RowMajor HierModel SfsModel NpyModel.

(** * RestrictedUnpickler *)
(** white_list (lines 47-54) *)
Definition white_list : list (pystr * list pystr) :=
  [(str "numpy._core.multiarray", [str "_reconstruct"; str "scalar"]);
   (str "numpy.core.multiarray", [str "_reconstruct"; str "scalar"]);
   (str "numpy", [str "ndarray"; str "dtype"]);
   (str "_codecs", [str "encode"])].
(** find_class (lines 56-68): whether the name is handed to pickle.Unpickler *)
Definition find_class (m n : pystr) : bool :=
  match lookup m white_list with Some names => existsb (eqb_str n) names | None => false end.

(** Operations of the pickle machine (pickle.Unpickler of the Python library) *)
Inductive op :=
| OText (s : pystr)      (** any operation that pushes a text *)
| OPlain                 (** any operation that pushes a number, bytes, an empty container *)
| OMark | OPop | OPopMark | ODup
| OTuple                 (** everything above the mark to one value; also lists, dicts, sets *)
| OTupleN (n : nat)      (** TUPLE1, TUPLE2, TUPLE3 *)
| OAppend (n : nat)      (** APPEND, SETITEM: add [n] values to the container below *)
| OAppends               (** APPENDS, SETITEMS, ADDITEMS *)
| OGlobal (m n : pystr) | OStackGlobal | OExt (code : Z)
| OInst (m n : pystr) | OObj
| OReduce | ONewObj | ONewObjEx | OBuild
| OPut (i : Z) | OGet (i : Z)
| OPersistent            (** no persistent_load: an error *)
| OStop.
Inductive val :=
| VText (s : pystr) | VPlain | VCont (l : list val)
| VGlobal (m n : pystr)
| VCall (f : val) (args : list val)
| VState (x : val) (state : val).
Record st := { stack : list val; meta : list (list val); memo : list (Z * val); trace : list (pystr * pystr); calls : list val }.
Inductive outcome :=
| Done (v : val) (s : st)
| Refused (m n : pystr) (s : st)      (** InvalidPickleError *)
| Failed (e : exn) (s : st).
Inductive step_result := Next (s : st) | Final (o : outcome).

Definition with_stack (l : list val) (s : st) : st := {| stack := l; meta := meta s; memo := memo s; trace := trace s; calls := calls s |}.
Definition push (v : val) (s : st) : st := with_stack (v :: stack s) s.
Definition fail (e : exn) (s : st) : step_result := Final (Failed e s).
(** A name is looked up and, if let through, noted and pushed. *)
Definition resolve (m n : pystr) (s : st) : step_result :=
  if find_class m n then
    Next {| stack := VGlobal m n :: stack s; meta := meta s; memo := memo s; trace := (m, n) :: trace s; calls := calls s |}
  else Final (Refused m n s).
Definition call (f : val) (args : list val) (s : st) : st :=
  {| stack := VCall f args :: stack s; meta := meta s; memo := memo s; trace := trace s; calls := f :: calls s |}.
(** pop_mark: what is above the mark, and the state below *)
Definition pop_mark (s : st) : option (list val * st) :=
  match meta s with
  | l :: m => Some (rev (stack s), {| stack := l; meta := m; memo := memo s; trace := trace s; calls := calls s |})
  | [] => None
  end.
Fixpoint memo_get (i : Z) (l : list (Z * val)) : option val :=
  match l with [] => None | (j, v) :: l' => if i =? j then Some v else memo_get i l' end.
Definition step (registry : Z -> option (pystr * pystr)) (o : op) (s : st) : step_result :=
  match o with
  | OText t => Next (push (VText t) s)
  | OPlain => Next (push VPlain s)
  | OMark => Next {| stack := []; meta := stack s :: meta s; memo := memo s; trace := trace s; calls := calls s |}
  | OPop => match stack s with _ :: l => Next (with_stack l s) | [] => match pop_mark s with Some (_, s') => Next s' | None => fail IndexError s end end
  | OPopMark => match pop_mark s with Some (_, s') => Next s' | None => fail IndexError s end
  | ODup => match stack s with v :: _ => Next (push v s) | [] => fail IndexError s end
  | OTuple => match pop_mark s with Some (l, s') => Next (push (VCont l) s') | None => fail IndexError s end
  | OTupleN n => if (List.length (stack s) <? n)%nat then fail IndexError s else Next (with_stack (VCont (rev (firstn n (stack s))) :: skipn n (stack s)) s)
  | OAppend n =>
      match skipn n (stack s) with
      | VCont l :: r => Next (with_stack (VCont (l ++ rev (firstn n (stack s))) :: r) s)
      | x :: r => Next (with_stack (VState x (VCont (rev (firstn n (stack s)))) :: r) s)
      | [] => fail IndexError s
      end
  | OAppends =>
      match pop_mark s with
      | Some (l, s') => match stack s' with
                        | VCont l0 :: r => Next (with_stack (VCont (l0 ++ l) :: r) s')
                        | x :: r => Next (with_stack (VState x (VCont l) :: r) s')
                        | [] => fail IndexError s'
                        end
      | None => fail IndexError s
      end
  | OGlobal m n => resolve m n s
  | OStackGlobal =>
      match stack s with
      | VText n :: VText m :: l => resolve m n (with_stack l s)
      | _ :: _ :: _ => fail OtherError s
      | _ => fail IndexError s
      end
  | OExt c => match registry c with Some (m, n) => resolve m n s | None => fail ValueError s end
  | OInst m n =>
      match pop_mark s with
      | Some (args, s') => match resolve m n s' with
                           | Next s2 => match stack s2 with f :: l => Next (call f args (with_stack l s2)) | [] => fail IndexError s2 end
                           | r => r
                           end
      | None => fail IndexError s
      end
  | OObj => match pop_mark s with
            | Some (f :: args, s') => Next (call f args s')
            | _ => fail IndexError s
            end
  | OReduce => match stack s with VCont args :: f :: l => Next (call f args (with_stack l s)) | _ :: _ :: _ => fail TypeError s | _ => fail IndexError s end
  | ONewObj => match stack s with VCont args :: f :: l => Next (call f args (with_stack l s)) | _ :: _ :: _ => fail TypeError s | _ => fail IndexError s end
  | ONewObjEx => match stack s with kw :: VCont args :: f :: l => Next (call f (args ++ [kw]) (with_stack l s)) | _ :: _ :: _ :: _ => fail TypeError s | _ => fail IndexError s end
  | OBuild => match stack s with state :: x :: l => Next (with_stack (VState x state :: l) s) | _ => fail IndexError s end
  | OPut i => match stack s with v :: _ => Next {| stack := stack s; meta := meta s; memo := (i, v) :: memo s; trace := trace s; calls := calls s |} | [] => fail IndexError s end
  | OGet i => match memo_get i (memo s) with Some v => Next (push v s) | None => fail KeyError s end
  | OPersistent => fail OtherError s
  | OStop => match stack s with v :: l => Final (Done v (with_stack l s)) | [] => fail IndexError s end
  end.
(** Unpickler.load(); a stream that ends without STOP is an EOFError *)
Fixpoint run (registry : Z -> option (pystr * pystr)) (ops : list op) (s : st) : outcome :=
  match ops with
  | [] => Failed OtherError s
  | o :: ops' => match step registry o s with Next s' => run registry ops' s' | Final r => r end
  end.
Definition start : st := {| stack := []; meta := []; memo := []; trace := []; calls := [] |}.
Definition load registry (ops : list op) : outcome := run registry ops start.

(** read_pickled_array (lines 71-91); [decode] turns the bytes after the header into operations *)
Definition has_object (dt : pystr) : bool := contains (str "O") dt.
Definition read_pickled registry (decode : list Z -> list op) (f : list Z) : outcome :=
  match inspect f with
  | Err e => Failed e start
  | Ok (offset, _, dt, _) => if has_object dt then load registry (decode (skipz offset f)) else Failed ValueError start
  end.

(** * Lazy reading of the data (_api.py lines 103-131) *)
(** Stored blocks of the deflate format *)
Fixpoint inflate (fuel : nat) (b : list Z) : res (list Z) :=
  match fuel with
  | O => Err OutOfFuel
  | S k =>
      match b with
      | h :: l0 :: l1 :: _ :: _ :: r =>
          if negb (Z.land h 6 =? 0) then Err NotImplementedError
          else
            let n := le_val [l0; l1] in
            if zlen r <? n then Err OtherError
            else if Z.odd h then Ok (firstz n r)
            else let! rest := inflate k (skipz n r) in Ok (firstz n r ++ rest)
      | _ => Err OtherError
      end
  end.
(** The content of an entry of a zip file; methods 0 (stored) and 8 (deflated) *)
Definition content (method : Z) (payload : list Z) : res (list Z) :=
  if method =? 0 then Ok payload else if method =? 8 then inflate (S (List.length payload)) payload else Err NotImplementedError.
(** [f]: the file; [off], [method], [payload]: where the local header of data.npy is and what
    zipfile knows of it. *)
Definition data_offset (f : list Z) (off offset_in_npy : Z) : res Z :=
  let h := firstz 30 (skipz off f) in
  let b := firstz 4 (skipz 26 h) in
  if negb (zlen b =? 4) then Err StructError
  else Ok (off + 30 + le_val (firstz 2 b) + le_val (skipz 2 b) + offset_in_npy).
Definition read_data_lazy (f : list Z) (off method : Z) (payload : list Z) : res (list Z * list (list Z)) :=
  let! npy := content method payload in
  let! (q, _) := inspect npy in
  let '(offset_in_npy, sh, dt) := q in
  let! o := data_offset f off offset_in_npy in
  let! l := map_file f o sh dt in Ok (sh, l).
(** prz_file["data"] *)
Definition read_data (method : Z) (payload : list Z) : res (list Z * list (list Z)) :=
  let! npy := content method payload in read_lazy npy.
