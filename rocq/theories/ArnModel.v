(** Arina files: /repo/rsciio/arina/_api.py.
    A dataset has a type of numbers, a shape and pixels; the datasets are in the order of the hdf5 group.
    Simplifications: numbers are exact (float types keep all values); a flatfield must have the shape of the
    images and not be empty; a file that does not exist is left out; log messages are left out. *)
From Coq Require Import QArith.
From Verif Require Import Base DistModel RowMajor SfsModel.
Local Open Scope Z_scope.

Inductive ty := UInt (bits : Z) | SInt (bits : Z) | Float.
Definition truncate (q : Q) : Z := Z.quot (Qnum q) (Zpos (Qden q)).
(** astype, and assignment to an array of the type *)
Definition cast (t : ty) (q : Q) : Q :=
  match t with
  | Float => q
  | UInt b => inject_Z (truncate q mod 2 ^ b)
  | SInt b => inject_Z ((truncate q + 2 ^ (b - 1)) mod 2 ^ b - 2 ^ (b - 1))
  end.
Record dataset := { s_type : ty; s_count : Z; s_height : Z; s_width : Z; s_at : Z -> Z -> Z -> Z }.
Inductive dim := Auto | Dim (n : Z).
Inductive nav := Square | Scalar (d : dim) | Pair (a b : dim).
Record flat := { f_height : Z; f_width : Z; f_at : Z -> Z -> Q }.
Record arina := { a_shape : list Z; a_at : Z -> Z -> Z -> Z -> Q; a_scale : Q; a_angstrom : bool }.

(** navigation_shape (lines 86-99) *)
Definition quotient (n : Z) (d : dim) : res Z := match d with Auto => Err TypeError | Dim 0 => Err ZeroDivisionError | Dim m => Ok (n / m) end.
Definition nav_shape (n : Z) (v : nav) : res (Z * Z) :=
  let p := match v with Square => (Dim (Z.sqrt n), Dim (Z.sqrt n)) | Scalar d => (d, Auto) | Pair a b => (a, b) end in
  let! p := match p with
            | (Auto, d) => let! q := quotient n d in match d with Dim m => Ok (q, m) | Auto => Err TypeError end
            | (Dim m, Auto) => let! q := quotient n (Dim m) in Ok (m, q)
            | (Dim a, Dim b) => Ok (a, b)
            end in
  if n =? fst p * snd p then Ok p else Err ValueError.
(** np.median *)
Fixpoint insert (x : Q) (l : list Q) : list Q := match l with [] => [x] | y :: l' => if Qle_bool x y then x :: l else y :: insert x l' end.
Definition sort (l : list Q) : list Q := fold_right insert [] l.
Definition median (l : list Q) : Q :=
  let s := sort l in let n := List.length s in
  if Nat.odd n then nth (n / 2) s 0%Q else ((nth (n / 2 - 1) s 0 + nth (n / 2) s 0) / 2)%Q.
Definition flat_values (f : flat) : list Q := map (fun i => match i with [r; c] => f_at f r c | _ => 0%Q end) (box_indices [f_height f; f_width f]).
(** correction_factors (lines 116-121) *)
Definition factor (f : option flat) (r c : Z) : Q :=
  match f with None => 1%Q | Some f => if Qeq_bool (f_at f r c) 0 then 1%Q else (median (flat_values f) / f_at f r c)%Q end.
(** bin2D (lines 254-278) *)
Definition block_mean (b : Z) (img : Z -> Z -> Q) (r c : Z) : Q :=
  (fold_right (fun i s => Qplus (match i with [x; y] => img (r * b + x)%Z (c * b + y)%Z | _ => 0%Q end) s) 0 (box_indices [b; b]) / inject_Z (b * b))%Q.
Definition bin2d (b h w : Z) (img : Z -> Z -> Q) : res (Z * Z * (Z -> Z -> Q)) :=
  if b =? 1 then Ok (h, w, img)
  else if h * w =? (h / b) * b * (w / b) * b then Ok (h / b, w / b, block_mean b img) else Err ValueError.
(** array_3D[image_index] = ... (lines 207-251): a row, or column, of one is repeated *)
Definition store (t : ty) (rows cols : Z) (p : Z * Z * (Z -> Z -> Q)) : res (Z -> Z -> Q) :=
  let '(h, w, img) := p in
  if ((h =? rows) || (h =? 1)) && ((w =? cols) || (w =? 1)) then Ok (fun r c => cast t (img (if h =? 1 then 0 else r) (if w =? 1 then 0 else c))) else Err ValueError.
Definition process (t : ty) (rows cols b : Z) (f : option flat) (d : dataset) (i : Z) : res (Z -> Z -> Q) :=
  let! _ := match f with Some f => if (f_height f =? s_height d) && (f_width f =? s_width d) then Ok tt else Err ValueError | None => Ok tt end in
  let! p := bin2d b (s_height d) (s_width d) (fun r c => (cast t (inject_Z (s_at d i r c)) * factor f r c)%Q) in
  store t rows cols p.
Definition process_dataset t rows cols b f (d : dataset) : res (list (Z -> Z -> Q)) := mapM (process t rows cols b f d) (zseq 0 (Z.to_nat (s_count d))).
Definition array_type (dtype : option ty) (f : option flat) (scan : ty) : ty :=
  match f, dtype with
  | Some _, _ => Float
  | None, Some t => t
  | None, None => match scan with UInt 32 => UInt 16 | t => t end
  end.
(** file_reader (lines 37-195); the pixel size is that of the other file, if it can be read *)
Definition arina_reader (is_lazy : bool) (v : nav) (b : Z) (dtype : option ty) (f : option flat) (pixel_size : option Q) (file : list dataset) : res arina :=
  if is_lazy then Err NotImplementedError else
  let n := fold_right Z.add 0 (map s_count file) in
  match rev file with
  | [] => Err NameError
  | d :: _ =>
      if b =? 0 then Err ZeroDivisionError else
      let w := s_width d / b in let h := s_height d / b in
      let! p := nav_shape n v in
      if (w <? 0) || (h <? 0) then Err ValueError else
      let! l := mapM (process_dataset (array_type dtype f (s_type d)) w h b f) file in
      let frames := List.concat l in
      if (fst p <? 0) || (snd p <? 0) then Err ValueError else
      Ok {| a_shape := [fst p; snd p; w; h]; a_at := fun x y r c => nth (Z.to_nat (x * snd p + y)) frames (fun _ _ => 0%Q) r c;
            a_scale := match pixel_size with Some q => (q * 10)%Q | None => 1%Q end; a_angstrom := match pixel_size with Some _ => true | None => false end |}
  end.
