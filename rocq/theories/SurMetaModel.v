(** Model of /repo/rsciio/digitalsurf/_api.py: parse_metadata (62-125), _get_Zname_Zunit (1013-1031),
    _choose_signal_type and _build_generic_metadata (1620-1689), _build_original_metadata (1691-1729),
    _check_comments (1860-1916), _get_comment_dict (1918-1981) and _stringify_dict (1983-2026).
    Simplifications: values that are not dictionaries are of any type, given with their text and with
    ast.literal_eval (the text itself where that fails); headers are left out of original_metadata;
    dictionaries are lists of keys and values in order of insertion. *)
From Verif Require Import Base Text HierModel.
Local Open Scope Z_scope.

(** str.splitlines *)
Definition is_break (c : Z) : bool := ((10 <=? c) && (c <=? 13)) || ((28 <=? c) && (c <=? 30)) || (c =? 133) || (c =? 8232) || (c =? 8233).
Fixpoint splitlines (s : pystr) : list pystr :=
  match s with
  | [] => []
  | c :: s' =>
      if is_break c then [] :: match s' with d :: s'' => if (c =? 13) && (d =? 10) then splitlines s'' else splitlines s' | [] => [] end
      else match splitlines s' with [] => [[c]] | w :: ws => (c :: w) :: ws end
  end.

Section Values.
  Variable A : Type.
  (** str, ast.literal_eval and text as a value *)
  Variable show : A -> pystr.
  Variable eval : pystr -> A.
  Variable raw : pystr -> A.
  Inductive tree := Leaf (a : A) | Node (items : list (pystr * tree)).
  (** str of a dictionary *)
  Variable repr : list (pystr * tree) -> pystr.

  (** * Reading comments *)
  Definition sections := list (pystr * list (pystr * A)).
  Definition prefix : pystr := str "$".
  Definition ignored (line : pystr) : bool := match strip line with [] => true | _ => startswith (str "@@") line end.
  Definition titlestart : pystr := prefix ++ str "_".
  Definition add (title key : pystr) (a : A) (d : sections) : sections := match lookup title d with Some s => put title (put key a s) d | None => d end.
  Definition parse_line (st : sections * option pystr) (line : pystr) : sections * option pystr :=
    let (d, main) := st in
    if ignored line then st
    else if startswith titlestart line then let t := strip (skipn 2 line) in (put t [] d, Some t)
    else if startswith prefix line then
      let '(d, t) := match main with Some t => (d, t) | None => (put (str "UNTITLED") [] d, str "UNTITLED") end in
      let (k, rest) := match split_char 61 line with [] => ([], []) | k :: r => (k, r) end in
      let key := strip (skipn 1 k) in
      let words := split_char 32 (strip (match rest with v :: _ => v | [] => [] end)) in
      let v := match words with w :: _ => w | [] => [] end in
      let d := add t key (if eqb_str key (str "Grating") then raw v else eval v) d in
      (match words with _ :: u :: _ => add t (key ++ str "_units") (raw u) d | _ => d end, Some t)
    else st.
  Definition parse_metadata (comment : pystr) : sections := fst (fold_left parse_line (splitlines comment) ([], None)).
  (** _check_comments *)
  Definition is_title (line : pystr) : bool := startswith titlestart line.
  Definition is_entry (line : pystr) : bool := contains (str "=") line && startswith prefix line.
  Definition check_comments (comment : pystr) : bool :=
    let lines := filter (fun l => negb (ignored l)) (splitlines comment) in
    forallb (fun l => is_title l || is_entry l) lines && negb (match filter (fun l => is_title l || is_entry l) lines with [] => true | _ => false end).
  Fixpoint lstrip_us (s : pystr) : pystr := match s with c :: s' => if c =? 95 then lstrip_us s' else s | [] => [] end.
  (** The value of "Parsed", if any *)
  Definition parsed (comment : pystr) : option sections :=
    if check_comments comment then Some (fold_left (fun d ks => put (lstrip_us (fst ks)) (snd ks) d) (parse_metadata comment) []) else None.
  (** _build_original_metadata: keys, without headers *)
  Definition object_key (i j : Z) : pystr := str "Object_" ++ str_int i ++ str "_Channel_" ++ str_int j.
  Definition of_sections (d : sections) : tree := Node (map (fun ks => (fst ks, Node (map (fun ka => (fst ka, Leaf (snd ka))) (snd ks)))) d).
  Definition original_metadata (objects channels : Z) (comments : list pystr) : res (list (pystr * tree)) :=
    let c := Z.max channels 1 in
    fold_left (fun r ij => let! d := r in
        let i := ij / c in let j := ij mod c in
        let k := (i + 1) * (j + 1) in
        match nth_error comments (Z.to_nat (k - 1)) with
        | None => Err IndexError
        | Some s => Ok (put (object_key i j) (Node (match parsed s with Some d => [(str "Parsed", of_sections d)] | None => [] end)) d)
        end) (zseq 0 (Z.to_nat (objects * c))) (Ok []).

  (** * Writing comments *)
  Definition show_tree (t : tree) : pystr := match t with Leaf a => show a | Node l => repr l end.
  Fixpoint pop_key (k : pystr) (q : list (pystr * tree)) : option (tree * list (pystr * tree)) :=
    match q with
    | [] => None
    | (k', v) :: q' => if eqb_str k k' then Some (v, q') else match pop_key k q' with Some (u, r) => Some (u, (k', v) :: r) | None => None end
    end.
  Fixpoint stringify (fuel : nat) (q : list (pystr * tree)) : res pystr :=
    match fuel, q with
    | _, [] => Ok []
    | O, _ => Err OutOfFuel
    | S f, (k, Node l) :: q' => let! r := stringify f (l ++ q') in Ok (str "$_" ++ k ++ [10] ++ r)
    | S f, (k, Leaf a) :: q' =>
        match pop_key (k ++ str "_units") q' with
        | Some (u, q'') => let! r := stringify f q'' in Ok (str "$" ++ k ++ str " = " ++ show a ++ [32] ++ show_tree u ++ [10] ++ r)
        | None => let! r := stringify f q' in Ok (str "$" ++ k ++ str " = " ++ show a ++ [10] ++ r)
        end
    end.
  Fixpoint tree_size (t : tree) : nat := match t with Leaf _ => 1 | Node l => S (fold_right (fun kt n => tree_size (snd kt) + n) O l) end%nat.
  Definition comment_of (d : list (pystr * tree)) : res pystr := stringify (tree_size (Node d)) d.
  (** re.match("Object_\d*_Channel_\d*") *)
  Fixpoint skip_digits (s : pystr) : pystr := match s with c :: s' => if is_digit c then skip_digits s' else s | [] => [] end.
  Definition is_object (k : pystr) : bool := startswith (str "Object_") k && startswith (str "_Channel_") (skip_digits (skipn 7 k)).
  (** _get_comment_dict *)
  Inductive method := Raw | Custom (d : list (pystr * tree)) | Off | Auto | Other.
  Fixpoint first_parsed (fields : list (list (pystr * tree))) : list (pystr * tree) :=
    match fields with
    | [] => []
    | f :: fields' =>
        match lookup (str "Parsed") f with
        | Some (Node (x :: l)) => x :: l
        | Some c => [(str "Parsed", c)]
        | None => first_parsed fields'
        end
    end.
  Definition comment_dict (m : method) (omd : list (pystr * tree)) : res (list (pystr * tree)) :=
    match m with
    | Raw => Ok omd
    | Custom d => Ok d
    | Off => Ok []
    | Auto =>
        match flat_map (fun kt : pystr * tree => match snd kt with Node l => if is_object (fst kt) then [l] else [] | Leaf _ => [] end) omd with
        | [] => Ok omd
        | fields => Ok (first_parsed fields)
        end
    | Other => Err OtherError
    end.
End Values.

(** * Quantity *)
Definition strip_of (cs : list Z) (s : pystr) : pystr :=
  let fix left (s : pystr) := match s with c :: s' => if existsb (Z.eqb c) cs then left s' else s | [] => [] end in rev (left (rev (left s))).
(** _get_Zname_Zunit *)
Definition split_quantity (q : pystr) : pystr * pystr :=
  match rev (split_char 32 (strip q)) with
  | [] => ([], [])
  | [w] => (w, [])
  | u :: r => (join_char 32 (rev r), strip_of (str "()") u)
  end.
(** quantity in _build_generic_metadata *)
Definition quantity (name unit : pystr) : pystr :=
  let u := strip_of (str " ()[]" ++ [9; 10]) unit in
  strip (name ++ [32] ++ match u with [] => [] | _ => str "(" ++ u ++ str ")" end).
Definition signal_type (name : pystr) : pystr := if eqb_str name (str "CL Intensity") then str "CL" else [].
(** "{:0nd}" *)
Definition pad (c : Z) (n : nat) (z : Z) : pystr := let s := str_int z in match s with 45 :: d => if c =? 48 then 45 :: repeat c (n - List.length s) ++ d else repeat c (n - List.length s) ++ s | _ => repeat c (n - List.length s) ++ s end.
Definition date_text (y m d : Z) : pystr := if (y =? 0) && (m =? 0) && (d =? 0) then [] else pad 32 4 y ++ str "-" ++ pad 48 2 m ++ str "-" ++ pad 48 2 d.
Definition time_text (h m s : Z) : pystr := if (h =? 0) && (m =? 0) && (s =? 0) then [] else pad 48 2 h ++ str ":" ++ pad 48 2 m ++ str ":" ++ pad 48 2 s.
(** Date and time, empty if all fields are zero, and the fields written from them, lines 1128-1139:
    a datetime, a date or a time; only the first has all attributes.  dateutil gives back the
    numbers of a text. *)
Definition filled (t : Z * Z * Z) : option (Z * Z * Z) := let '(a, b, c) := t in if (a =? 0) && (b =? 0) && (c =? 0) then None else Some t.
Definition date_fields (weekday : Z * Z * Z -> Z) (date time : option (Z * Z * Z)) : res (list Z) :=
  match date, time with
  | Some (y, mo, d), Some (h, mi, s) => Ok [s; mi; h; d; mo; y; weekday (y, mo, d)]
  | None, None => Ok [0; 0; 0; 0; 0; 0; 0]
  | _, _ => Err AttributeError
  end.
