(** Model of /repo/rsciio/utils/xml.py: sanitize_msxml_float (lines 39-76), XmlToDict
    (lines 189-291) and xml2dtb (lines 294-316) with DTBox of utils/_dictionary.py
    (add_node, set_item).
    Simplifications: an element is its tag, attributes, text, tail and children, a missing
    text or tail is an empty one; tags hold no dots (DTBox would split them);
    ast.literal_eval is a function given, its errors other than ValueError and SyntaxError
    are left out, and a literal that is not a text is one opaque value. *)
From Verif Require Import Base Text HierModel SfsModel NpyModel.

(** * Decimal commas *)
(** The pattern (line 46) is: the sign >, perhaps a minus, digits, a comma, perhaps digits,
    perhaps E or e with perhaps a minus and digits, and the sign <.  It has one way to match
    at a place: the parts before and after the comma, and the rest. *)
Definition one (c : Z) (s : pystr) : option pystr := match s with x :: r => if x =? c then Some r else None | [] => None end.
Definition minus (s : pystr) : pystr * pystr := match one 45 s with Some r => ([45], r) | None => ([], s) end.
Definition exponent (s : pystr) : pystr * pystr :=
  match s with
  | c :: r => if (c =? 69) || (c =? 101) then let (m, r1) := minus r in let (d, r2) := take_digits r1 in (c :: m ++ d, r2) else ([], s)
  | [] => ([], [])
  end.
Definition match_at (s : pystr) : option (pystr * pystr * pystr) :=
  match one 62 s with
  | None => None
  | Some r =>
      let (m, r1) := minus r in
      let (d, r2) := take_digits r1 in
      match d, one 44 r2 with
      | _ :: _, Some r3 =>
          let (d2, r4) := take_digits r3 in
          let (e, r5) := exponent r4 in
          match one 60 r5 with Some r6 => Some (62 :: m ++ d, d2 ++ e ++ [60], r6) | None => None end
      | _, _ => None
      end
  end.
(** pattern.sub: from left to right, going on after each match *)
Fixpoint sub (fuel : nat) (s : pystr) : pystr :=
  match fuel, s with
  | S k, c :: s' =>
      match match_at s with
      | Some (b, a, rest) => b ++ 46 :: a ++ sub k rest
      | None => c :: sub k s'
      end
  | _, _ => s
  end.
Definition sanitize (s : pystr) : pystr := sub (List.length s) s.

(** * Elements *)
Inductive xml := Elem (tag : pystr) (attrs : list (pystr * pystr)) (text tail : pystr) (children : list xml).
Definition x_tag (e : xml) := let '(Elem t _ _ _ _) := e in t.
Definition x_attrs (e : xml) := let '(Elem _ a _ _ _) := e in a.
Definition x_text (e : xml) := let '(Elem _ _ t _ _) := e in t.
Definition x_tail (e : xml) := let '(Elem _ _ _ t _) := e in t.
Definition x_children (e : xml) := let '(Elem _ _ _ _ c) := e in c.

(** * XmlToDict *)
Inductive leaf := LText (s : pystr) | LOther (n : Z).
Inductive val := VNone | VLeaf (l : leaf) | VDict (d : list (pystr * val)) | VList (l : list val).
Inductive mode := Skip | First | Cat | Lst.
Record options := { literal : pystr -> leaf; attr_pre : pystr; text_key : pystr; flatten : list pystr; text_mode : mode }.
(** eval (lines 221-226): only texts are changed *)
Definition eval_text (o : options) (s : pystr) : val := VLeaf (literal o s).
Definition eval (o : options) (v : val) : val := match v with VLeaf (LText s) => eval_text o s | _ => v end.
(** dd_node (lines 249-252): a defaultdict(list) *)
Fixpoint append (k : pystr) (v : val) (d : list (pystr * list val)) : list (pystr * list val) :=
  match d with
  | [] => [(k, [v])]
  | (k', l) :: d' => if eqb_str k k' then (k', l ++ [v]) :: d' else (k', l) :: append k v d'
  end.
Definition group (l : list (pystr * val)) : list (pystr * list val) := fold_left (fun d p => append (fst p) (snd p) d) l [].
Definition one_or_list (o : options) (l : list val) : val := match l with [v] => eval o v | _ => VList l end.
(** dictionary.items() *)
Definition items_of (v : val) : res (list (pystr * val)) := match v with VDict d => Ok d | _ => Err AttributeError end.
Definition set_key (k : pystr) (x : val) (v : val) : val := match v with VDict d => VDict (put k x d) | _ => v end.
(** The text (lines 267-287) *)
Definition add_text (o : options) (attrs : list (pystr * pystr)) (text : pystr) (children : list xml) (v : val) : val :=
  match strip text with
  | [] => v
  | t =>
      match attrs, children with
      | [], [] => eval_text o t
      | _, [] => set_key (text_key o) (eval_text o t) v
      | _, _ =>
          match text_mode o with
          | Skip => v
          | First => set_key (text_key o) (eval_text o t) v
          | m =>
              let tails := map (fun c => strip (x_tail c)) children in
              if existsb (fun s => negb (eqb_str s [])) tails then
                set_key (str "#interchild_text")
                  (match m with Cat => VLeaf (LText (List.concat (t :: tails))) | _ => VList (map (fun s => VLeaf (LText s)) (t :: tails)) end) v
              else set_key (text_key o) (eval_text o t) v
          end
      end
  end.
(** dictionarize (lines 246-291) *)
Fixpoint dictionarize (o : options) (e : xml) : res val :=
  match e with
  | Elem tag attrs text tail children =>
      let! pairs :=
        ((fix go (l : list xml) : res (list (pystr * val)) :=
            match l with
            | [] => Ok []
            | c :: l' => let! v := dictionarize o c in let! i := items_of v in let! r := go l' in Ok (i ++ r)
            end) children) in
      let start :=
        match children with
        | [] => match attrs with [] => VNone | _ => VDict [] end
        | _ => VDict (map (fun p => (fst p, one_or_list o (snd p))) (group pairs))
        end in
      let pre := match children with [] => [] | _ => attr_pre o end in
      let with_attrs := fold_left (fun v a => set_key (pre ++ fst a) (eval_text o (snd a)) v) attrs start in
      let v := add_text o attrs text children with_attrs in
      if existsb (eqb_str tag) (flatten o) then Ok v else Ok (VDict [(tag, v)])
  end.

(** * xml2dtb (lines 294-316) *)
Inductive tree := TStr (s : pystr) | TDict (d : list (pystr * tree)).
Fixpoint xml2dtb (e : xml) (d : list (pystr * tree)) : res (list (pystr * tree)) :=
  match e with
  | Elem tag attrs text tail children =>
      match text with
      | _ :: _ => Ok (put tag (TStr text) d)
      | [] =>
          let inside d0 :=
            let d1 := fold_left (fun x a => put (fst a) (TStr (snd a)) x) attrs d0 in
            let! d2 :=
              ((fix go (l : list xml) (x : list (pystr * tree)) : res (list (pystr * tree)) :=
                  match l with [] => Ok x | c :: l' => let! y := xml2dtb c x in go l' y end) children d1) in
            Ok (put tag (TDict d2) d) in
          match lookup tag d with
          | Some (TStr _) => match attrs, children with [], [] => Ok d | _, _ => Err AttributeError end
          | Some (TDict d0) => inside d0
          | None => inside []
          end
      end
  end.
