(** Nexus files: /repo/rsciio/nexus/_api.py.
    The library h5py is left out: a file is a tree of groups and datasets with attributes, members are listed in the order they
    are visited, and a member reached by a soft link carries the path of the link and what the link points to.
    Simplifications: numbers are exact; texts are ASCII and decode without fail; a list of texts is stored as fixed-length bytes or as
    objects; datasets on axes have one dimension; names have no slash; lazy reading, chunks, compression, dtypes, learning results,
    the axes of signals inside of the metadata and the mutation of shared dictionaries are left out; keys of dictionaries are texts;
    a list is all numbers, all texts or all dictionaries; the order in which members are visited is the order they are written in. *)
From Coq Require Import QArith Qabs Qminmax.
From Verif Require Import Base Text HierModel DistModel RplModel SfsModel.
Local Open Scope Z_scope.

(** What an attribute or a dataset holds; [fixed] is for texts stored as fixed-length bytes *)
Inductive content :=
| CText (fixed : bool) (s : pystr)
| CTexts (fixed : bool) (l : list pystr)
| CNum (q : Q)
| CArr (shape : list Z) (l : list Q).
Definition attributes := list (pystr * content).
Inductive node :=
| Group (a : attributes) (items : list (pystr * (option pystr * node)))
| Data (a : attributes) (c : content).
Definition members := list (pystr * (option pystr * node)).
(** What Python has in a dictionary of metadata *)
Inductive meta :=
| MNone
| MText (s : pystr)
| MTexts (l : list pystr)
| MNum (q : Q)
| MArr (shape : list Z) (l : list Q)
| MDicts (l : list (list (pystr * meta)))
| MDict (d : list (pystr * meta)).
Definition dict := list (pystr * meta).

Definition attrs_of (n : node) : attributes := match n with Group a _ | Data a _ => a end.
Definition has {A} (k : string) (l : list (pystr * A)) : bool := match lookup (str k) l with Some _ => true | None => false end.
Definition is_text (k : string) (m : meta) : bool := match m with MText s => eqb_str s (str k) | _ => false end.
Definition size (c : content) : Z := match c with CText _ _ | CNum _ => 1 | CTexts _ l => zlen l | CArr _ l => zlen l end.
Definition shape_of (c : content) : list Z := match c with CText _ _ | CNum _ => [] | CTexts _ l => [zlen l] | CArr sh _ => sh end.
Definition slash : pystr := [47].

(** * Values (lines 43-137) *)
(** _byte_to_string (lines 43-60) *)
Definition clean (s : pystr) : pystr := rstrip (filter (fun c => negb (c =? 0)) s).
Definition text_of (fixed : bool) (s : pystr) : pystr := if fixed then clean s else s.
(** _parse_from_file (lines 63-106), of an attribute *)
Definition parse_attr (c : content) : meta :=
  match c with
  | CText fixed s => MText (text_of fixed s)
  | CTexts fixed [s] => MText (text_of fixed s)
  | CTexts _ l => MTexts l
  | CNum q => MNum q
  | CArr [1] [q] => MNum q
  | CArr sh l => MArr sh l
  end.
(** … of a dataset: value[...].item() when there are less than two elements *)
Definition parse_data (c : content) : res meta :=
  match c with
  | CText _ s => Ok (MText (clean s))
  | CTexts _ [] => Err ValueError
  | CTexts _ [s] => Ok (MText (clean s))
  | CTexts _ l => Ok (MTexts l)
  | CNum q => Ok (MNum q)
  | CArr _ [] => Err ValueError
  | CArr _ [q] => Ok (MNum q)
  | CArr sh l => Ok (MArr sh l)
  end.
(** _parse_to_file (lines 109-137) *)
Definition to_file (m : meta) : res content :=
  match m with
  | MText s => Ok (CText true s)
  | MTexts l => Ok (CTexts true l)
  | MNum q => Ok (CNum q)
  | MArr sh l => Ok (CArr sh l)
  | MNone | MDicts _ | MDict _ => Err TypeError
  end.

(** * Paths (lines 140-191) *)
Fixpoint remove_first (l : list pystr) : list pystr :=
  match l with [] => [] | s :: l => if eqb_str s [] then l else s :: remove_first l end.
(** _text_split (lines 140-162); [sep] is one character or several *)
Definition text_split (s : pystr) (sep : list Z) : list pystr :=
  remove_first (fold_left (fun stack c => List.concat (map (split_char c) stack)) sep [s]).
(** _getlink (lines 165-191): the attributes are those of the group which contains the member *)
Definition get_link (group : attributes) (link : option pystr) (rootkey : pystr) : res (option pystr) :=
  if eqb_str rootkey slash then Ok None
  else match lookup (str "target") group with
       | None => Ok link
       | Some c =>
           match parse_attr c with
           | MText t => let t := if startswith slash t then t else slash ++ t in
                        Ok (if eqb_str t rootkey then None else Some t)
           | _ => Err AttributeError
           end
       end.

(** * Axes (lines 194-298, 645-660) *)
Record axis := { x_size : Z; x_index : Z; x_name : option pystr; x_scale : Q; x_offset : Q; x_units : option pystr; x_nav : bool }.
Fixpoint diffs (l : list Q) : list Q := match l with a :: ((b :: _) as r) => (b - a)%Q :: diffs r | _ => [] end.
(** np.allclose, of one value: |a - b| <= atol + rtol |b| *)
Definition close (a b : Q) : bool := Qle_bool (Qabs (a - b)) ((1 # 100000000) + (1 # 100000) * Qabs b).
Definition is_linear (l : list Q) : bool := match diffs l with [] => true | s :: r => forallb (close s) (s :: r) end.
Fixpoint remove_int (i : Z) (l : list Z) : res (list Z) :=
  match l with [] => Err ValueError | j :: l => if j =? i then Ok l else let! r := remove_int i l in Ok (j :: r) end.
Definition to_int (q : Q) : Z := Z.quot (Qnum q) (Zpos (Qden q)).
(** the names on the axes (lines 214-224) *)
Definition axes_list (ndim : nat) (c : content) : res (list pystr) :=
  match c with
  | CTexts fixed l => let l := firstn ndim (map (text_of fixed) l) in Ok (l ++ repeat (str ".") (ndim - List.length l))
  | CText fixed s => Ok (firstn ndim (split_char 44 (text_of fixed s)))
  | CNum _ => if (ndim =? 0)%nat then Err IndexError else Err TypeError
  | CArr _ [] => Ok (repeat (str ".") ndim)
  | CArr _ _ => if (ndim =? 0)%nat then Ok [] else Err TypeError
  end.
(** the position of an axis (lines 229-237) *)
Definition index_of (entry : attributes) (ax : pystr) (i : Z) : res Z :=
  match lookup (ax ++ str "_indices") entry with
  | None => Ok i
  | Some (CNum q) => Ok (to_int q)
  | Some (CArr [_] (q :: _)) => Ok (to_int q)
  | Some (CArr [] (q :: _)) => Ok (to_int q)
  | Some (CArr _ []) => Err IndexError
  | Some (CArr _ _) => Err TypeError
  | Some (CText _ _) => Err AttributeError
  | Some (CTexts _ _) => Err ValueError
  end.
Definition at_ {A} (l : list A) (i : Z) : res A := match nth_error l (Z.to_nat i) with Some x => Ok x | None => Err IndexError end.
(** one named axis (lines 239-283) *)
Definition named_axis (shape : list Z) (items : members) (ax : pystr) (ind : Z) (named : list Z) : res (axis * list Z) :=
  let! d := match lookup ax items with Some (_, n) => Ok n | None => Err KeyError end in
  let units := match lookup (str "units") (attrs_of d) with Some c => parse_attr c | None => MText [] end in
  let! units := match units with MText u => Ok u | _ => Err NotImplementedError end in
  let! named := remove_int ind named in
  let! c := match d with Data _ c => Ok c | Group _ _ => Err AttributeError end in
  match c with
  | CNum _ => Err ValueError
  | CText _ _ | CTexts _ _ => Err TypeError
  | CArr [_] l =>
      let! n := at_ shape ind in
      match l with
      | [] => Err IndexError
      | [q] => Ok ({| x_size := 1; x_index := ind; x_name := Some ax; x_scale := 1; x_offset := q; x_units := Some units; x_nav := true |}, named)
      | p :: q :: _ =>
          Ok (if is_linear l
              then {| x_size := n; x_index := ind; x_name := Some ax; x_scale := Qabs (q - p); x_offset := Qmin p (last l p); x_units := Some units; x_nav := true |}
              else {| x_size := n; x_index := ind; x_name := Some ax; x_scale := 1; x_offset := 0; x_units := None; x_nav := true |}, named)
      end
  | CArr _ _ => Err NotImplementedError
  end.
(** the loop (lines 226-298) *)
Fixpoint nav_loop (shape : list Z) (entry : attributes) (items : members) (total : nat) (i : Z) (named : list Z) (det : Z) (l : list pystr) : res (list axis) :=
  match l with
  | [] => Ok []
  | ax :: l =>
      if eqb_str ax (str ".") then
        if (List.length shape =? total)%nat then
          let! k := at_ named det in
          let! n := at_ shape k in
          let! r := nav_loop shape entry items total (i + 1) named (det + 1) l in
          Ok ({| x_size := n; x_index := k; x_name := None; x_scale := 1; x_offset := 0; x_units := Some []; x_nav := false |} :: r)
        else nav_loop shape entry items total (i + 1) named det l
      else
        let! ind := index_of entry ax i in
        let! xn := named_axis shape items ax ind named in
        let! r := nav_loop shape entry items total (i + 1) (snd xn) det l in
        Ok (fst xn :: r)
  end.
Definition nav_list (shape : list Z) (entry : attributes) (items : members) : res (list axis) :=
  match lookup (str "axes") entry with
  | None => Ok []
  | Some c => let! l := axes_list (List.length shape) c in
              nav_loop shape entry items (List.length l) 0 (zseq 0 (List.length l)) 0 l
  end.

(** * Signals (lines 301-440) *)
Record signal := { s_data : content; s_axes : list axis; s_meta : dict; s_original : dict }.
Definition set_nav (b : bool) (x : axis) : axis :=
  {| x_size := x_size x; x_index := x_index x; x_name := x_name x; x_scale := x_scale x; x_offset := x_offset x; x_units := x_units x; x_nav := b |}.
Fixpoint set_at {A} (f : A -> A) (n : nat) (l : list A) : list A :=
  match l, n with [], _ => [] | x :: l, O => f x :: l | x :: l, S n => x :: set_at f n l end.
(** the interpretation (lines 430-437) *)
Definition interpret (how : pystr) (l : list axis) : res (list axis) :=
  match how with
  | [] => Ok l
  | _ => let l := map (set_nav true) l in
         let n := List.length l in
         if eqb_str how (str "spectrum") then if (n <? 1)%nat then Err IndexError else Ok (set_at (set_nav false) (n - 1) l)
         else if eqb_str how (str "image") then
           if (n <? 2)%nat then Err IndexError else Ok (set_at (set_nav false) (n - 2) (set_at (set_nav false) (n - 1) l))
         else Ok l
  end.
Fixpoint plain_axes (i : Z) (shape : list Z) : list axis :=
  match shape with
  | [] => []
  | n :: shape => {| x_size := n; x_index := i; x_name := None; x_scale := 1; x_offset := 0; x_units := Some []; x_nav := true |} :: plain_axes (i + 1) shape
  end.
(** the dataset of an NXdata (lines 375-391); _is_int (lines 683-700) *)
Definition data_key (a : attributes) (items : members) : res pystr :=
  match lookup (str "signal") a with
  | Some (CNum _) | Some (CArr _ [_]) => Ok (str "data")
  | Some (CText _ s) => Ok (match parse_int s with Ok _ => str "data" | Err _ => s end)
  | Some _ => Err TypeError
  | None => if has "data" items then Ok (str "data") else Err ValueError
  end.
Definition get_dataset (k : pystr) (items : members) : res (attributes * content) :=
  match lookup k items with None => Err KeyError | Some (_, Group _ _) => Err AttributeError | Some (_, Data a c) => Ok (a, c) end.
Definition last_part (path : pystr) : pystr := last (text_split path [47]) [].
Definition title_only (t : pystr) : dict := [(str "General", MDict [(str "title", MText t)])].
(** _nexus_dataset_to_signal (lines 355-440) *)
Definition nexus_signal (a : attributes) (items : members) (path : pystr) : res (content * list axis * dict) :=
  let! k := data_key a items in
  let! how := match lookup (str "interpretation") a with
              | None => Ok []
              | Some c => match parse_attr c with MText s => Ok s | MNum _ => Ok (str "?") | _ => Err ValueError end
              end in
  let! d := get_dataset k items in
  let shape := shape_of (snd d) in
  let! l := nav_list shape a items in
  let l := match l with [] => plain_axes 0 shape | _ => l end in
  let! l := interpret how l in
  Ok (snd d, l, title_only (last_part path)).
(** _extract_hdf_dataset (lines 301-352); [a], [items] are those of the group which contains the dataset *)
Definition hdf_signal (a : attributes) (items : members) (name : pystr) (c : content) : res (option (content * list axis)) :=
  if match lookup (str "signal") a with Some (CText _ s) => eqb_str name s | _ => false end then Ok None
  else let! l := nav_list (shape_of c) a items in Ok (Some (c, l)).

(** * Which data (lines 703-831) *)
Inductive key_arg := KNone | KText (s : pystr) | KTexts (l : list pystr) | KOther.
(** _check_search_keys (lines 703-714) *)
Definition check_keys (k : key_arg) : res (option (list pystr)) :=
  match k with KNone => Ok None | KText s => Ok (Some [s]) | KTexts l => Ok (Some l) | KOther => Err ValueError end.
Definition is_nxdata (a : attributes) : bool :=
  match lookup (str "NX_class") a with Some (CText _ s) => eqb_str s (str "NXdata") | _ => false end.
(** datasets which are not text (line 783) *)
Definition numeric (c : content) : bool := match c with CText fixed _ | CTexts fixed _ => fixed | _ => true end.
(** one thing found: whether it is an NXdata, its path, whether it is not linked *)
Definition found := (bool * pystr * bool)%type.
Definition is_none {A} (o : option A) : bool := match o with None => true | Some _ => false end.
(** find_data_in_tree (lines 758-786) *)
Fixpoint find_tree (hard : bool) (rootname : pystr) (n : node) {struct n} : res (list found) :=
  match n with
  | Data _ _ => Ok []
  | Group a items =>
      (fix go (items : members) : res (list found) :=
         match items with
         | [] => Ok []
         | (key, (link, value)) :: items =>
             let rootkey := rootname ++ slash ++ key in
             let! here :=
               match value with
               | Group b _ =>
                   let! target := get_link a link rootkey in
                   let nx := if is_nxdata b && has "signal" b then [(true, rootkey, is_none target)] else [] in
                   let! deep := if negb hard || is_none target then find_tree hard rootkey value else Ok [] in
                   Ok (nx ++ deep)
               | Data _ c =>
                   if 2 <=? size c then
                     let! target := get_link a link rootkey in
                     Ok (if numeric c then [(false, rootkey, is_none target)] else [])
                   else Ok []
               end in
             let! r := go items in
             Ok (here ++ r)
         end) items
  end.
Definition paths (nx hard : bool) (l : list found) : list pystr :=
  map (fun f => snd (fst f)) (filter (fun f => Bool.eqb (fst (fst f)) nx && (snd f || negb hard)) l).
(** set(...), with some order *)
Definition as_set (l : list pystr) : list pystr := nodup (list_eq_dec Z.eq_dec) l.
Definition select (keys absolute : option (list pystr)) (l : list pystr) : list pystr :=
  match keys, absolute with
  | None, None => l
  | _, _ =>
      as_set (filter (fun j => match absolute with Some p => existsb (fun s => eqb_str s j) p | None => false end) l ++
              filter (fun j => match keys with Some k => existsb (fun s => contains s j) k | None => false end) l)
  end.
(** _find_data (lines 717-831) *)
Definition find_data (root : node) (keys : option (list pystr)) (hard : bool) (absolute : option (list pystr)) : res (list pystr * list pystr) :=
  let! l := find_tree hard [] root in
  Ok (select keys absolute (paths true hard l), select keys absolute (paths false hard l)).

(** * Metadata (lines 834-994) *)
(** _fix_exclusion_keys (lines 922-943) *)
Definition fix_key (k : pystr) : pystr := if startswith (str "keys") k then str "fix_" ++ k else k.
Definition sub_dict (k : pystr) (t : dict) : res dict :=
  match lookup k t with None => Ok [] | Some (MDict d) => Ok d | Some _ => Err TypeError end.
Fixpoint put_attrs (fix_it : bool) (a : attributes) (d : dict) : dict :=
  match a with [] => d | (k, c) :: a => put_attrs fix_it a (put (if fix_it then fix_key k else k) (parse_attr c) d) end.
(** a dataset (lines 873-895) *)
Definition load_data (skip : bool) (k : pystr) (a : attributes) (c : content) (t : dict) : res dict :=
  let wanted := negb skip || ((size c <? 2) && (List.length (shape_of c) =? 0)%nat) in
  match a with
  | [] => if wanted then let! v := parse_data c in Ok (put k v t) else Ok t
  | _ => let! d := sub_dict k t in
         let! d := if wanted then let! v := parse_data c in Ok (put (str "value") v d) else Ok d in
         let! e := sub_dict (str "attrs") d in
         Ok (put k (MDict (put (str "attrs") (MDict (put_attrs false a e)) d)) t)
  end.
(** find_meta_in_tree (lines 859-914) *)
Fixpoint load_tree (skip : bool) (n : node) {struct n} : res dict :=
  match n with
  | Data _ _ => Ok []
  | Group a items =>
      (fix go (items : members) (t : dict) : res dict :=
         match items with
         | [] => Ok t
         | (key, (_, item)) :: items =>
             let! t :=
               match item with
               | Data b c => load_data skip (fix_key key) b c t
               | Group b _ => if is_nxdata b then Ok t else let! d := load_tree skip item in Ok (put (fix_key key) (MDict d) t)
               end in
             go items t
         end) items (match a with [] => [] | _ => [(str "attrs", MDict (put_attrs true a []))] end)
  end.
(** p = p.setdefault(d, {}) … p[last] = value (lines 983-986) *)
Fixpoint set_path (p : list pystr) (v : meta) (d : dict) : res dict :=
  match p with
  | [] => Err IndexError
  | [k] => Ok (put k v d)
  | k :: p => match lookup k d with
              | None => let! e := set_path p v [] in Ok (put k (MDict e) d)
              | Some (MDict e) => let! e := set_path p v e in Ok (put k (MDict e) d)
              | Some _ => Err AttributeError
              end
  end.
(** find_searchkeys_in_tree (lines 972-988) *)
Fixpoint search_tree (keys : list pystr) (rootname : pystr) (m : meta) (acc : dict) {struct m} : res dict :=
  match m with
  | MDict d =>
      (fix go (d : list (pystr * meta)) (acc : dict) : res dict :=
         match d with
         | [] => Ok acc
         | (key, value) :: d =>
             let rootkey := match rootname with [] => key | _ => rootname ++ slash ++ key end in
             let! acc := if existsb (fun s => contains s rootkey) keys then set_path (text_split rootkey [46; 47]) value acc else Ok acc in
             let! acc := search_tree keys rootkey value acc in
             go d acc
         end) d acc
  | _ => Ok acc
  end.
(** _find_search_keys_in_dict (lines 946-994) *)
Definition search_dict (keys : option (list pystr)) (d : dict) : res dict :=
  match keys with None => Ok d | Some l => search_tree l [] (MDict d) [] end.

(** * Reading a file (lines 443-639) *)
Fixpoint get (path : list pystr) (n : node) : res node :=
  match path with
  | [] => Ok n
  | k :: path => match n with
                 | Group _ items => match lookup k items with Some (_, m) => get path m | None => Err KeyError end
                 | Data _ _ => Err KeyError
                 end
  end.
Definition fetch (root : node) (path : pystr) : res node := get (text_split path [47]) root.
(** the default entry (lines 539-558) *)
Definition default_paths (original : dict) (nx hdf : list pystr) : res (list pystr * list pystr) :=
  match lookup (str "attrs") original with
  | Some (MDict top) =>
      let! nxentry := match lookup (str "default") top with
                      | Some (MText s) => Ok s
                      | Some _ => Err TypeError
                      | None => Ok []
                      end in
      match nxentry with
      | [] => Ok (nx, hdf)
      | _ =>
          let! e := match lookup nxentry original with Some (MDict e) => Ok e | Some _ => Err TypeError | None => Err KeyError end in
          let! t := match lookup (str "attrs") e with Some (MDict t) => Ok t | Some _ => Err TypeError | None => Err KeyError end in
          match lookup (str "default") t with
          | Some (MText []) | None => Ok (nx, hdf)
          | Some (MText s) => Ok (filter (contains (slash ++ nxentry ++ slash ++ s)) nx, [])
          | Some _ => Err TypeError
          end
      end
  | Some _ => Err TypeError
  | None => Ok (nx, hdf)
  end.
Definition dict_of (m : meta) : res dict := match m with MDict d => Ok d | _ => Err TypeError end.
Definition update (d e : dict) : dict := fold_left (fun d kv => put (fst kv) (snd kv) d) e d.
(** the metadata of an NXdata (lines 571-621) *)
Definition signal_metadata (original : dict) (keys : option (list pystr)) (entry : pystr) (m : dict) : res (dict * dict) :=
  match lookup entry original with
  | None => Ok (m, [])
  | Some e =>
      let! o := match keys with None => dict_of e | Some _ => search_dict keys original end in
      match lookup (str "attrs") original with
      | Some (MDict top) =>
          match lookup (str "file_writer") top with
          | Some (MText w) =>
              if eqb_str w (str "hyperspy_nexus_v3") then
                let! e := dict_of e in
                match lookup (str "auxiliary") e with
                | None => Ok (m, o)
                | Some aux =>
                    let! aux := dict_of aux in
                    let! o := match lookup (str "original_metadata") aux with
                              | None => Ok o
                              | Some om => let! om := dict_of om in search_dict keys om
                              end in
                    match lookup (str "hyperspy_metadata") aux with
                    | None => Ok (m, o)
                    | Some h => let! h := dict_of h in Ok (update h m, o)
                    end
                end
              else Ok (m, o)
          | _ => Ok (m, o)
          end
      | _ => Ok (m, o)
      end
  end.
Definition read_nexus (root : node) (original : dict) (keys : option (list pystr)) (path : pystr) : res signal :=
  let! n := fetch root path in
  match n with
  | Data _ _ => Err AttributeError
  | Group a items =>
      let! s := nexus_signal a items path in
      let! mo := signal_metadata original keys (hd [] (text_split path [47])) (snd s) in
      Ok {| s_data := fst (fst s); s_axes := snd (fst s); s_meta := fst mo; s_original := snd mo |}
  end.
Definition replace (p r s : pystr) : pystr := replace_sub (S (List.length s)) p r s.
Definition read_hdf (root : node) (filename path : pystr) : res (option signal) :=
  let parts := text_split path [47] in
  let! g := get (removelast parts) root in
  match g with
  | Data _ _ => Err KeyError
  | Group a items =>
      let! d := get_dataset (last parts []) items in
      let! s := hdf_signal a items (last parts []) (snd d) in
      Ok (match s with
          | None => None
          | Some (c, l) => Some {| s_data := c; s_axes := l;
                                   s_meta := [(str "General", MDict [(str "original_filename", MText filename);
                                                                     (str "title", MText (replace slash (str "_") (skipn 1 path)))])];
                                   s_original := [] |}
          end)
  end.
Fixpoint somes {A} (l : list (option A)) : list A := match l with [] => [] | Some x :: l => x :: somes l | None :: l => somes l end.
Record options := { o_key : key_arg; o_path : key_arg; o_metadata_key : key_arg; o_skip : bool; o_nxdata : bool; o_hard : bool; o_default : bool }.
(** file_reader (lines 443-639) *)
Definition read_file (filename : pystr) (o : options) (root : node) : res (list signal) :=
  let! keys := check_keys (o_key o) in
  let! absolute := check_keys (o_path o) in
  let! mkeys := check_keys (o_metadata_key o) in
  let! original := load_tree (o_skip o) root in
  let! p := if o_default o then let! all := find_data root None false None in default_paths original (fst all) (snd all) else Ok ([], []) in
  let! p := match p with ([], []) => find_data root keys (o_hard o) absolute | _ => Ok p end in
  let! nx := mapM (read_nexus root original mkeys) (fst p) in
  let! hdf := if o_nxdata o then Ok [] else mapM (read_hdf root filename) (snd p) in
  Ok (nx ++ somes hdf).

(** * Writing metadata (lines 997-1092) *)
Definition in_list (k : pystr) (l : list pystr) : bool := existsb (eqb_str k) l.
Definition skipped (v : dict) : bool :=
  match lookup (str "attrs") v with Some (MDict t) => match lookup (str "NX_class") t with Some m => is_text "NXdata" m | None => false end | _ => false end.
(** {"value": …} with or without "attrs" (lines 1028-1033) *)
Definition as_value (v : dict) : option meta :=
  match lookup (str "value") v with
  | Some (MDict _) | None => None
  | Some x => if forallb (fun kv => in_list (fst kv) [str "attrs"; str "value"]) v then Some x else None
  end.
Definition require_group (k : pystr) (items : members) : res (attributes * members) :=
  match lookup k items with
  | None => Ok ([], [])
  | Some (_, Group a m) => Ok (a, m)
  | Some (_, Data _ _) => Err TypeError
  end.
Definition put_node (k : pystr) (n : node) (items : members) : members := put k (None, n) items.
(** group.create_dataset *)
Definition create (k : pystr) (c : content) (items : members) : res members :=
  match lookup k items with None => Ok (put_node k (Data [] c) items) | Some _ => Err ValueError end.
Definition write_leaf (k : pystr) (m : meta) (items : members) : res members :=
  match m with
  | MNone => Ok items
  | MText s => create k (CText true s) items
  | MNum q => create k (CNum q) items
  | MTexts [] | MArr _ [] => Ok items
  | MTexts l => Ok (put_node k (Data [] (CTexts true l)) items)
  | MArr sh l => Ok (put_node k (Data [] (CArr sh l)) items)
  | MDicts _ | MDict _ => Err TypeError
  end.
Definition axes_key (i : Z) : pystr := str "_axes_" ++ str_int i.
(** _write_nexus_groups (lines 997-1058), of one entry *)
Fixpoint write_entry (skip : list pystr) (key : pystr) (m : meta) (items : members) {struct m} : res members :=
  if eqb_str key (str "attrs") || in_list key skip then Ok items
  else
    let write_dict := fix go (d : list (pystr * meta)) (items : members) : res members :=
      match d with
      | [] => Ok items
      | (k, v) :: d => let! items := write_entry skip k v items in go d items
      end in
    let write_list := fix go (i : Z) (l : list (list (pystr * meta))) (items : members) : res members :=
      match l with
      | [] => Ok items
      | d :: l => let! g := require_group (axes_key i) items in
                  let! new := write_dict d (snd g) in
                  go (i + 1) l (put_node (axes_key i) (Group (fst g) new) items)
      end in
    match m with
    | MDict d =>
        if skipped d then Ok items
        else match as_value d with
             | Some (MDicts _) => Err NotImplementedError
             | Some x => write_leaf key x items
             | None => let! g := require_group key items in
                       let! new := write_dict d (snd g) in
                       Ok (put_node key (Group (fst g) new) items)
             end
    | MDicts l => write_list 0 l items
    | _ => write_leaf key m items
    end.
Fixpoint write_groups (skip : list pystr) (d : dict) (items : members) : res members :=
  match d with
  | [] => Ok items
  | (k, v) :: d => let! items := write_entry skip k v items in write_groups skip d items
  end.
Fixpoint write_attr_values (d : dict) (a : attributes) : res attributes :=
  match d with [] => Ok a | (k, v) :: d => let! c := to_file v in write_attr_values d (put k c a) end.
(** _write_nexus_attr (lines 1061-1092) *)
Fixpoint write_attrs (skip : list pystr) (m : meta) (n : node) {struct m} : res node :=
  match m with
  | MDict d =>
      (fix go (d : list (pystr * meta)) (n : node) : res node :=
         match d with
         | [] => Ok n
         | (key, value) :: d =>
             let! n :=
               if eqb_str key (str "attrs") then
                 let! v := dict_of value in
                 let! a := write_attr_values v (attrs_of n) in
                 Ok (match n with Group _ items => Group a items | Data _ c => Data a c end)
               else
                 match value with
                 | MDict v =>
                     if skipped v || in_list key skip then Ok n
                     else match n with
                          | Group a items =>
                              match lookup key items with
                              | None => Err KeyError
                              | Some (link, sub) => let! sub := write_attrs skip value sub in Ok (Group a (put key (link, sub) items))
                              end
                          | Data _ _ => Err ValueError
                          end
                 | _ => Ok n
                 end in
             go d n
         end) d n
  | _ => Ok n
  end.

(** * Writing a signal (lines 1095-1151) *)
Inductive axis_kind := Uniform (offset scale : Q) (size : nat) | Listed (l : list Q) | Functional | OtherKind.
Record waxis := { w_name : option pystr; w_units : option pystr; w_nav : bool; w_kind : axis_kind }.
Record wsignal := { g_shape : list Z; g_data : list Q; g_axes : list waxis; g_meta : dict; g_original : dict }.
Definition eqb_option (a b : option pystr) : bool := match a, b with None, None => true | Some a, Some b => eqb_str a b | _, _ => false end.
(** one dictionary == another one *)
Definition same_axis (a b : waxis) : res bool :=
  if eqb_option (w_name a) (w_name b) && eqb_option (w_units a) (w_units b) && Bool.eqb (w_nav a) (w_nav b) then
    match w_kind a, w_kind b with
    | Uniform o s n, Uniform o' s' n' => Ok (Qeq_bool o o' && Qeq_bool s s' && (n =? n')%nat)
    | Listed _, Listed _ => Err ValueError
    | Functional, Functional | OtherKind, OtherKind => Ok true
    | _, _ => Ok false
    end
  else Ok false.
(** signal["axes"].index(ax), of the axis in position [n] *)
Fixpoint axis_index (i : Z) (n : nat) (ax : waxis) (l : list waxis) : res Z :=
  match n with
  | O => Ok i
  | S n => match l with [] => Ok i | b :: l => let! e := same_axis b ax in if e then Ok i else axis_index (i + 1) n ax l end
  end.
Definition ramp (offset scale : Q) (n : nat) : list Q := map (fun i => (offset + scale * inject_Z (Z.of_nat i))%Q) (seq 0 n).
Definition axis_values (k : axis_kind) : res (list Q) :=
  match k with Uniform o s n => Ok (ramp o s n) | Listed l => Ok l | Functional => Err ValueError | OtherKind => Err OtherError end.
Fixpoint set_name (n : nat) (v : pystr) (l : list pystr) : res (list pystr) :=
  match l, n with [], _ => Err IndexError | _ :: l, O => Ok (v :: l) | x :: l, S n => let! r := set_name n v l in Ok (x :: r) end.
(** the loop over the axes (lines 1129-1148): the attributes, the members, the names so far *)
Fixpoint write_axes (all : list waxis) (n : nat) (l : list waxis) (st : attributes * members * list pystr) : res (attributes * members * list pystr) :=
  match l with
  | [] => Ok st
  | ax :: l =>
      let! st :=
        match w_name ax with
        | None => Ok st
        | Some name =>
            let '(a, items, names) := st in
            let! i := axis_index 0 n ax all in
            let! v := axis_values (w_kind ax) in
            let a := put (name ++ str "_indices") (CNum (inject_Z i)) a in
            let! d := match lookup name items with
                      | None => Ok ([], CArr [zlen v] v)
                      | Some (_, Group _ _) => Err TypeError
                      | Some (_, Data b c) => if eqb_zs (shape_of c) [zlen v] then Ok (b, c) else Err TypeError
                      end in
            let b := match w_units ax with Some u => put (str "units") (CText false u) (fst d) | None => fst d end in
            let! names := set_name (Z.to_nat i) name names in
            Ok (a, put_node name (Data b (snd d)) items, names)
        end in
      write_axes all (S n) l st
  end.
Definition write_signal (s : wsignal) (g : attributes * members) : res (attributes * members) :=
  let k := List.length (filter (fun x => negb (w_nav x)) (g_axes s)) in
  let a := put (str "signal") (CText true (str "data")) (put (str "NX_class") (CText true (str "NXdata")) (fst g)) in
  let a := if (k =? 1)%nat then put (str "interpretation") (CText true (str "spectrum")) a
           else if (k =? 2)%nat then put (str "interpretation") (CText true (str "image")) a else a in
  let items := put_node (str "data") (Data [] (CArr (g_shape s) (g_data s))) (snd g) in
  let! st := write_axes (g_axes s) 0 (g_axes s) (a, items, repeat (str ".") (List.length (g_shape s))) in
  let '(a, items, names) := st in
  Ok (put (str "axes") (CTexts true names) a, items).

(** * Writing a file (lines 1154-1256) *)
Definition title_of (m : dict) : pystr :=
  match lookup (str "General") m with
  | Some (MDict g) => match lookup (str "title") g with Some (MText t) => t | _ => [] end
  | _ => []
  end.
(** the name of the NXdata (lines 1215-1221) *)
Definition signal_name (m : dict) (i : Z) : pystr :=
  let t := match title_of m with [] => str "unnamed__" ++ str_int i | t => t end in
  let t := replace slash (str "_") t in
  if startswith (str "__") t then skipn 2 t else t.
Definition text_attr (s : string) : content := CText true (str s).
(** a dictionary of metadata as a collection (lines 1239-1256) *)
Definition collection (skip : list pystr) (d : dict) : res node :=
  let! items := write_groups skip d [] in
  write_attrs skip (MDict d) (Group [(str "NX_class", text_attr "NXcollection")] items).
Definition write_entry_of (skip : option (list pystr)) (default : bool) (i : Z) (s : wsignal) : res node :=
  let name := signal_name (g_meta s) i in
  let a := [(str "NX_class", text_attr "NXentry")] in
  let a := if (i =? 0) && default then a ++ [(str "default", CText false name)] else a in
  let items := [(str "auxiliary", (None, Group [(str "NX_class", text_attr "NXentry")] []))] in
  let! g := match name with [] => Err ValueError | _ => require_group name items end in
  let! g := write_signal s g in
  let items := put_node name (Group (fst g) (snd g)) items in
  let! aux := require_group (str "auxiliary") items in
  let! m := match skip, g_original s with
            | None, _ | _, [] => Ok (snd aux)
            | Some skip, d => let! c := collection skip d in Ok (put_node (str "original_metadata") c (snd aux))
            end in
  let! m := match g_meta s with
            | [] => Ok m
            | d => let! c := collection [] d in Ok (put_node (str "hyperspy_metadata") c m)
            end in
  Ok (Group a (put_node (str "auxiliary") (Group (fst aux) m) items)).
Fixpoint write_entries (skip : option (list pystr)) (default : bool) (i : Z) (l : list wsignal) : res members :=
  match l with
  | [] => Ok []
  | s :: l => let! n := write_entry_of skip default i s in
              let! r := write_entries skip default (i + 1) l in
              Ok ((str "entry" ++ str_int (i + 1), (None, n)) :: r)
  end.
(** file_writer; [skip] is None when the original metadata is not saved *)
Definition write_file (skip : option (list pystr)) (default : bool) (l : list wsignal) : res node :=
  let! items := write_entries skip default 0 l in
  Ok (Group ([(str "file_format", CText false (str "nexus")); (str "file_writer", CText false (str "hyperspy_nexus_v3"))] ++
             (if default then [(str "default", CText false (str "entry1"))] else [])) items).
