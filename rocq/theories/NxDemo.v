(** Nexus files: samples, and what goes wrong. *)
From Coq Require Import QArith Qabs.
From Verif Require Import Base Text HierModel DistModel RplModel SfsModel HierProps HierProof Dict LogText NxModel NxProps NxFind NxMeta NxSearch NxAxes NxFile.
Local Open Scope Z_scope.

(** * Axes *)
Definition units (u : string) : attributes := [(str "units", CText false (str u))].
Definition cells : members :=
  [(str "data", (None, Data [] (CArr [2; 3] [1; 2; 3; 4; 5; 6]%Q))); (str "y", (None, Data (units "nm") (CArr [2] [1; 3]%Q)));
   (str "x", (None, Data (units "eV") (CArr [3] [0; 1#2; 1]%Q))); (str "down", (None, Data (units "eV") (CArr [3] [4; 3; 2]%Q)));
   (str "log", (None, Data (units "eV") (CArr [3] [1; 10; 100]%Q))); (str "one", (None, Data [] (CArr [1] [7]%Q)));
   (str "tiny", (None, Data (units "s") (CArr [3] [0; 1#1000000000; 5#1000000000]%Q)))].
Definition nx_attrs : attributes := [(str "NX_class", CText true (str "NXdata")); (str "signal", CText true (str "data")); (str "axes", CTexts true [str "y"; str "x"]); (str "x_indices", CNum 1)].
Definition ax_of (name : string) (ind : Z) (named : list Z) := named_axis [2; 3] cells (str name) ind named.

Example ex_even : stored cells (str "x") (str "eV") [0; 1#2; 1]%Q /\ even 0 (1#2) [0; 1#2; 1]%Q /\
  ax_of "x" 1 [0; 1] = Ok ({| x_size := 3; x_index := 1; x_name := Some (str "x"); x_scale := 1#2; x_offset := 0; x_units := Some (str "eV"); x_nav := true |}, [0]).
Proof.
  split; [eexists _, _, _; split; reflexivity|]. split; [|reflexivity]. intros [|[|[|i]]] q H; try (injection H as <-; reflexivity). destruct i; discriminate.
Qed.
Example ex_single : stored cells (str "one") [] [7]%Q /\ ax_of "one" 0 [0; 1] = Ok ({| x_size := 1; x_index := 0; x_name := Some (str "one"); x_scale := 1; x_offset := 7; x_units := Some []; x_nav := true |}, [1]).
Proof. split; [eexists _, _, _; split; reflexivity|reflexivity]. Qed.
Example ex_tolerance : stored cells (str "tiny") (str "s") [0; 1#1000000000; 5#1000000000]%Q /\ is_linear [0; 1#1000000000; 5#1000000000]%Q = true.
Proof. split; [eexists _, _, _; split; reflexivity|reflexivity]. Qed.
Example ex_order : exists a b, nav_list [2; 3] nx_attrs cells = Ok [a; b] /\ x_name a = Some (str "y") /\ x_index a = 0 /\ x_size a = 2 /\ x_offset a = 1%Q /\ x_name b = Some (str "x") /\ x_index b = 1 /\ x_size b = 3 /\
  attribute_names (CTexts true [str "y"; str "x"]) 2 [str "y"; str "x"].
Proof. eexists _, _. split; [reflexivity|]. repeat (split; [reflexivity|]). exists 0%nat. auto. Qed.
Example ex_indices : exists a b, nav_list [2; 3] [(str "axes", CText false (str "x,y")); (str "x_indices", CNum 1); (str "y_indices", CNum 0)] cells = Ok [a; b] /\ x_index a = 1 /\ x_index b = 0 /\ x_size a = 3 /\
  attribute_names (CText false (str "x,y")) 2 [str "x"; str "y"].
Proof. eexists _, _. split; [reflexivity|]. repeat split; reflexivity. Qed.
Example ex_dots : exists a b, nav_list [2; 3] [(str "axes", CTexts true [str "."; str "x"])] cells = Ok [a; b] /\ x_name a = None /\ x_size a = 2 /\ x_index a = 0 /\ x_name b = Some (str "x").
Proof. eexists _, _. split; [reflexivity|]. repeat split; reflexivity. Qed.
Example ex_clash : ax_of "x" 1 [0] = Err ValueError /\ stored cells (str "x") (str "eV") [0; 1#2; 1]%Q.
Proof. split; [reflexivity|]. eexists _, _, _; split; reflexivity. Qed.
Example ex_number : nav_list [2] [(str "axes", CNum 1)] cells = Err TypeError /\ nav_list [2; 3] [] cells = Ok [].
Proof. split; reflexivity. Qed.
(** A descending axis comes back ascending, while the data keep their order. *)
Theorem C118_descending_refuted : exists l r, stored cells (str "down") (str "eV") l /\ even 4 (-1) l /\ ax_of "down" 1 [0; 1] = Ok r /\ ~ (x_offset (fst r) + x_scale (fst r) * iq 0 == nth 0 l 0)%Q.
Proof.
  exists [4; 3; 2]%Q. eexists. split; [eexists _, _, _; split; reflexivity|]. split; [intros [|[|[|i]]] q H; try (injection H as <-; reflexivity); destruct i; discriminate|]. split; [reflexivity|]. vm_compute. discriminate.
Qed.
(** Steps far below 1e-8 count as even whatever they are. *)
Theorem C118_tiny_refuted : exists l r, stored cells (str "tiny") (str "s") l /\ ax_of "tiny" 1 [0; 1] = Ok r /\ x_units (fst r) = Some (str "s") /\ (x_offset (fst r) + x_scale (fst r) * iq 2 == 2 # 1000000000)%Q /\ nth 2 l 0%Q = (5 # 1000000000)%Q.
Proof. exists [0; 1#1000000000; 5#1000000000]%Q. eexists. split; [eexists _, _, _; split; reflexivity|]. split; [reflexivity|]. repeat split; reflexivity. Qed.
(** An uneven axis loses its values and its units. *)
Theorem C118_uneven_refuted : exists r, ax_of "log" 1 [0; 1] = Ok r /\ x_units (fst r) = None /\ x_scale (fst r) = 1%Q /\ x_offset (fst r) = 0%Q /\ stored cells (str "log") (str "eV") [1; 10; 100]%Q.
Proof. eexists. split; [reflexivity|]. repeat split; try reflexivity. eexists _, _, _; split; reflexivity. Qed.
(** A dot before an axis with a lower position: two axes for one dimension, none for the other. *)
Theorem C118_dots_refuted : exists a b, nav_list [3; 2] [(str "axes", CTexts true [str "."; str "x"]); (str "x_indices", CNum 0)] cells = Ok [a; b] /\ x_index a = 0 /\ x_index b = 0.
Proof. eexists _, _. split; [reflexivity|]. split; reflexivity. Qed.

(** * What is found *)
Definition tree : node :=
  Group [] [(str "entry", (None, Group [] [(str "d", (None, Group nx_attrs cells)); (str "again", (Some (str "/entry/d"), Group nx_attrs cells)); (str "raw", (None, Data [] (CArr [2] [1; 2]%Q))); (str "note", (None, Data [] (CText true (str "hi"))))]))].
Lemma tree_tidy : tidy tree.
Proof.
  assert (N : forall k, (forallb (fun c => negb (c =? 47)) k && negb (eqb_str k [])) = true -> name_ok k).
  { intros k H. apply andb_true_iff in H. destruct H as [H1 H2]. split; [intros ->; discriminate|]. intros I. rewrite forallb_forall in H1. specialize (H1 47 I). discriminate. }
  assert (C : forall a, tidy (Group a cells)).
  { intros a. constructor.
    - repeat (constructor; [cbn; intros K; repeat (destruct K as [K|K]; [discriminate|]); destruct K|]). constructor.
    - intros k link m I. cbn [cells In] in I. repeat (destruct I as [I|I]; [injection I as <- <- <-; split; [apply N; reflexivity|constructor]|]). destruct I. }
  constructor; [repeat constructor; intros []|]. intros k link m [I|[]]. injection I as <- <- <-. split; [apply N; reflexivity|]. constructor.
  - repeat (constructor; [cbn; intros K; repeat (destruct K as [K|K]; [discriminate|]); destruct K|]). constructor.
  - intros k link m I. cbn [In] in I. repeat (destruct I as [I|I]; [injection I as <- <- <-; split; [apply N; reflexivity|first [apply C|constructor]]|]). destruct I.
Qed.
Example ex_found : exists l, tidy tree /\ find_tree true [] tree = Ok l /\ paths true true l = [str "/entry/d"] /\ paths true false l = [str "/entry/d"; str "/entry/again"] /\ In (str "/entry/raw") (paths false true l).
Proof. eexists. split; [apply tree_tidy|]. split; [vm_compute; reflexivity|]. repeat split; vm_compute; auto 12. Qed.
Example ex_data : exists h, find_data tree (Some [str "rw"; str "aga"]) false (Some [str "/entry/raw"]) = Ok ([str "/entry/again"], h) /\ In (str "/entry/raw") h /\ NoDup h.
Proof. eexists. split; [vm_compute; reflexivity|]. split; [vm_compute; auto 12|]. repeat (constructor; [cbn; intros K; repeat (destruct K as [K|K]; [discriminate|]); destruct K|]). constructor. Qed.
Example ex_targets : targets (Group [(str "target", CText false (str "/x"))] []) /\ find_tree false [] (Group [(str "target", CNum 1)] [(str "a", (None, Group [] []))]) = Err AttributeError.
Proof. split; [|reflexivity]. constructor; [|intros k l m []]. intros c H. vm_compute in H. injection H as <-. eexists. reflexivity. Qed.
Example ex_fetch : at_names tree [str "entry"; str "d"] (Group nx_attrs cells) /\ fetch tree (str "/entry/d") = Ok (Group nx_attrs cells) /\ last_part (str "/entry/d") = str "d".
Proof. split; [|split; reflexivity]. econstructor; [left; reflexivity|]. econstructor; [left; reflexivity|]. constructor. Qed.
Example ex_keys : check_keys (KText (str "a")) = Ok (Some [str "a"]) /\ check_keys KOther = Err ValueError.
Proof. split; reflexivity. Qed.
(** A target is looked for in the group around the dataset: one on the dataset itself is not seen, and one on a group makes its members links. *)
Theorem C119_target_refuted : exists l m,
  find_tree true [] (Group [] [(str "a", (None, Data [(str "target", CText true (str "/b"))] (CArr [2] [1; 2]%Q)))]) = Ok l /\ paths false true l = [str "/a"] /\
  find_tree true [] (Group [(str "target", CText true (str "/b"))] [(str "a", (None, Data [] (CArr [2] [1; 2]%Q)))]) = Ok m /\ paths false true m = [].
Proof. eexists _, _. split; [vm_compute; reflexivity|]. split; [reflexivity|]. split; [vm_compute; reflexivity|reflexivity]. Qed.
(** The default is a part of a path: other data whose name goes on after it are read, too. *)
Theorem C119_default_refuted : default_paths [(k_attrs, MDict [(str "default", MText (str "e"))]); (str "e", MDict [(k_attrs, MDict [(str "default", MText (str "a"))])])] [str "/e/a"; str "/e/ab"; str "/f"] [] = Ok ([str "/e/a"; str "/e/ab"], []).
Proof. reflexivity. Qed.

(** * Metadata *)
Definition some_meta : dict :=
  [(str "a", MDict [(k_attrs, MDict [(str "kind", MText (str "T"))]); (str "n", MNum (3#2)); (str "l", MArr [2] [1; 2]%Q)]);
   (str "b", MDict [(k_value, MText (str "hi")); (k_attrs, MDict [(str "unit", MText (str "V"))])]); (str "w", MTexts [str "p"; str "q"]); (str "drop", MNum 0)].
Lemma key_fine : forall k, negb (startswith (str "keys") k) && negb (eqb_str k k_attrs) = true -> key_ok k.
Proof.
  intros k H. apply andb_true_iff in H. destruct H as [H1 H2]. split; [intros ->; rewrite eqb_str_refl in H2; discriminate|]. intros E.
  assert (X : startswith (str "keys") k = true) by (apply starts_spec; exact E). rewrite X in H1. discriminate.
Qed.
Ltac nodups := repeat (constructor; [cbn; intros K; repeat (destruct K as [K|K]; [discriminate|]); destruct K|]); constructor.
Ltac in_list_of I := cbn [In app] in I; repeat (destruct I as [I|I]; [injection I as <- <-|]); try destruct I.
Lemma notes_one : forall k s, clean s = s -> ~ (k = str "NX_class" /\ s = str "NXdata") -> notes [(k, MText s)].
Proof.
  intros k s C N. split; [discriminate|]. split; [repeat constructor; intros []|]. split.
  - unfold no_nxdata. cbn [lookup]. destruct (eqb_str (str "NX_class") k) eqn:E; [|discriminate]. apply eqb_str_spec in E. intros K. injection K as ->. apply N. auto.
  - intros k' v [I|[]]. injection I as <- <-. exact C.
Qed.
Lemma some_plain : NoDup (map fst some_meta) /\ (forall k v, In (k, v) some_meta -> key_ok k) /\ (forall k v, In (k, v) some_meta -> plain v).
Proof.
  split; [nodups|]. split.
  - intros k v I. unfold some_meta in I. in_list_of I; apply key_fine; reflexivity.
  - intros k v I. unfold some_meta in I. in_list_of I.
    + apply (plain_dict [(k_attrs, MDict [(str "kind", MText (str "T"))])] [(str "n", MNum (3#2)); (str "l", MArr [2] [1; 2]%Q)]).
      * right. eexists. split; [reflexivity|]. split; [apply notes_one; [reflexivity|intros [K _]; discriminate]|]. intros k v [I|[]]. injection I as <- <-. apply key_fine. reflexivity.
      * nodups.
      * intros k v I. in_list_of I; apply key_fine; reflexivity.
      * intros k v I. in_list_of I; apply plain_leaf; cbn; auto.
      * intros v E. discriminate.
    + apply plain_noted; [reflexivity|]. apply notes_one; [reflexivity|intros [K _]; discriminate].
    + apply plain_leaf. cbn. auto.
    + apply plain_leaf. cbn. auto.
Qed.
Example ex_round_trip : exists n, collection [str "drop"] some_meta = Ok n /\ load_tree true n =
  Ok [note; (str "a", MDict [(k_attrs, MDict [(str "kind", MText (str "T"))]); (str "n", MNum (3#2))]); (str "b", MDict [(k_value, MText (str "hi")); (k_attrs, MDict [(str "unit", MText (str "V"))])])] /\
  kept_dict [] false some_meta = some_meta.
Proof. eexists. split; [vm_compute; reflexivity|]. split; vm_compute; reflexivity. Qed.
Definition words : dict := [(str "a", MDict [(str "b", MNum 1); (str "cd", MDict [(str "b", MNum 2)])]); (str "e", MNum 3)].
Example ex_search : clear (MDict words) /\ search_dict (Some [str "d/b"; str "e"]) words = Ok [(str "a", MDict [(str "cd", MDict [(str "b", MNum 2)])]); (str "e", MNum 3)] /\ search_dict None words = Ok words.
Proof.
  split; [|split; reflexivity].
  assert (W : forall k, forallb (fun c => negb (c =? 46) && negb (c =? 47)) k && negb (eqb_str k []) = true -> k <> [] /\ ~ In 46 k /\ ~ In 47 k).
  { intros k H. apply andb_true_iff in H. destruct H as [H1 H2]. rewrite forallb_forall in H1. split; [intros ->; discriminate|]. split; intros I; specialize (H1 _ I); discriminate. }
  assert (L : forall q, clear (MNum q)) by (intros q; apply clear_leaf; intros [d K]; discriminate).
  apply clear_dict; [nodups|intros k v I; unfold words in I; in_list_of I; apply W; reflexivity|]. intros k v I. unfold words in I. in_list_of I; [|apply L].
  apply clear_dict; [nodups|intros k v I; in_list_of I; apply W; reflexivity|]. intros k v I. in_list_of I; [apply L|]. apply clear_dict; [nodups|intros k v I; in_list_of I; apply W; reflexivity|]. intros k v I. in_list_of I. apply L.
Qed.
Definition again (d : dict) : res dict := let! n := collection [] d in load_tree false n.
(** Names starting with "keys" change; blanks at the end, lists of one, None and empty lists do not survive; a dictionary with only a value is the value. *)
Theorem C120_keys_refuted : again [(str "keys", MNum 1)] = Ok [note; (str "fix_keys", MNum 1)].
Proof. reflexivity. Qed.
Theorem C120_values_refuted :
  again [(str "a", MText (str "x ")); (str "b", MTexts [str "p"]); (str "c", MNone); (str "d", MArr [1] [5%Q]); (str "e", MArr [0] []); (str "f", MDict [(k_value, MNum 4)])] =
  Ok [note; (str "a", MText (str "x")); (str "b", MText (str "p")); (str "d", MNum 5); (str "f", MNum 4)].
Proof. reflexivity. Qed.
(** A dictionary with only None as its value cannot be written. *)
Theorem C120_none_refuted : collection [] [(str "a", MDict [(k_value, MNone)])] = Err KeyError.
Proof. reflexivity. Qed.
(** Lists of dictionaries lose their names, and two lists are mixed. *)
Theorem C120_lists_refuted : again [(str "p", MDicts [[(str "x", MNum 1)]]); (str "q", MDicts [[(str "y", MNum 2)]])] = Ok [note; (str "_axes_0", MDict [(str "x", MNum 1); (str "y", MNum 2)])].
Proof. reflexivity. Qed.
(** A dictionary marked as NXdata is not written. *)
Theorem C120_nxdata_refuted : again [(str "a", MDict [(k_attrs, MDict [(str "NX_class", MText (str "NXdata"))]); (str "x", MNum 1)])] = Ok [note].
Proof. reflexivity. Qed.
(** A dot in a name splits it. *)
Theorem C120_dots_refuted : search_dict (Some [str "a"]) [(str "a.b", MNum 1)] = Ok [(str "a", MDict [(str "b", MNum 1)])].
Proof. reflexivity. Qed.

(** * Files *)
Definition wax (n : option pystr) (u : option pystr) (nav : bool) (o s : Q) (k : nat) : waxis := {| w_name := n; w_units := u; w_nav := nav; w_kind := Uniform o s k |}.
Definition one : wsignal :=
  {| g_shape := [2; 3]; g_data := [1; 2; 3; 4; 5; 6]%Q; g_axes := [wax (Some (str "y")) None true 1 (1#2) 2; wax (Some (str "x")) (Some (str "nm")) false 0 2 3];
     g_meta := (str "General", MDict [(str "title", MText (str "my/map")); (str "date", MText (str "today"))]) :: some_meta; g_original := some_meta |}.
Definition two : wsignal := {| g_shape := [3]; g_data := [7; 8; 9]%Q; g_axes := [wax None None false 0 1 3]; g_meta := []; g_original := [] |}.
Definition opts (nx : bool) : options := {| o_key := KNone; o_path := KNone; o_metadata_key := KNone; o_skip := false; o_nxdata := nx; o_hard := false; o_default := false |}.
Definition around (l : list wsignal) : res (list signal) := let! f := write_file (Some []) true l in read_file (str "f.nxs") (opts true) f.
Lemma differ : forall l, NoDup (List.concat (map (fun w => match w_name w with Some n => [n] | None => [] end) l)) -> names_differ l.
Proof.
  induction l as [|w l IH]; intros H i j a b nm Hi Hj Ea Eb; [destruct i; discriminate|]. cbn [map List.concat] in H.
  assert (T : NoDup (List.concat (map (fun w => match w_name w with Some n => [n] | None => [] end) l))) by (destruct (w_name w); [inversion H; assumption|exact H]).
  assert (I : forall k x n, nth_error l k = Some x -> w_name x = Some n -> In n (List.concat (map (fun w => match w_name w with Some n => [n] | None => [] end) l))).
  { intros k x n Hk En. apply in_concat. exists [n]. split; [|left; reflexivity]. apply in_map_iff. exists x. split; [rewrite En; reflexivity|]. eapply nth_error_In. exact Hk. }
  destruct i as [|i], j as [|j]; [reflexivity| | |f_equal; eapply IH; eassumption].
  - injection Hi as ->. rewrite Ea in H. inversion H as [|? ? N _]; subst. destruct N. eapply I; eassumption.
  - injection Hj as ->. rewrite Eb in H. inversion H as [|? ? N _]; subst. destruct N. eapply I; eassumption.
Qed.
Lemma quiet_some : forall d, (forall k v, In (k, v) d -> In (k, v) some_meta \/ ~ is_dict v \/ v = MDict [(str "title", MText (str "my/map")); (str "date", MText (str "today"))]) -> (forall t, ~ In (k_attrs, MDict t) d) -> quiet (MDict d).
Proof.
  assert (L : forall v, match v with MDict _ => False | _ => True end -> quiet v) by (intros v H; apply quiet_leaf; intros [d ->]; exact H).
  assert (S1 : forall s, quiet (MDict [(str "kind", MText s)])) by (intros s; apply quiet_dict; [intros k v I; in_list_of I; apply L; exact Logic.I|intros t v [I|[]]; discriminate]).
  intros d H N. apply quiet_dict; [|intros t v I; destruct (N t I)]. intros k v I. destruct (H k v I) as [J|[J| ->]].
  - unfold some_meta in J. in_list_of J; try (apply L; exact Logic.I).
    + apply quiet_dict; [intros k v J; in_list_of J; first [apply S1|apply L; exact Logic.I]|]. intros t v [J|[J|[J|[]]]]; try discriminate. injection J as <-. discriminate.
    + apply quiet_dict; [intros k v J; in_list_of J; [apply L; exact Logic.I|]; apply quiet_dict; [intros k v J; in_list_of J; apply L; exact Logic.I|intros t v [J|[]]; discriminate]|].
      intros t v [J|[J|[]]]; try discriminate. injection J as <-. discriminate.
  - apply quiet_leaf. exact J.
  - apply quiet_dict; [intros k' v J; in_list_of J; apply L; exact Logic.I|]. intros t v [J|[J|[]]]; discriminate.
Qed.
Lemma one_good : good 0 one.
Proof.
  destruct some_plain as (P1 & P2 & P3). split; [|split; [|split; [|split; [discriminate|discriminate]]]].
  - split; [|split; [|split]].
    + constructor; [|constructor; [|constructor]]; (split; [repeat split; discriminate|]); do 3 eexists; (split; [reflexivity|]); split; [lia|reflexivity|lia|reflexivity].
    + split; [reflexivity|]. intros [|[|[|k]]] n w o s m Hn Hw Ek; try discriminate; injection Hn as <-; injection Hw as <-; injection Ek as <- <- <-; reflexivity.
    + apply differ. nodups.
    + exists [wax (Some (str "y")) None true 1 (1#2) 2], [wax (Some (str "x")) (Some (str "nm")) false 0 2 3]. split; [reflexivity|]. split; [repeat constructor|]. split; [repeat constructor|]. left. reflexivity.
  - split; [nodups|]. split; [|split].
    + intros k v [I|I]; [injection I as <- <-; apply key_fine; reflexivity|exact (P2 k v I)].
    + intros k v [I|I]; [|exact (P3 k v I)]. injection I as <- <-. apply (plain_dict [] [(str "title", MText (str "my/map")); (str "date", MText (str "today"))]).
      * left. reflexivity.
      * nodups.
      * intros k v I. in_list_of I; apply key_fine; reflexivity.
      * intros k v I. in_list_of I; apply plain_leaf; reflexivity.
      * intros v E. discriminate.
    + apply quiet_some; [intros k v [I|I]; [injection I as _ <-; right; right; reflexivity|left; exact I]|]. intros t I. unfold some_meta in I. cbn [g_meta one In some_meta] in I. repeat (destruct I as [I|I]; [discriminate I|]). destruct I.
  - split; [exact P1|]. split; [exact P2|]. split; [exact P3|]. apply quiet_some; [intros k v I; left; exact I|]. intros t I. unfold some_meta in I. cbn [In] in I. repeat (destruct I as [I|I]; [discriminate|]). destruct I.
Qed.
Lemma two_good : good 1 two.
Proof.
  assert (M : good_meta []) by (split; [constructor|]; split; [intros k v []|]; split; [intros k v []|]; apply quiet_dict; [intros k v []|intros t v []]).
  split; [|split; [exact M|split; [exact M|split; [discriminate|discriminate]]]]. split; [|split; [|split]].
  - repeat constructor.
  - split; [reflexivity|]. intros [|[|k]] n w o s m Hn Hw Ek; try discriminate. injection Hn as <-. injection Hw as <-. injection Ek as <- <- <-. reflexivity.
  - apply differ. constructor.
  - exists [], [wax None None false 0 1 3]. split; [reflexivity|]. split; [constructor|]. split; [repeat constructor|]. left. reflexivity.
Qed.
Example ex_file : (forall k s, nth_error [one; two] k = Some s -> good (Z.of_nat k) s) /\ exists a b, around [one; two] = Ok [a; b] /\
  s_data a = CArr [2; 3] [1; 2; 3; 4; 5; 6]%Q /\ map x_name (s_axes a) = [Some (str "y"); Some (str "x")] /\ map x_nav (s_axes a) = [true; false] /\
  lookup (str "General") (s_meta a) = Some (MDict [(str "title", MText (str "my_map"))]) /\ lookup (str "w") (s_meta a) = Some (MTexts [str "p"; str "q"]) /\ s_original a = note :: some_meta /\
  lookup (str "General") (s_meta b) = Some (MDict [(str "title", MText (str "unnamed__1"))]) /\ map x_name (s_axes b) = [None].
Proof.
  split; [intros [|[|[|k]]] s H; try discriminate; injection H as <-; [apply one_good|apply two_good]|]. eexists _, _. split; [vm_compute; reflexivity|]. repeat split; reflexivity.
Qed.
Example ex_signal : fine one.
Proof. apply one_good. Qed.
Example ex_title : title_of (g_meta one) = str "my/map" /\ signal_name (g_meta one) 0 = str "my_map" /\ signal_name [] 1 = str "unnamed__1".
Proof. repeat split; reflexivity. Qed.
Definition plainly (l : list waxis) (shape : list Z) (data : list Q) (title : string) : wsignal :=
  {| g_shape := shape; g_data := data; g_axes := l; g_meta := [(str "General", MDict [(str "title", MText (str title))]); (str "Sample", MNum 1)]; g_original := [] |}.
(** Two axes with one name are written, but the file cannot be read. *)
Theorem C121_twice_refuted : exists f, write_file None false [plainly [wax (Some (str "x")) None true 0 1 2; wax (Some (str "x")) None false 0 1 2] [2; 2] [1; 2; 3; 4]%Q "t"] = Ok f /\ read_file [] (opts true) f = Err ValueError.
Proof. eexists. split; vm_compute; reflexivity. Qed.
(** A signal called "auxiliary" has its own group for its metadata: the file cannot be read back with its metadata. *)
Theorem C121_auxiliary_refuted : exists x, around [plainly [wax (Some (str "x")) None false 0 1 2] [2] [1; 2]%Q "auxiliary"] = Ok [x] /\ lookup (str "Sample") (s_meta x) = None.
Proof. eexists. split; vm_compute; reflexivity. Qed.
(** Three signal axes come back for navigation. *)
Theorem C121_three_refuted : exists x, around [plainly [wax (Some (str "x")) None false 0 1 2; wax (Some (str "y")) None false 0 1 2; wax (Some (str "z")) None false 0 1 2] [2; 2; 2] [1; 2; 3; 4; 5; 6; 7; 8]%Q "t"] = Ok [x] /\
  map x_nav (s_axes x) = [true; true; true].
Proof. eexists. split; vm_compute; reflexivity. Qed.
(** The name "data" for an axis of one dimension: the data are taken for the axis. *)
Theorem C121_data_refuted : exists x a, around [plainly [wax (Some (str "data")) None false 0 1 3] [3] [10; 20; 30]%Q "t"] = Ok [x] /\ s_axes x = [a] /\ (x_scale a == 10)%Q /\ (x_offset a == 10)%Q.
Proof. eexists _, _. split; [vm_compute; reflexivity|]. repeat split; reflexivity. Qed.
(** An axis of one value loses its scale. *)
Theorem C121_short_refuted : exists x a, around [plainly [wax (Some (str "x")) None false 5 3 1] [1] [10]%Q "t"] = Ok [x] /\ s_axes x = [a] /\ x_scale a = 1%Q.
Proof. eexists _, _. split; [vm_compute; reflexivity|]. repeat split; reflexivity. Qed.
(** A negative scale comes back positive. *)
Theorem C121_negative_refuted : exists x a, around [plainly [wax (Some (str "x")) None false 5 (-1) 3] [3] [1; 2; 3]%Q "t"] = Ok [x] /\ s_axes x = [a] /\ (x_scale a == 1)%Q /\ (x_offset a == 3)%Q.
Proof. eexists _, _. split; [vm_compute; reflexivity|]. repeat split; reflexivity. Qed.
(** Of the general metadata only the title comes back. *)
Theorem C121_general_refuted : exists x, around [one] = Ok [x] /\ lookup (str "General") (s_meta x) = Some (MDict [(str "title", MText (str "my_map"))]).
Proof. eexists. split; vm_compute; reflexivity. Qed.
(** Read with everything, the axes are signals, too. *)
Theorem C121_extra_refuted : exists f x y z, write_file None false [plainly [wax (Some (str "x")) None false 0 2 3] [3] [7; 8; 9]%Q "t"] = Ok f /\
  read_file [] (opts false) f = Ok [x; y] /\ s_data y = CArr [3] z.
Proof. eexists _, _, _, _. split; [vm_compute; reflexivity|]. split; [vm_compute; reflexivity|reflexivity]. Qed.
(** … and the second one is described by the first. *)
Theorem C121_wrong_refuted : exists f x y z a, write_file None false [plainly [wax (Some (str "y")) (Some (str "s")) true 0 1 2; wax (Some (str "x")) (Some (str "nm")) false 0 2 3] [2; 3] [7; 8; 9; 7; 8; 9]%Q "t"] = Ok f /\
  read_file [] (opts false) f = Ok [x; y; z] /\ s_data z = CArr [3] [0; 2; 4]%Q /\ s_axes z = [a] /\ x_name a = Some (str "y") /\ x_units a = Some (str "s").
Proof. eexists _, _, _, _, _. split; [vm_compute; reflexivity|]. split; [vm_compute; reflexivity|]. repeat split; reflexivity. Qed.
(** Axes in another order than the dimensions: all the data cannot be read. *)
Theorem C121_order_refuted : exists l, nav_list [2; 3] [(str "axes", CTexts true [str "x"; str "y"]); (str "x_indices", CNum 1); (str "y_indices", CNum 0)] cells = Ok l /\
  hdf_signal [(str "axes", CTexts true [str "x"; str "y"]); (str "x_indices", CNum 1); (str "y_indices", CNum 0)] cells (str "x") (CArr [3] [0; 1#2; 1]%Q) = Err ValueError.
Proof. eexists. split; reflexivity. Qed.
Print Assumptions C118_descending_refuted.
Print Assumptions C118_tiny_refuted.
Print Assumptions C118_uneven_refuted.
Print Assumptions C118_dots_refuted.
Print Assumptions C119_target_refuted.
Print Assumptions C119_default_refuted.
Print Assumptions C120_keys_refuted.
Print Assumptions C120_values_refuted.
Print Assumptions C120_none_refuted.
Print Assumptions C120_lists_refuted.
Print Assumptions C120_nxdata_refuted.
Print Assumptions C120_dots_refuted.
Print Assumptions C121_twice_refuted.
Print Assumptions C121_auxiliary_refuted.
Print Assumptions C121_three_refuted.
Print Assumptions C121_data_refuted.
Print Assumptions C121_short_refuted.
Print Assumptions C121_negative_refuted.
Print Assumptions C121_general_refuted.
Print Assumptions C121_extra_refuted.
Print Assumptions C121_wrong_refuted.
Print Assumptions C121_order_refuted.
