(** Property C92: axes and data of Jobin Yvon files. *)
From Coq Require Import QArith.
From Verif Require Import Base Text HierModel HierProps SfsModel RowMajor XmlModel JyModel.
Local Open Scope Z_scope.

(** * Specification *)
Definition marked (id : string) (e : xml) : bool := match lookup (str "ID") (x_attrs e) with Some s => eqb_str s (str id) | None => false end.
Definition has_id (e : xml) : Prop := exists s, lookup (str "ID") (x_attrs e) = Some s.
(** The children with an id; the last of them *)
Definition all_of (id : string) (l : list xml) : list xml := filter (marked id) l.
Definition last_of (id : string) (l : list xml) : option xml := hd_error (rev (all_of id l)).
Definition text_of (id : string) (l : list xml) : option pystr := option_map x_text (last_of id l).
Definition VALUES := "0x7D6CD4DB"%string.
Definition NAME := "0x6D707974"%string.
Definition UNITS := "0x7C696E75"%string.
(** An axis of the file: its values, and texts *)
Record line := { l_values : list Q; l_name : option pystr; l_units : option pystr }.
Definition is_line (numbers : pystr -> list Q) (e : xml) (a : line) : Prop :=
  Forall has_id (x_children e) /\ (exists c, all_of VALUES (x_children e) = [c] /\ x_text c <> [] /\ numbers (strip (x_text c)) = l_values a) /\ l_name a = text_of NAME (x_children e) /\ l_units a = text_of UNITS (x_children e).
Definition first (l : list Q) : Q := nth 0 l 0%Q.
Definition second (l : list Q) : Q := nth 1 l 0%Q.
Definition size (l : list Q) : Z := Z.of_nat (List.length l).
Definition nav_axis (a : line) (i : Z) : axis := {| a_name := l_name a; a_units := l_units a; a_scale := Uniform (first (l_values a)) (second (l_values a) - first (l_values a)) (size (l_values a)); a_navigate := true; a_index := i |}.
Definition falling (l : list Q) : Prop := (second l < first l)%Q.
(** What the units say *)
Definition ends (s t : pystr) : Prop := exists a, s = a ++ t.
Definition per (u : pystr) : Prop := In 47 u.
Definition units_of (u name shown : pystr) : Prop :=
  (exists a c, u = a ++ c :: str "abs" /\ per u /\ name = str "Wavenumber" /\ shown = a) \/ (per u /\ ends u (str "m") /\ name = str "Raman Shift" /\ shown = u) \/ (ends u (str "eV") /\ name = str "Energy" /\ shown = u) \/
  (~ (per u /\ ends u (str "abs")) /\ ~ (per u /\ ends u (str "m")) /\ ~ ends u (str "eV") /\ name = str "Wavelength" /\ shown = u).
Definition signal_named (a : line) (name shown : option pystr) : Prop := match l_units a with None => name = None /\ shown = None | Some u => exists n s, units_of u n s /\ name = Some n /\ shown = Some s end.
Definition signal_scale (fit : list Q -> Q * Q) (uniform : bool) (l : list Q) : scale := if uniform then Uniform (fst (fit l)) (snd (fit l)) (size l) else Values l.
Definition signal_axis (fit : list Q -> Q * Q) (uniform reversed : bool) (a : line) (name shown : option pystr) (i : Z) : axis :=
  {| a_name := name; a_units := shown; a_scale := signal_scale fit uniform (if reversed then rev (l_values a) else l_values a); a_navigate := false; a_index := i |}.
(** Elements with an id of which there is at most one *)
Definition optional (l : list xml) (id : string) (e : option xml) : Prop := all_of id l = match e with Some e => [e] | None => [] end.

(** * Children *)
Lemma all_app : forall id a b, all_of id (a ++ b) = all_of id a ++ all_of id b.
Proof. intros. apply filter_app. Qed.
Lemma last_snoc : forall id a c, last_of id (a ++ [c]) = if marked id c then Some c else last_of id a.
Proof. intros id a c. unfold last_of. rewrite all_app. unfold all_of at 2. cbn [filter]. destruct (marked id c); [rewrite rev_app_distr; reflexivity|rewrite app_nil_r; reflexivity]. Qed.
Lemma foldM_app : forall A B (f : A -> B -> res A) a l r, foldM f a (l ++ r) = let! a := foldM f a l in foldM f a r.
Proof. intros A B f a l. revert a. induction l as [|x l IH]; intros a r; [reflexivity|]. cbn [app foldM]. destruct (f a x) as [y|e]; [|reflexivity]. cbn [bind]. apply IH. Qed.
Lemma foldM_snoc : forall A B (f : A -> B -> res A) a l x, foldM f a (l ++ [x]) = let! a := foldM f a l in f a x.
Proof. intros. rewrite foldM_app. destruct (foldM f a l) as [y|e]; [|reflexivity]. cbn [bind foldM]. destruct (f y x); reflexivity. Qed.
Lemma id_read : forall e, has_id e -> exists s, get_id e = Ok s /\ forall id, is_id s id = marked id e.
Proof. intros e [s H]. exists s. unfold get_id, marked. rewrite H. split; reflexivity. Qed.
Lemma text_snoc : forall id a c, text_of id (a ++ [c]) = if marked id c then Some (x_text c) else text_of id a.
Proof. intros id a c. unfold text_of. rewrite last_snoc. destruct (marked id c); reflexivity. Qed.
Lemma sole_split : forall id l c, all_of id l = [c] -> exists a b, l = a ++ c :: b /\ all_of id a = [] /\ all_of id b = [] /\ marked id c = true.
Proof.
  intros id l c. induction l as [|x l IH]; intro H; [discriminate H|]. unfold all_of in H. cbn [filter] in H. destruct (marked id x) eqn:E.
  - injection H as -> H. exists [], l. split; [reflexivity|]. split; [reflexivity|]. split; assumption.
  - destruct (IH H) as (a & b & -> & A & B & M). exists (x :: a), b. split; [reflexivity|]. split; [|split; assumption]. unfold all_of. cbn [filter]. rewrite E. exact A.
Qed.
Lemma all_snoc_nil : forall id a c, all_of id (a ++ [c]) = [] -> all_of id a = [] /\ marked id c = false.
Proof. intros id a c H. rewrite all_app in H. apply app_eq_nil in H. destruct H as [A C]. split; [exact A|]. unfold all_of in C. cbn [filter] in C. destruct (marked id c); [discriminate C|reflexivity]. Qed.
Lemma same_id : forall i j c, marked i c = true -> eqb_str (str i) (str j) = false -> marked j c = false.
Proof. intros i j c H N. unfold marked in *. destruct (lookup (str "ID") (x_attrs c)) as [s|]; [|reflexivity]. apply eqb_str_spec in H. subst s. exact N. Qed.

Section Reading.
  Variable numbers : pystr -> list Q.
  Variable fit : list Q -> Q * Q.
  Definition nav_step := fun (st : bool * option pystr * option pystr * scale * option Z) c =>
      let '(has, name, units, sc, size) := st in
      let! id := get_id c in
      let name := if is_id id "0x6D707974" then Some (x_text c) else name in
      let units := if is_id id "0x7C696E75" then Some (x_text c) else units in
      if is_id id "0x7D6CD4DB"
      then let! l := fromstring numbers c in
           match l with
           | x0 :: x1 :: _ => Ok (has, name, units, Uniform x0 (x1 - x0)%Q (zlen l), Some (zlen l))
           | _ => Ok (false, name, units, sc, Some (zlen l))
           end
      else Ok (has, name, units, sc, size).
  Definition or (a b : option pystr) : option pystr := match a with Some x => Some x | None => b end.
  Lemma or_snoc : forall id l c d, or (text_of id (l ++ [c])) d = if marked id c then Some (x_text c) else or (text_of id l) d.
  Proof. intros id l c d. rewrite text_snoc. destruct (marked id c); reflexivity. Qed.
  Lemma nav_quiet : forall l has name units sc n, Forall has_id l -> all_of VALUES l = [] -> foldM nav_step (has, name, units, sc, n) l = Ok (has, or (text_of NAME l) name, or (text_of UNITS l) units, sc, n).
  Proof.
    intros l has name units sc n. induction l as [|c l IH] using rev_ind; intros H V; [reflexivity|]. apply Forall_app in H. destruct H as [H HC]. inversion HC as [|? ? C _]; subst. apply all_snoc_nil in V. destruct V as [V M]. rewrite foldM_snoc, IH by assumption. cbn [bind]. unfold nav_step. destruct (id_read c C) as (s & G & I). rewrite G. cbn [bind]. rewrite !I. fold VALUES. rewrite M. rewrite !or_snoc. reflexivity.
  Qed.
  Lemma or_app : forall id a c b d, marked id c = false -> or (text_of id b) (or (text_of id a) d) = or (text_of id (a ++ c :: b)) d.
  Proof.
    intros id a c b d M. unfold text_of, last_of. rewrite all_app. assert (X : all_of id (c :: b) = all_of id b) by (unfold all_of; cbn [filter]; rewrite M; reflexivity). rewrite X. rewrite rev_app_distr. destruct (rev (all_of id b)); [reflexivity|]. reflexivity.
  Qed.
  Lemma nav_read : forall e a, is_line numbers e a -> set_nav_axis numbers e = Ok (if 2 <=? size (l_values a) then Some (nav_axis a 0) else None, size (l_values a)).
  Proof.
    intros e a (H & (c & S & T & N) & LN & LU). unfold set_nav_axis. change (foldM _ (true, None, None, NoScale, None) (x_children e)) with (foldM nav_step (true, None, None, NoScale, None) (x_children e)). destruct (sole_split _ _ _ S) as (p & q & E & P & Q & M). rewrite E in *. apply Forall_app in H. destruct H as [HP HQ]. inversion HQ as [|? ? HC HQ']; subst.
    rewrite foldM_app, nav_quiet by assumption. cbn [bind foldM]. unfold nav_step at 1. destruct (id_read c HC) as (s & G & I). rewrite G. cbn [bind]. rewrite !I. fold VALUES NAME UNITS. assert (MN : marked NAME c = false) by (apply (same_id VALUES); [exact M|reflexivity]). assert (MU : marked UNITS c = false) by (apply (same_id VALUES); [exact M|reflexivity]). rewrite M, MN, MU.
    assert (F : fromstring numbers c = Ok (l_values a)) by (unfold fromstring; destruct (x_text c) eqn:X; [contradiction|]; rewrite N; reflexivity). rewrite F. cbn [bind].
    assert (ON : or (text_of NAME q) (or (text_of NAME p) None) = l_name a) by (rewrite (or_app NAME p c q None MN), LN; destruct (text_of NAME (p ++ c :: q)); reflexivity). assert (OU : or (text_of UNITS q) (or (text_of UNITS p) None) = l_units a) by (rewrite (or_app UNITS p c q None MU), LU; destruct (text_of UNITS (p ++ c :: q)); reflexivity).
    unfold nav_axis, size, first, second. destruct (l_values a) as [|x0 [|x1 l]] eqn:V; cbn [bind].
    - rewrite nav_quiet by assumption. reflexivity.
    - rewrite nav_quiet by assumption. reflexivity.
    - rewrite nav_quiet by assumption. cbn [bind]. rewrite ON, OU. cbn [nth]. replace (2 <=? Z.of_nat (List.length (x0 :: x1 :: l))) with true by (cbn [List.length]; lia). reflexivity.
  Qed.

  Lemma has_char_in : forall c s, has_char c s = true <-> In c s.
  Proof. intros c s. unfold has_char. rewrite existsb_exists. split; [intros (x & H & E); apply Z.eqb_eq in E; subst x; exact H|intro H; exists c; split; [exact H|apply Z.eqb_refl]]. Qed.
  Lemma last_ends : forall s t, eqb_str (last_n (List.length t) s) t = true <-> ends s t.
  Proof.
    intros s t. rewrite eqb_str_spec. unfold last_n. split.
    - intro H. exists (firstn (List.length s - List.length t) s). rewrite <- H at 2. symmetry. apply firstn_skipn.
    - intros [a ->]. rewrite app_length. replace (List.length a + List.length t - List.length t)%nat with (List.length a) by lia. rewrite skipn_app, skipn_all, Nat.sub_diag. reflexivity.
  Qed.
  Lemma no_ends : forall s t, ~ ends s t -> eqb_str (last_n (List.length t) s) t = false.
  Proof. intros s t H. destruct (eqb_str (last_n (List.length t) s) t) eqn:E; [exfalso; apply H; apply last_ends; exact E|reflexivity]. Qed.
  Lemma end_differs : forall (u a b s : pystr) (c d : Z), u = a ++ s ++ [c] -> u = b ++ [d] -> c = d.
  Proof. intros u a b s c d E F. rewrite E in F. rewrite app_assoc in F. apply app_inj_tail in F. exact (proj2 F). Qed.
  Theorem C92_units : forall u name shown, units_of u name shown -> signal_units u = (name, shown).
  Proof.
    intros u name shown H. unfold signal_units. change 3%nat with (List.length (str "abs")). change 2%nat with (List.length (str "eV")). change 1%nat with (List.length (str "m")).
    destruct H as [(a & c & E & P & -> & ->)|[(P & M & -> & ->)|[(V & -> & ->)|(A & M & V & -> & ->)]]].
    - apply has_char_in in P. rewrite P. assert (X : eqb_str (last_n (List.length (str "abs")) u) (str "abs") = true) by (apply last_ends; exists (a ++ [c]); rewrite <- app_assoc; exact E). rewrite X. cbn [andb]. f_equal. unfold but_n. rewrite E, app_length. change (List.length (c :: str "abs")) with 4%nat. match goal with |- firstn ?n _ = _ => replace n with (List.length a) by (cbn; lia) end. rewrite firstn_app, firstn_all, Nat.sub_diag. cbn [firstn]. apply app_nil_r.
    - apply has_char_in in P. rewrite P. destruct M as [b B]. rewrite no_ends; [|intros [a A]; pose proof (end_differs u a b (str "ab") 115 109 A B) as X; discriminate X]. cbn [andb]. rewrite (proj2 (last_ends u (str "m"))) by (exists b; exact B). reflexivity.
    - destruct V as [b B]. assert (NA : ~ ends u (str "abs")) by (intros [a A]; pose proof (end_differs u a (b ++ str "e") (str "ab") 115 86 A) as X; rewrite <- app_assoc in X; specialize (X B); discriminate X). assert (NM : ~ ends u (str "m")) by (intros [a A]; pose proof (end_differs u b a (str "e") 86 109 B A) as X; discriminate X). rewrite (no_ends _ _ NA), (no_ends _ _ NM). rewrite !andb_false_r. rewrite (proj2 (last_ends u (str "eV"))) by (exists b; exact B). reflexivity.
    - assert (XA : has_char 47 u && eqb_str (last_n (List.length (str "abs")) u) (str "abs") = false) by (apply not_true_is_false; intro K; apply andb_prop in K; destruct K as [K1 K2]; apply A; split; [apply has_char_in; exact K1|apply last_ends; exact K2]).
      assert (XM : has_char 47 u && eqb_str (last_n (List.length (str "m")) u) (str "m") = false) by (apply not_true_is_false; intro K; apply andb_prop in K; destruct K as [K1 K2]; apply M; split; [apply has_char_in; exact K1|apply last_ends; exact K2]). rewrite XA, XM, (no_ends _ _ V). destruct (negb _ && _); reflexivity.
  Qed.
  Definition signal_step := fun (uniform : bool) (st : option pystr * option pystr * scale * option bool) c =>
      let '(name, units, sc, rv) := st in
      let! id := get_id c in
      let! st := if is_id id "0x7D6CD4DB"
                 then let! l := fromstring numbers c in
                      match l with
                      | x0 :: x1 :: _ => let r := above x0 x1 in let l := if r then rev l else l in
                                         Ok (if uniform then Uniform (fst (fit l)) (snd (fit l)) (zlen l) else Values l, Some r)
                      | _ => Ok (Values l, rv)
                      end
                 else Ok (sc, rv) in
      let (sc, rv) := st in
      if is_id id "0x7C696E75"
      then match x_text c with [] => Err TypeError | u => Ok (Some (fst (signal_units u)), Some (snd (signal_units u)), sc, rv) end
      else Ok (name, units, sc, rv).
  Definition or2 (u : option pystr) (d : option pystr * option pystr) : option pystr * option pystr := match u with Some u => (Some (fst (signal_units u)), Some (snd (signal_units u))) | None => d end.
  Definition told (l : list xml) : Prop := Forall (fun c => x_text c <> []) (all_of UNITS l).
  Lemma told_app : forall a b, told (a ++ b) <-> told a /\ told b.
  Proof. intros. unfold told. rewrite all_app. apply Forall_app. Qed.
  Lemma signal_quiet : forall uniform l name units sc rv, Forall has_id l -> all_of VALUES l = [] -> told l -> foldM (signal_step uniform) (name, units, sc, rv) l = Ok (fst (or2 (text_of UNITS l) (name, units)), snd (or2 (text_of UNITS l) (name, units)), sc, rv).
  Proof.
    intros uniform l name units sc rv. induction l as [|c l IH] using rev_ind; intros H V T; [reflexivity|]. apply Forall_app in H. destruct H as [H HC]. inversion HC as [|? ? C _]; subst. apply all_snoc_nil in V. destruct V as [V M]. apply told_app in T. destruct T as [T TC]. rewrite foldM_snoc, IH by assumption. cbn [bind]. unfold signal_step. destruct (id_read c C) as (s & G & I). rewrite G. cbn [bind]. rewrite !I. fold VALUES UNITS. rewrite M. cbn [bind]. rewrite text_snoc. unfold told, all_of in TC. cbn [filter] in TC. destruct (marked UNITS c); [|reflexivity]. inversion TC as [|? ? X _]; subst. cbn [or2 fst snd]. destruct (x_text c); [contradiction|reflexivity].
  Qed.
  Lemma above_falling : forall x y, above x y = true <-> (y < x)%Q.
  Proof. intros x y. unfold above. split; intro H; [apply Qnot_le_lt; intro K; apply Qle_bool_iff in K; rewrite K in H; discriminate H|]. destruct (Qle_bool x y) eqn:E; [apply Qle_bool_iff in E; exfalso; exact (Qlt_not_le _ _ H E)|reflexivity]. Qed.
  Lemma signal_read : forall uniform rv e a (r : bool) name shown, is_line numbers e a -> told (x_children e) -> 2 <= size (l_values a) -> (r = true <-> falling (l_values a)) -> signal_named a name shown ->
    set_signal_axis numbers fit uniform rv e = Ok (signal_axis fit uniform r a name shown 0, Some r).
  Proof.
    intros uniform rv e a r name shown (H & (c & S & T & N) & LN & LU) TO SZ R SN. unfold set_signal_axis. change (foldM _ (None, None, NoScale, rv) (x_children e)) with (foldM (signal_step uniform) (None, None, NoScale, rv) (x_children e)). destruct (sole_split _ _ _ S) as (p & q & E & P & Q & M). rewrite E in *. apply Forall_app in H. destruct H as [HP HQ]. inversion HQ as [|? ? HC HQ']; subst.
    apply told_app in TO. destruct TO as [TP TQ]. assert (MU : marked UNITS c = false) by (apply (same_id VALUES); [exact M|reflexivity]). assert (TQ' : told q) by (unfold told, all_of in *; cbn [filter] in TQ; rewrite MU in TQ; exact TQ).
    rewrite foldM_app, signal_quiet by assumption. cbn [bind foldM]. unfold signal_step at 1. destruct (id_read c HC) as (s & G & I). rewrite G. cbn [bind]. rewrite !I. fold VALUES UNITS. rewrite M, MU.
    assert (F : fromstring numbers c = Ok (l_values a)) by (unfold fromstring; destruct (x_text c) eqn:X; [contradiction|]; rewrite N; reflexivity). rewrite F. cbn [bind].
    assert (OU : or2 (text_of UNITS q) (or2 (text_of UNITS p) (None, None)) = (name, shown)).
    { assert (X : or2 (text_of UNITS q) (or2 (text_of UNITS p) (None, None)) = or2 (l_units a) (None, None)) by (rewrite LU; pose proof (or_app UNITS p c q None MU) as Y; destruct (text_of UNITS q), (text_of UNITS p), (text_of UNITS (p ++ c :: q)); cbn [or or2] in *; congruence). rewrite X. unfold signal_named in SN. destruct (l_units a) as [u|]; [|destruct SN as [-> ->]; reflexivity]. destruct SN as (n & t & U & -> & ->). cbn [or2]. rewrite (C92_units _ _ _ U). reflexivity. }
    unfold size in SZ. unfold signal_axis, signal_scale, falling, first, second, size in *. destruct (l_values a) as [|x0 [|x1 l]] eqn:V; [cbn in SZ; lia|cbn in SZ; lia|]. cbn [bind nth] in *.
    assert (AR : above x0 x1 = r) by (apply eq_true_iff_eq; rewrite above_falling; symmetry; exact R). cbv zeta. rewrite AR. cbn [bind]. rewrite signal_quiet by assumption. cbn [bind]. rewrite <- surjective_pairing. rewrite OU. cbn [fst snd]. reflexivity.
  Qed.
  (** ** All axes *)
  Record found := { f_setup : dict; f_signal : line; f_reversed : bool; f_name : option pystr; f_shown : option pystr; f_x : option line; f_y : option line }.
  Definition long (a : option line) : option line := match a with Some a => if 2 <=? size (l_values a) then Some a else None | None => None end.
  Definition axes_of (uniform : bool) (f : found) : list axis :=
    let signal i := signal_axis fit uniform (f_reversed f) (f_signal f) (f_name f) (f_shown f) i in
    match long (f_y f), long (f_x f) with
    | Some y, Some x => [nav_axis y 0; nav_axis x 1; signal 2]
    | Some a, None | None, Some a => [nav_axis a 0; signal 1]
    | None, None => [signal 0]
    end.
  Definition is_axis (e : option xml) (a : option line) : Prop := match e, a with Some e, Some a => is_line numbers e a | None, None => True | _, _ => False end.
  (** signal type and units, written to the setup *)
  Definition typed (setup : dict) (e : option xml) (d : dict) : Prop :=
    match e with
    | Some e => forall k, lookup k d = match (if eqb_str k (str "signal units") then text_of UNITS (x_children e) else if eqb_str k (str "signal type") then text_of NAME (x_children e) else None) with Some s => Some (Text s) | None => lookup k setup end
    | None => d = setup
    end.
  Lemma type_read : forall setup e, Forall has_id (x_children e) -> exists d, set_signal_type setup e = Ok d /\ typed setup (Some e) d.
  Proof.
    intros setup e. unfold set_signal_type, typed. generalize (x_children e) as l. induction l as [|c l IH] using rev_ind; intro H; [exists setup; split; [reflexivity|]; intro k; destruct (eqb_str k (str "signal units")), (eqb_str k (str "signal type")); reflexivity|].
    apply Forall_app in H. destruct H as [H HC]. inversion HC as [|? ? C _]; subst. destruct (IH H) as (d & E & L). rewrite foldM_snoc, E. cbn [bind]. destruct (id_read c C) as (s & G & I). rewrite G. cbn [bind]. rewrite !I. fold NAME UNITS. eexists. split; [reflexivity|]. intro k. rewrite !text_snoc. destruct (marked UNITS c) eqn:MU.
    - assert (MN : marked NAME c = false) by (apply (same_id UNITS); [exact MU|reflexivity]). rewrite MN. rewrite lookup_put. destruct (eqb_str k (str "signal units")) eqn:EU; [reflexivity|]. rewrite L, EU. reflexivity.
    - destruct (marked NAME c); [|apply L]. rewrite lookup_put. destruct (eqb_str k (str "signal type")) eqn:ET; [apply eqb_str_spec in ET; subst k; reflexivity|]. rewrite L, ET. reflexivity.
  Qed.
  Lemma marked_only : forall i l e c, all_of i l = match e with Some e => [e] | None => [] end -> In c l -> marked i c = true -> e = Some c.
  Proof. intros i l e c A I M. assert (K : In c (all_of i l)) by (apply filter_In; split; assumption). rewrite A in K. destruct e as [e|]; [destruct K as [->|[]]; reflexivity|destruct K]. Qed.
  Definition some {A} (l : list xml) (x : option A) : option A := match l with [] => None | _ => x end.
  Definition nav_of (a : option line) : option axis := match long a with Some a => Some (nav_axis a 0) | None => None end.
  Definition yes (l : list xml) (a : option line) : bool := match l with [] => false | _ => match long a with Some _ => true | None => false end end.
  Definition many (l : list xml) (a : option line) : Z := match l with [] => 0 | _ => match a with Some a => size (l_values a) | None => 0 end end.
  Lemma sole_next : forall i p c q e, all_of i (p ++ c :: q) = match e with Some e => [e] | None => [] end -> marked i c = true -> all_of i p = [] /\ all_of i (p ++ [c]) = [c] /\ e = Some c.
  Proof.
    intros i p c q e A M. rewrite all_app in A. assert (C : all_of i (c :: q) = c :: all_of i q) by (unfold all_of; cbn [filter]; rewrite M; reflexivity). rewrite C in A. assert (P : all_of i p = []). { destruct (all_of i p) as [|x r] eqn:P; [reflexivity|]. exfalso. destruct e as [e|]; [|discriminate A]. injection A as _ A. destruct r; discriminate A. } rewrite P in A. cbn [app] in A. split; [exact P|]. split; [rewrite all_app, P; unfold all_of; cbn [filter app]; rewrite M; reflexivity|]. destruct e as [e|]; [|discriminate A]. injection A as -> _. reflexivity.
  Qed.
  Lemma other_next : forall i p c, marked i c = false -> all_of i (p ++ [c]) = all_of i p.
  Proof. intros i p c M. rewrite all_app. unfold all_of at 2. cbn [filter]. rewrite M. apply app_nil_r. Qed.
  Definition has_line (e : option xml) (a : option line) : Prop := match e, a with Some e, Some a => is_line numbers e a | None, None => True | _, _ => False end.
  Lemma steps_read : forall uniform l setup e0 e2 e3 es f, Forall has_id l -> optional l "0x0" e0 -> all_of "0x1" l = [es] -> optional l "0x2" e2 -> optional l "0x3" e3 ->
    match e0 with Some e => Forall has_id (x_children e) | None => True end -> is_line numbers es (f_signal f) -> told (x_children es) -> 2 <= size (l_values (f_signal f)) -> (f_reversed f = true <-> falling (l_values (f_signal f))) -> signal_named (f_signal f) (f_name f) (f_shown f) ->
    has_line e2 (f_x f) -> has_line e3 (f_y f) ->
    forall p q, l = p ++ q -> exists d, typed setup (some (all_of "0x0" p) e0) d /\
      foldM (axis_step numbers fit uniform) {| t_setup := setup; t_signal := None; t_reverse := None; t_nav1 := None; t_has1 := false; t_size1 := 0; t_nav2 := None; t_has2 := false; t_size2 := 0 |} p =
      Ok {| t_setup := d; t_signal := some (all_of "0x1" p) (Some (signal_axis fit uniform (f_reversed f) (f_signal f) (f_name f) (f_shown f) 0)); t_reverse := some (all_of "0x1" p) (Some (f_reversed f));
            t_nav1 := some (all_of "0x2" p) (nav_of (f_x f)); t_has1 := yes (all_of "0x2" p) (f_x f); t_size1 := many (all_of "0x2" p) (f_x f);
            t_nav2 := some (all_of "0x3" p) (nav_of (f_y f)); t_has2 := yes (all_of "0x3" p) (f_y f); t_size2 := many (all_of "0x3" p) (f_y f) |}.
  Proof.
    intros uniform l setup e0 e2 e3 es f HI H0 H1 H2 H3 HE LS TS SZ RV SN L2 L3. assert (H1' : all_of "0x1" l = match Some es with Some e => [e] | None => [] end) by exact H1. clear H1. induction p as [|c p IH] using rev_ind; intros q E; [exists setup; split; reflexivity|].
    rewrite <- app_assoc in E. cbn [app] in E. destruct (IH (c :: q) E) as (d & T & F). rewrite foldM_snoc, F. cbn [bind]. clear IH F. assert (C : has_id c) by (rewrite E in HI; apply Forall_app in HI; destruct HI as [_ HI]; inversion HI; assumption). destruct (id_read c C) as (s & G & I). unfold axis_step. rewrite G. cbn [bind]. rewrite !I. unfold optional in *. rewrite E in H0, H1', H2, H3.
    destruct (marked "0x0" c) eqn:M0; [|destruct (marked "0x1" c) eqn:M1; [|destruct (marked "0x2" c) eqn:M2; [|destruct (marked "0x3" c) eqn:M3]]].
    - rewrite (other_next "0x1"), (other_next "0x2"), (other_next "0x3") by (apply (same_id "0x0"); [exact M0|reflexivity]). destruct (sole_next _ _ _ _ _ H0 M0) as (P & S & ->). rewrite P in T. cbn [some typed] in T. subst d. rewrite S. destruct (type_read setup c HE) as (d & D & TD). cbn [t_setup]. rewrite D. exists d. split; [exact TD|reflexivity].
    - rewrite (other_next "0x0"), (other_next "0x2"), (other_next "0x3") by first [exact M0|apply (same_id "0x1"); [exact M1|reflexivity]]. destruct (sole_next _ _ _ _ (Some es) H1' M1) as (P & S & X). injection X as ->. rewrite S, P. cbn [t_reverse some]. rewrite (signal_read uniform None c (f_signal f) (f_reversed f) (f_name f) (f_shown f)) by assumption. exists d. split; [exact T|reflexivity].
    - rewrite (other_next "0x0"), (other_next "0x1"), (other_next "0x3") by first [assumption|apply (same_id "0x2"); [exact M2|reflexivity]]. destruct (sole_next _ _ _ _ _ H2 M2) as (P & S & ->). rewrite S, P. exists d. split; [exact T|]. destruct (f_x f) as [a|] eqn:FX; [|destruct L2]. cbn [has_line] in L2. rewrite (nav_read c a L2). cbn [bind fst snd some yes many]. unfold nav_of, long. destruct (2 <=? size (l_values a)); reflexivity.
    - rewrite (other_next "0x0"), (other_next "0x1"), (other_next "0x2") by first [assumption|apply (same_id "0x3"); [exact M3|reflexivity]]. destruct (sole_next _ _ _ _ _ H3 M3) as (P & S & ->). rewrite S, P. exists d. split; [exact T|]. destruct (f_y f) as [a|] eqn:FX; [|destruct L3]. cbn [has_line] in L3. rewrite (nav_read c a L3). cbn [bind fst snd some yes many]. unfold nav_of, long. destruct (2 <=? size (l_values a)); reflexivity.
    - rewrite (other_next "0x0"), (other_next "0x1"), (other_next "0x2"), (other_next "0x3") by assumption. exists d. split; [exact T|reflexivity].
  Qed.
  (** A second list of columns with one value only is not the same as none: the first stays, and the file is not read *)
  Theorem C92_twice_refuted : forall uniform t c x a s, has_id c -> marked "0x2" c = true -> is_line numbers c x -> size (l_values x) < 2 -> t_signal t = Some s -> t_nav1 t = Some a ->
    exists t', axis_step numbers fit uniform t c = Ok t' /\ t_nav1 t' = Some a /\ sort_axes t' = Err KeyError.
  Proof.
    intros uniform t c x a s C M L S TS TN. destruct (id_read c C) as (i & G & I). unfold axis_step. rewrite G. cbn [bind]. rewrite !I. assert (M0 : marked "0x0" c = false) by (apply (same_id "0x2"); [exact M|reflexivity]). assert (M1 : marked "0x1" c = false) by (apply (same_id "0x2"); [exact M|reflexivity]). rewrite M0, M1, M, (nav_read c x L). cbn [bind fst snd]. replace (2 <=? size (l_values x)) with false by lia. eexists. split; [reflexivity|]. cbn [t_nav1]. split; [exact TN|]. unfold sort_axes. cbn [t_signal t_nav1 t_has1 t_nav2 t_has2]. rewrite TS, TN. reflexivity.
  Qed.
  (** The sizes of the axes of a map, from slow to fast *)
  Definition nav_sizes (f : found) : list Z := match long (f_y f) with Some a => [size (l_values a)] | None => [] end ++ match long (f_x f) with Some a => [size (l_values a)] | None => [] end.
  Definition axes_found (uniform : bool) (e : xml) (f : found) (t : state) : Prop :=
    t_reverse t = Some (f_reversed f) /\ (if t_has2 t then [t_size2 t] else []) ++ (if t_has1 t then [t_size1 t] else []) = nav_sizes f.
  Definition is_scan (e : xml) (setup : dict) (f : found) : Prop :=
    exists e0 es e2 e3, Forall has_id (x_children e) /\ optional (x_children e) "0x0" e0 /\ all_of "0x1" (x_children e) = [es] /\ optional (x_children e) "0x2" e2 /\ optional (x_children e) "0x3" e3 /\
    match e0 with Some e => Forall has_id (x_children e) | None => True end /\ is_line numbers es (f_signal f) /\ told (x_children es) /\ 2 <= size (l_values (f_signal f)) /\ (f_reversed f = true <-> falling (l_values (f_signal f))) /\
    signal_named (f_signal f) (f_name f) (f_shown f) /\ has_line e2 (f_x f) /\ has_line e3 (f_y f) /\ forall d, typed setup e0 d -> forall k, lookup k d = lookup k (f_setup f).
  Theorem C92_axes : forall uniform p e setup f, p_axes p = Some e -> is_scan e setup f ->
    exists t, get_axes numbers fit uniform p setup = Ok (t, axes_of uniform f) /\ axes_found uniform e f t /\ forall k, lookup k (t_setup t) = lookup k (f_setup f).
  Proof.
    intros uniform p e setup f PA (e0 & es & e2 & e3 & HI & H0 & H1 & H2 & H3 & HE & LS & TS & SZ & RV & SN & L2 & L3 & TY). unfold get_axes. rewrite PA.
    destruct (steps_read uniform (x_children e) setup e0 e2 e3 es f HI H0 H1 H2 H3 HE LS TS SZ RV SN L2 L3 (x_children e) [] (eq_sym (app_nil_r _))) as (d & T & F). rewrite F. cbn [bind]. clear F.
    assert (T' : typed setup e0 d) by (unfold optional in H0; rewrite H0 in T; destruct e0; exact T). clear T. rewrite H1. unfold optional in H2, H3. rewrite H2, H3. unfold sort_axes, axes_found, axes_of, nav_sizes. cbn [some t_signal t_nav1 t_nav2 t_has1 t_has2 t_reverse t_size1 t_size2].
    destruct e2 as [e2|], (f_x f) as [x|] eqn:FX; try (destruct L2; fail); destruct e3 as [e3|], (f_y f) as [y|] eqn:FY; try (destruct L3; fail); cbn [some yes many]; unfold nav_of, long.
    - destruct (2 <=? size (l_values x)), (2 <=? size (l_values y)); cbn [bind]; eexists; (split; [reflexivity|]); cbn; (split; [split; reflexivity|]); intro k; exact (TY d T' k).
    - destruct (2 <=? size (l_values x)); cbn [bind]; eexists; (split; [reflexivity|]); cbn; (split; [split; reflexivity|]); intro k; exact (TY d T' k).
    - destruct (2 <=? size (l_values y)); cbn [bind]; eexists; (split; [reflexivity|]); cbn; (split; [split; reflexivity|]); intro k; exact (TY d T' k).
    - cbn [bind]; eexists; (split; [reflexivity|]); cbn; (split; [split; reflexivity|]); intro k; exact (TY d T' k).
  Qed.
End Reading.

(** * Places *)
Definition tagged (tag : string) (e : xml) : Prop := x_tag e = str tag.
(** The first child with a tag *)
Definition first_child (root : xml) (tag : string) (e : xml) : Prop := exists a b, x_children root = a ++ e :: b /\ tagged tag e /\ Forall (fun c => ~ tagged tag c) a.
Definition inside (id : string) (l : list xml) : list xml := flat_map x_children (all_of id l).
Definition places_of (tree : xml) : places :=
  let l := x_children tree in
  {| p_metadata := last_of "0x6C62D4D9" l; p_title := text_of "0x6C7469D9" l; p_type := text_of "0x6D707974" l; p_angle := text_of "0x0" (inside "0x6C676EC6" l); p_axes := last_of "0x7B697861" (inside "0x7A74D9D6" l) |}.
Lemma findall_first : forall root tag e, first_child root tag e -> exists r, findall root tag = e :: r.
Proof.
  intros root tag e (a & b & E & T & N). unfold findall. rewrite E, filter_app. assert (A : filter (fun c => eqb_str (x_tag c) (str tag)) a = []). { clear E. induction N as [|c a Hc N IH]; [reflexivity|]. cbn [filter]. destruct (eqb_str (x_tag c) (str tag)) eqn:X; [apply eqb_str_spec in X; contradiction|exact IH]. }
  rewrite A. cbn [app filter]. unfold tagged in T. rewrite T, eqb_str_refl. eexists. reflexivity.
Qed.
Lemma inside_snoc : forall id l c, inside id (l ++ [c]) = inside id l ++ if marked id c then x_children c else [].
Proof. intros id l c. unfold inside. rewrite all_app, flat_map_app. f_equal. unfold all_of. cbn [filter]. destruct (marked id c); [cbn [flat_map]; apply app_nil_r|reflexivity]. Qed.
Lemma last_app : forall id a b, last_of id (a ++ b) = match last_of id b with Some x => Some x | None => last_of id a end.
Proof. intros id a b. unfold last_of. rewrite all_app, rev_app_distr. destruct (rev (all_of id b)); reflexivity. Qed.
Lemma angle_fold : forall l m t y a x, Forall has_id l -> foldM (fun p c2 => let! id2 := get_id c2 in Ok (if is_id id2 "0x0" then {| p_metadata := p_metadata p; p_title := p_title p; p_type := p_type p; p_angle := Some (x_text c2); p_axes := p_axes p |} else p)) {| p_metadata := m; p_title := t; p_type := y; p_angle := a; p_axes := x |} l =
  Ok {| p_metadata := m; p_title := t; p_type := y; p_angle := match text_of "0x0" l with Some s => Some s | None => a end; p_axes := x |}.
Proof.
  intros l m t y a x. induction l as [|c l IH] using rev_ind; intro H; [reflexivity|]. apply Forall_app in H. destruct H as [H HC]. inversion HC as [|? ? C _]; subst. rewrite foldM_snoc, IH by exact H. cbn [bind]. destruct (id_read c C) as (s & G & I). rewrite G. cbn [bind]. rewrite I, text_snoc. destruct (marked "0x0" c); reflexivity.
Qed.
Lemma axes_fold : forall l m t y a x, Forall has_id l -> foldM (fun p c2 => let! id2 := get_id c2 in Ok (if is_id id2 "0x7B697861" then {| p_metadata := p_metadata p; p_title := p_title p; p_type := p_type p; p_angle := p_angle p; p_axes := Some c2 |} else p)) {| p_metadata := m; p_title := t; p_type := y; p_angle := a; p_axes := x |} l =
  Ok {| p_metadata := m; p_title := t; p_type := y; p_angle := a; p_axes := match last_of "0x7B697861" l with Some e => Some e | None => x end |}.
Proof.
  intros l m t y a x. induction l as [|c l IH] using rev_ind; intro H; [reflexivity|]. apply Forall_app in H. destruct H as [H HC]. inversion HC as [|? ? C _]; subst. rewrite foldM_snoc, IH by exact H. cbn [bind]. destruct (id_read c C) as (s & G & I). rewrite G. cbn [bind]. rewrite I, last_snoc. destruct (marked "0x7B697861" c); reflexivity.
Qed.
Lemma text_app : forall id a b, text_of id (a ++ b) = match text_of id b with Some x => Some x | None => text_of id a end.
Proof. intros id a b. unfold text_of. rewrite last_app. destruct (last_of id b); reflexivity. Qed.
Lemma place_step : forall m t y a x c, has_id c -> (marked "0x6C676EC6" c = true -> Forall has_id (x_children c)) -> (marked "0x7A74D9D6" c = true -> Forall has_id (x_children c)) ->
  place {| p_metadata := m; p_title := t; p_type := y; p_angle := a; p_axes := x |} c =
  Ok {| p_metadata := if marked "0x6C62D4D9" c then Some c else m; p_title := if marked "0x6C7469D9" c then Some (x_text c) else t; p_type := if marked "0x6D707974" c then Some (x_text c) else y;
        p_angle := if marked "0x6C676EC6" c then match text_of "0x0" (x_children c) with Some s => Some s | None => a end else a; p_axes := if marked "0x7A74D9D6" c then match last_of "0x7B697861" (x_children c) with Some e => Some e | None => x end else x |}.
Proof.
  intros m t y a x c C A X. unfold place. destruct (id_read c C) as (s & G & I). rewrite G. match goal with |- bind (Ok ?u) ?f = _ => change (bind (Ok u) f) with (f u) end. cbv beta. rewrite (I "0x6C62D4D9"%string), (I "0x6C7469D9"%string), (I "0x6D707974"%string), (I "0x6C676EC6"%string), (I "0x7A74D9D6"%string). clear I G.
  destruct (marked "0x6C62D4D9" c) eqn:M1; [rewrite (same_id _ "0x6C7469D9" _ M1 eq_refl), (same_id _ "0x6D707974" _ M1 eq_refl), (same_id _ "0x6C676EC6" _ M1 eq_refl), (same_id _ "0x7A74D9D6" _ M1 eq_refl); reflexivity|].
  destruct (marked "0x6C7469D9" c) eqn:M2; [rewrite (same_id _ "0x6D707974" _ M2 eq_refl), (same_id _ "0x6C676EC6" _ M2 eq_refl), (same_id _ "0x7A74D9D6" _ M2 eq_refl); reflexivity|].
  destruct (marked "0x6D707974" c) eqn:M3; [rewrite (same_id _ "0x6C676EC6" _ M3 eq_refl), (same_id _ "0x7A74D9D6" _ M3 eq_refl); reflexivity|].
  destruct (marked "0x6C676EC6" c) eqn:M4; [rewrite (same_id _ "0x7A74D9D6" _ M4 eq_refl); cbv zeta; rewrite angle_fold by (exact (A eq_refl)); reflexivity|].
  destruct (marked "0x7A74D9D6" c) eqn:M5; [|reflexivity]. cbv zeta. cbn [bind]. rewrite axes_fold by (exact (X eq_refl)). reflexivity.
Qed.
Theorem C92_places : forall root tree matrix, first_child root "LSX_Tree" tree -> first_child root "LSX_Matrix" matrix -> Forall has_id (x_children tree) -> Forall has_id (inside "0x6C676EC6" (x_children tree)) -> Forall has_id (inside "0x7A74D9D6" (x_children tree)) ->
  parse_file root = Ok (places_of tree, matrix).
Proof.
  intros root tree matrix T M H A X. unfold parse_file. destruct (findall_first _ _ _ T) as (r1 & ->). destruct (findall_first _ _ _ M) as (r2 & ->). unfold places_of. cbv zeta.
  assert (F : forall l, Forall has_id l -> Forall has_id (inside "0x6C676EC6" l) -> Forall has_id (inside "0x7A74D9D6" l) -> foldM place {| p_metadata := None; p_title := None; p_type := None; p_angle := None; p_axes := None |} l = Ok {| p_metadata := last_of "0x6C62D4D9" l; p_title := text_of "0x6C7469D9" l; p_type := text_of "0x6D707974" l; p_angle := text_of "0x0" (inside "0x6C676EC6" l); p_axes := last_of "0x7B697861" (inside "0x7A74D9D6" l) |}); [|rewrite F by assumption; reflexivity].
  clear. induction l as [|c l IH] using rev_ind; intros H A X; [reflexivity|]. rewrite inside_snoc in A, X. apply Forall_app in H. destruct H as [H HC]. inversion HC as [|? ? C _]; subst. apply Forall_app in A. destruct A as [A AC]. apply Forall_app in X. destruct X as [X XC]. rewrite foldM_snoc, IH by assumption. match goal with |- bind (Ok ?u) ?f = _ => change (bind (Ok u) f) with (f u) end. cbv beta. clear IH. rewrite place_step; [|exact C|intro K; rewrite K in AC; exact AC|intro K; rewrite K in XC; exact XC]. f_equal. f_equal.
  - symmetry. apply last_snoc.
  - symmetry. apply text_snoc.
  - symmetry. apply text_snoc.
  - rewrite inside_snoc, text_app. destruct (marked "0x6C676EC6" c); reflexivity.
  - rewrite inside_snoc, last_app. destruct (marked "0x7A74D9D6" c); reflexivity.
Qed.

(** * Data *)
Definition rows_of (m : xml) (l : list xml) : Prop := exists f, (forall e, In e (x_children m) -> (f e = true <-> tagged "LSX_Row" e)) /\ filter f (x_children m) = l.
Definition is_row (numbers : pystr -> list Q) (e : xml) (l : list Q) : Prop := x_text e <> [] /\ numbers (strip (x_text e)) = l.
Definition turned (r : bool) (l : list Q) : list Q := if r then rev l else l.
Lemma rows_found : forall m l, rows_of m l -> findall m "LSX_Row" = l.
Proof. intros m l (f & F & <-). unfold findall. apply filter_ext_in. intros e I. specialize (F e I). unfold tagged in F. apply eq_true_iff_eq. rewrite eqb_str_spec. symmetry. exact F. Qed.
Section Data.
  Variable numbers : pystr -> list Q.
  Lemma row_read : forall t r e l, t_reverse t = Some r -> is_row numbers e l -> get_row numbers (t_reverse t) e = Ok (turned r l).
  Proof. intros t r e l R (T & N). unfold get_row, fromstring. destruct (x_text e) eqn:X; [contradiction|]. cbn [bind]. rewrite R, N. reflexivity. Qed.
  Lemma turned_length : forall r l, List.length (turned r l) = List.length l.
  Proof. intros [|] l; [apply rev_length|reflexivity]. Qed.
  Theorem C92_spectrum : forall t m e l r, rows_of m [e] -> is_row numbers e l -> t_reverse t = Some r -> get_data numbers t m = Ok ([size l], turned r l).
  Proof. intros t m e l r R I T. unfold get_data. rewrite (rows_found _ _ R). rewrite (row_read t r e l T I). cbn [bind]. unfold zlen. rewrite turned_length. reflexivity. Qed.
  Definition nav_shape (t : state) : list Z := (if t_has2 t then [t_size2 t] else []) ++ (if t_has1 t then [t_size1 t] else []).
  Lemma rows_read : forall t r es ls n, t_reverse t = Some r -> Forall2 (is_row numbers) es ls -> Forall (fun l => size l = n) ls -> mapM (fun e => let! l := get_row numbers (t_reverse t) e in fill n l) es = Ok (map (turned r) ls).
  Proof.
    intros t r es ls n T F. induction F as [|e l es ls H F IH]; intro N; [reflexivity|]. inversion N as [|? ? NL NR]. cbn [mapM map]. rewrite (row_read t r e l T H). cbn [bind]. unfold fill at 1. replace (zlen (turned r l) =? n) with true by (unfold zlen, size in *; rewrite turned_length; lia). cbn [bind]. rewrite IH by assumption. reflexivity.
  Qed.
  Lemma total : forall r ls n, Forall (fun l => size l = n) ls -> zlen (List.concat (map (turned r) ls)) = size (List.concat ls) /\ size (List.concat ls) = Z.of_nat (List.length ls) * n.
  Proof. intros r ls n H. unfold zlen, size in *. induction H as [|l ls E H [IH1 IH2]]; [split; reflexivity|]. cbn [map List.concat List.length]. rewrite !app_length, turned_length. lia. Qed.
  Definition shaped (nav : list Z) (rows n : Z) : list Z := match nav with [] => [rows; n] | _ => nav ++ [n] end.
  Theorem C92_data : forall t m e es ls n r s, rows_of m (e :: es) -> es <> [] -> Forall2 (is_row numbers) (e :: es) ls -> t_reverse t = Some r -> lookup (str "Size") (x_attrs e) = Some s -> parse_int s = Ok n -> Forall (fun l => size l = n) ls ->
    (nav_shape t <> [] -> prodZ (nav_shape t) = Z.of_nat (List.length ls)) -> get_data numbers t m = Ok (shaped (nav_shape t) (Z.of_nat (List.length ls)) n, List.concat (map (turned r) ls)).
  Proof.
    intros t m e es ls n r s R NE F T S N L P. unfold get_data. rewrite (rows_found _ _ R). destruct es as [|e' es]; [contradiction|]. unfold get_size. rewrite S, N. cbn [bind]. assert (N0 : 0 <= n) by (inversion F; subst; inversion L; subst; unfold size; lia). replace (n <? 0) with false by lia. rewrite (rows_read t r _ ls n T F L). cbn [bind]. destruct (total r ls n L) as [T1 T2]. rewrite T2 in T1. assert (LE : zlen (e :: e' :: es) = Z.of_nat (List.length ls)) by (unfold zlen; f_equal; clear - F; induction F; [reflexivity|cbn [List.length]; lia]). 
    unfold nav_shape in *. unfold reshape. rewrite T1. destruct (t_has2 t), (t_has1 t); cbn [app shaped prodZ] in *.
    - specialize (P ltac:(discriminate)). rewrite <- P. replace (_ =? _) with true by (symmetry; apply Z.eqb_eq; unfold prodZ; cbn [fold_left fold_right]; ring). reflexivity.
    - specialize (P ltac:(discriminate)). rewrite <- P. replace (_ =? _) with true by (symmetry; apply Z.eqb_eq; unfold prodZ; cbn [fold_left fold_right]; ring). reflexivity.
    - specialize (P ltac:(discriminate)). rewrite <- P. replace (_ =? _) with true by (symmetry; apply Z.eqb_eq; unfold prodZ; cbn [fold_left fold_right]; ring). reflexivity.
    - rewrite LE. reflexivity.
  Qed.
  (** Axes that do not fit the rows *)
  Theorem C92_misfit : forall t m e es ls n r s, rows_of m (e :: es) -> es <> [] -> Forall2 (is_row numbers) (e :: es) ls -> t_reverse t = Some r -> lookup (str "Size") (x_attrs e) = Some s -> parse_int s = Ok n -> Forall (fun l => size l = n) ls ->
    nav_shape t <> [] -> prodZ (nav_shape t) * n <> Z.of_nat (List.length ls) * n -> get_data numbers t m = Err ValueError.
  Proof.
    intros t m e es ls n r s R NE F T S N L NN P. unfold get_data. rewrite (rows_found _ _ R). destruct es as [|e' es]; [contradiction|]. unfold get_size. rewrite S, N. cbn [bind]. assert (N0 : 0 <= n) by (inversion F; subst; inversion L; subst; unfold size; lia). replace (n <? 0) with false by lia. rewrite (rows_read t r _ ls n T F L). cbn [bind]. destruct (total r ls n L) as [T1 T2]. rewrite T2 in T1.
    unfold nav_shape in *. unfold reshape. rewrite T1. destruct (t_has2 t), (t_has1 t); cbn [app prodZ] in *; try (destruct (NN eq_refl)); replace (_ =? _) with false by (symmetry; apply Z.eqb_neq; intro K; apply P; rewrite <- K; unfold prodZ; cbn [fold_left fold_right]; ring); reflexivity.
  Qed.
  (** A row of another length; but a single value is repeated *)
  Theorem C92_ragged : forall t m e e' es l l' n r s, rows_of m (e :: e' :: es) -> is_row numbers e l -> is_row numbers e' l' -> t_reverse t = Some r -> lookup (str "Size") (x_attrs e) = Some s -> parse_int s = Ok n -> 0 <= n -> size l = n -> size l' <> n -> size l' <> 1 -> get_data numbers t m = Err ValueError.
  Proof.
    intros t m e e' es l l' n r s R I I' T S N N0 L L' L1. unfold get_data. rewrite (rows_found _ _ R). unfold get_size. rewrite S, N. cbn [bind]. replace (n <? 0) with false by lia. cbn [mapM]. rewrite (row_read t r e l T I). cbn [bind]. unfold fill at 1. replace (zlen (turned r l) =? n) with true by (unfold zlen, size in *; rewrite turned_length; lia). cbn [bind]. rewrite (row_read t r e' l' T I'). cbn [bind]. unfold fill at 1. unfold size in *. pose proof (turned_length r l') as TL. replace (zlen (turned r l') =? n) with false by (unfold zlen; lia). destruct (turned r l') as [|x [|y k]]; [reflexivity|cbn in TL; lia|reflexivity].
  Qed.
  Theorem C92_repeat_refuted : forall t m e e' l x n r s, rows_of m [e; e'] -> is_row numbers e l -> is_row numbers e' [x] -> t_reverse t = Some r -> lookup (str "Size") (x_attrs e) = Some s -> parse_int s = Ok n -> size l = n -> nav_shape t = [2] ->
    get_data numbers t m = Ok ([2; n], turned r l ++ repeat x (List.length l)).
  Proof.
    intros t m e e' l x n r s R I I' T S N L NS. unfold get_data. rewrite (rows_found _ _ R). unfold get_size. rewrite S, N. cbn [bind]. unfold size in L. replace (n <? 0) with false by lia. cbn [mapM]. rewrite (row_read t r e l T I). cbn [bind]. unfold fill at 1. replace (zlen (turned r l) =? n) with true by (unfold zlen; rewrite turned_length; lia). cbn [bind]. rewrite (row_read t r e' [x] T I'). cbn [bind]. assert (TX : turned r [x] = [x]) by (destruct r; reflexivity). rewrite TX.
    assert (FX : fill n [x] = Ok (repeat x (List.length l))). { unfold fill. destruct (zlen [x] =? n) eqn:E; [change (zlen [x]) with 1 in E; replace (List.length l) with 1%nat by lia; reflexivity|]. replace (Z.to_nat n) with (List.length l) by lia. reflexivity. } rewrite FX. cbn [bind List.concat]. rewrite app_nil_r. assert (ZL : zlen (turned r l ++ repeat x (List.length l)) = 2 * n) by (unfold zlen; rewrite app_length, turned_length, repeat_length; lia).
    unfold nav_shape in NS. unfold reshape. rewrite ZL. destruct (t_has2 t), (t_has1 t); cbn [app] in NS; try discriminate NS; injection NS as ->; replace (_ =? _) with true by (unfold prodZ; cbn [fold_left fold_right]; lia); reflexivity.
  Qed.
  (** Without axes for them, several rows get more dimensions than axes *)
  Theorem C92_no_axes_refuted : forall t m e e' l l' n r s, rows_of m [e; e'] -> is_row numbers e l -> is_row numbers e' l' -> t_reverse t = Some r -> lookup (str "Size") (x_attrs e) = Some s -> parse_int s = Ok n -> size l = n -> size l' = n -> nav_shape t = [] ->
    exists d, get_data numbers t m = Ok ([2; n], d).
  Proof.
    intros t m e e' l l' n r s R I I' T S N L L' NS. eexists. rewrite (C92_data t m e [e'] [l; l'] n r s); [rewrite NS; reflexivity|exact R|discriminate|repeat constructor; first [apply I|apply I']|exact T|exact S|exact N|repeat constructor; assumption|rewrite NS; intro K; destruct (K eq_refl)].
  Qed.
  (** A spectrum of one value *)
  Theorem C92_single_refuted : forall t m e l, rows_of m [e] -> is_row numbers e l -> t_reverse t = None -> get_data numbers t m = Err AttributeError.
  Proof. intros t m e l R (T & N) RV. unfold get_data. rewrite (rows_found _ _ R). unfold get_row, fromstring. destruct (x_text e) eqn:X; [contradiction|]. cbn [bind]. rewrite RV. reflexivity. Qed.
End Data.
