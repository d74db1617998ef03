(** Properties C87 and C88: rows of scans, missing texts and titles in Topspin files. *)
From Coq Require Import QArith.
From Verif Require Import Base Text Bytes HierModel SfsModel XmlModel QuadModel TopModel TopTasks TopDemo.
Local Open Scope Z_scope.

Section More.
Variable number : pystr -> res Z.
Variable unit : positive.
(** Positions are taken up to the first below the first one *)
Definition same_row (y : Z) (p : Z * Z) : Prop := snd p <= y.
Lemma scan_row : forall g y ks ps, Forall2 (fun k p => position number g k = Ok p) ks ps -> Forall (same_row y) ps -> forall k q rest, position number g k = Ok q -> y < snd q ->
  scan number g (Some y) ks = Ok ps /\ scan number g (Some y) (ks ++ k :: rest) = Ok (ps ++ [q]).
Proof.
  intros g y ks ps F. induction F as [|k0 p ks ps P F IH]; intros A k q rest Q L.
  - split; [reflexivity|]. cbn [app scan]. rewrite Q. cbn [bind]. replace (y <? snd q) with true by lia. reflexivity.
  - inversion A as [|? ? A1 A2]; subst. destruct (IH A2 k q rest Q L) as [I1 I2]. cbn [app scan]. rewrite P. cbn [bind]. unfold same_row in A1. replace (y <? snd p) with false by lia. rewrite I1, I2. split; reflexivity.
Qed.
Theorem C87_scan : forall g k0 p0 ks ps k q rest, position number g k0 = Ok p0 -> Forall2 (fun k p => position number g k = Ok p) ks ps -> Forall (same_row (snd p0)) ps -> position number g k = Ok q -> snd p0 < snd q ->
  scan number g None (k0 :: ks) = Ok (p0 :: ps) /\ scan number g None (k0 :: ks ++ k :: rest) = Ok (p0 :: ps ++ [q]).
Proof.
  intros g k0 p0 ks ps k q rest P0 F A Q L. destruct (scan_row g (snd p0) ks ps F A k q rest Q L) as [I1 I2]. cbn [scan]. rewrite P0. cbn [bind]. rewrite I1, I2. split; reflexivity.
Qed.
(** Numbers without a text *)
Theorem C88_textless : forall tag attrs tail cs s, lookup (str "Serializer") attrs = Some s -> s = str "Double" \/ s = str "UInt32" \/ s = str "Int32" -> decode number (Elem tag attrs [] tail cs) = Err TypeError.
Proof. intros tag attrs tail cs s L [-> | [-> | ->]]; cbn [decode]; rewrite L; reflexivity. Qed.
(** Arrays in place of sessions *)
Theorem C88_no_session : forall file k w s o d l dry, guid k = true -> ~ In (str "Metadata") (k :: map fst l) -> file_reader number unit file (Group ((k, Array w s o d) :: l)) None dry = Err AttributeError.
Proof.
  intros file k w s o d l dry G N. unfold file_reader. cbn [bind]. unfold tasks. cbn [keys bind]. assert (E : existsb (fun k0 => eqb_str k0 (str "Metadata")) (map fst ((k, Array w s o d) :: l)) = false).
  { destruct (existsb _ _) eqn:E; [|reflexivity]. apply existsb_exists in E. destruct E as [x [X Y]]. apply eqb_str_spec in Y. subst x. contradiction. }
  rewrite E. cbn [map fst filter]. rewrite G. cbn [mapM get]. cbn [lookup fst]. rewrite eqb_str_refl. reflexivity.
Qed.
(** A dry run needs the titles *)
Theorem C88_untitled : forall file h ts es, tasks h = Ok ts -> mapM (read_entry number unit h) ts = Ok es ->
  ((forall e, In e es -> exists t, lookup (str "Title") (n_original e) = Some t) -> file_reader number unit file h None true = Ok []) /\
  ((exists e, In e es /\ lookup (str "Title") (n_original e) = None) -> file_reader number unit file h None true = Err KeyError).
Proof.
  intros file h ts es T E. unfold file_reader. cbn [bind]. rewrite T. cbn [bind]. rewrite E. cbn [bind]. split; intro H.
  - assert (B : forallb (fun e => match lookup (str "Title") (n_original e) with Some _ => true | None => false end) es = true). { apply forallb_forall. intros e I. destruct (H e I) as [t ->]. reflexivity. } rewrite B. reflexivity.
  - destruct H as [e [I N]]. destruct (forallb _ es) eqn:B; [|reflexivity]. rewrite forallb_forall in B. specialize (B e I). rewrite N in B. discriminate B.
Qed.
End More.

Example C87_scan_demo : exists ps, mapM (position parse_int (Group falling)) (map fst falling) = Ok ps /\ ps <> [].
Proof. vm_compute. eexists. split; [reflexivity|discriminate]. Qed.
Example C88_textless_demo : decode parse_int (typed "N" "Int32" "" []) = Err TypeError /\ decode parse_int (typed "N" "Int32" "5" []) = Ok [(str "N", MInt 5)].
Proof. split; vm_compute; reflexivity. Qed.
Example C88_no_session_demo : file_reader parse_int pm demo_file (Group [(scan_name, Array 2 [1; 1] None [])]) None false = Err AttributeError.
Proof. vm_compute. reflexivity. Qed.
Example C88_untitled_demo : file_reader parse_int pm demo_file (Group demo_session) None true = Ok [].
Proof. vm_compute. reflexivity. Qed.
Print Assumptions C87_scan.
Print Assumptions C88_textless.
Print Assumptions C88_no_session.
Print Assumptions C88_untitled.
