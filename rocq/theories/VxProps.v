(** Property C122: which signals a Velox file gives. *)
From Coq Require Import QArith.
From Verif Require Import Base Text HierModel SfsModel ProtoFile VxModel.
Local Open Scope Z_scope.

(** * Specification: signal types, in order *)
Definition selected (t : option pystr) (name : string) : bool := match t with None => true | Some t => eqb_str t (str name) end.
Definition count {A} (x : option (list (pystr * A))) : nat := match x with Some l => List.length l | None => 0%nat end.
Definition types (l : list signal) : list pystr := map (fun g => m_signal (s_md g)) l.
(** single spectra, then images, then spectrum images of EELS and of EDS *)
Definition expected (o : options) (d : data) : list pystr :=
  let t := o_select o in
  match d_image d, d_si d with
  | None, _ => if selected t "single_spectrum" then repeat (str "EDS_TEM") (count (d_spectrum d)) else []
  | Some _, None => if selected t "images" then repeat [] (count (d_image d)) else []
  | Some _, Some _ =>
      (if selected t "single_spectrum" then repeat (str "EDS_TEM") (count (d_spectrum d)) else [])
      ++ (if selected t "images" then repeat [] (count (d_image d)) else [])
      ++ (if selected t "spectrum_image"
          then repeat (str "EELS") (count (d_eels d)) ++ repeat (str "EDS_TEM") (if o_sum_detectors o then Nat.min 1 (count (d_stream d)) else count (d_stream d))
          else [])
  end.
Definition known (t : option pystr) : Prop :=
  match t with None => True | Some t => t = str "single_spectrum" \/ t = str "images" \/ t = str "spectrum_image" end.

Section Props.
Variable E : env.

(** splits a chain of binds of a hypothesis [H : _ = Ok _] *)
Ltac step H :=
  match type of H with
  | bind ?r _ = Ok _ => let x := fresh "v" in let e := fresh "Ev" in destruct r as [x|] eqn:e; cbn [bind] in H; [|discriminate H]
  | (let (_, _) := ?p in _) = Ok _ => destruct p eqn:?
  | (match ?p with (_, _) => _ end) = Ok _ => destruct p eqn:?
  | Err _ = Ok _ => discriminate H
  | (if ?b then _ else _) = Ok _ => destruct b eqn:?
  | (match ?l with _ => _ end) = Ok _ => destruct l eqn:?
  end.

Lemma metadata_signal : forall c det g om md, metadata_of E c det g om = Ok md -> m_signal md = g /\ m_title md = det /\ m_file md = basename (c_file c).
Proof. intros c det g om md H. unfold metadata_of in H. repeat step H; injection H as <-; repeat split. Qed.
Lemma image_emits : forall c key i s g s', read_image E c key i s = Ok (g, s') -> m_signal (s_md g) = [] /\ r_out s' = r_out s.
Proof.
  intros c key i s g s' H. unfold read_image in H.
  repeat (step H || (match type of H with (let x := _ in _) = _ => cbv zeta in H end)).
  all: try discriminate H.
  all: injection H as <- <-; cbn [s_md r_out]; split; [|reflexivity].
  all: match goal with M : metadata_of _ _ _ _ _ = Ok _ |- _ => rename M into MM end; apply metadata_signal in MM; destruct MM as (MM & _ & _).
  all: destruct (lookup key (c_labels c)); exact MM.
Qed.
Lemma images_emit : forall c l s s', image_loop E c true l s = Ok s' -> types (r_out s') = types (r_out s) ++ repeat [] (List.length l).
Proof.
  intros c. induction l as [|[key i] l IH]; intros s s' H; cbn [image_loop] in H; [injection H as <-; cbn; rewrite app_nil_r; reflexivity|].
  destruct (read_image E c key i s) as [[g s1]|] eqn:R; cbn [bind] in H; [|discriminate]. destruct (image_emits _ _ _ _ _ _ R) as [G O].
  rewrite (IH _ _ H). cbn [emit r_out List.length repeat]. unfold types. rewrite O, map_app. cbn [map]. rewrite G, <- app_assoc. reflexivity.
Qed.
Lemma images_silent : forall c l s s', image_loop E c false l s = Ok s' -> r_out s' = r_out s.
Proof.
  intros c [|[key i] l] s s' H; cbn [image_loop] in H; [injection H as <-; reflexivity|].
  destruct (read_image E c key i s) as [[g s1]|] eqn:R; cbn [bind] in H; [|discriminate]. injection H as <-. exact (proj2 (image_emits _ _ _ _ _ _ R)).
Qed.
Lemma spectra_emit : forall c l s s', spectrum_loop E c l s = Ok s' -> types (r_out s') = types (r_out s) ++ repeat (str "EDS_TEM") (List.length l).
Proof.
  intros c. induction l as [|[key sp] l IH]; intros s s' H; cbn [spectrum_loop] in H; [injection H as <-; cbn; rewrite app_nil_r; reflexivity|].
  destruct (read_spectrum E c sp s) as [g|] eqn:R; cbn [bind] in H; [|discriminate].
  assert (G : m_signal (s_md g) = str "EDS_TEM").
  { unfold read_spectrum in R. repeat (step R || (match type of R with (let x := _ in _) = _ => cbv zeta in R end)). injection R as <-. cbn [s_md].
    match goal with M : metadata_of _ _ _ _ _ = Ok _ |- _ => apply metadata_signal in M; exact (proj1 M) end. }
  rewrite (IH _ _ H). cbn [emit r_out List.length repeat]. unfold types. rewrite map_app. cbn [map]. rewrite G, <- app_assoc. reflexivity.
Qed.
Lemma eels_emit : forall c cal l s s', eels_loop E c cal l s = Ok s' -> types (r_out s') = types (r_out s) ++ repeat (str "EELS") (List.length l).
Proof.
  intros c cal. induction l as [|[key e] l IH]; intros s s' H; cbn [eels_loop] in H; [injection H as <-; cbn; rewrite app_nil_r; reflexivity|].
  destruct (read_eels E c cal e) as [g|] eqn:R; cbn [bind] in H; [|discriminate].
  assert (G : m_signal (s_md g) = str "EELS").
  { unfold read_eels in R. destruct cal as [[[sx ox] u] v]. repeat (step R || (match type of R with (let x := _ in _) = _ => cbv zeta in R end)). all: injection R as <-; reflexivity. }
  rewrite (IH _ _ H). cbn [emit r_out List.length repeat]. unfold types. rewrite map_app. cbn [map]. rewrite G, <- app_assoc. reflexivity.
Qed.
Lemma emits_all : forall gs s, r_out (fold_left (fun s g => emit g s) gs s) = r_out s ++ gs.
Proof. induction gs as [|g gs IH]; intros s; cbn [fold_left]; [rewrite app_nil_r; reflexivity|]. rewrite IH. cbn [emit r_out]. rewrite <- app_assoc. reflexivity. Qed.
Lemma signals_types : forall c t ys xs lst axes md streams gs, mapM (stream_signal c t ys xs lst axes md) streams = Ok gs ->
  types gs = repeat (m_signal md) (List.length streams).
Proof.
  intros c t ys xs lst axes md. induction streams as [|x streams IH]; intros gs H; cbn [mapM] in H; [injection H as <-; reflexivity|].
  repeat step H. injection H as <-. cbn [types map List.length repeat]. f_equal; [|exact (IH _ eq_refl)].
  match goal with S : stream_signal _ _ _ _ _ _ _ _ = Ok _ |- _ => unfold stream_signal in S; repeat (step S || (match type of S with (let x := _ in _) = _ => cbv zeta in S end)); injection S as <-; reflexivity end.
Qed.
Lemma open_emits : forall c st s x s', open_stream E c st s = Ok (x, s') -> r_out s' = r_out s /\ r_detector s' = r_detector s /\ r_shape s' = r_shape s.
Proof.
  intros c st s x s' H. unfold open_stream in H. repeat (step H || (match type of H with (let x := _ in _) = _ => cbv zeta in H end)). all: try discriminate H. all: injection H as <- <-; repeat split; cbn; congruence.
Qed.
Lemma opens_emit : forall c l s xs s', open_streams E c l s = Ok (xs, s') -> r_out s' = r_out s /\ List.length xs = List.length l.
Proof.
  intros c. induction l as [|[k st] l IH]; intros s xs s' H; cbn [open_streams] in H; [injection H as <- <-; split; reflexivity|].
  destruct (open_stream E c st s) as [[x s1]|] eqn:O; cbn [bind] in H; [|discriminate]. destruct (open_streams E c l s1) as [[ys s2]|] eqn:O2; cbn [bind] in H; [|discriminate]. injection H as <- <-.
  destruct (IH _ _ _ O2) as [A B]. destruct (open_emits _ _ _ _ _ O) as (C & _). split; [congruence|cbn; rewrite B; reflexivity].
Qed.
Lemma eels_images_emit : forall c d s s', read_eels_images E c d s = Ok s' -> types (r_out s') = types (r_out s) ++ repeat (str "EELS") (count (d_eels d)).
Proof.
  intros c d s s' H. unfold read_eels_images in H. destruct (d_eels d) as [l|]; cbn [count]; [|injection H as <-; cbn; rewrite app_nil_r; reflexivity].
  step H. step H. exact (eels_emit _ _ _ _ _ H).
Qed.
Lemma stream_emit : forall c d s s', read_spectrum_stream E c true d s = Ok s' ->
  types (r_out s') = types (r_out s) ++ repeat (str "EELS") (count (d_eels d))
    ++ repeat (str "EDS_TEM") (if o_sum_detectors (c_opt c) then Nat.min 1 (count (d_stream d)) else count (d_stream d)).
Proof.
  intros c d s s' H. unfold read_spectrum_stream in H. cbn [negb] in H. cbv zeta in H. step H. rename v into s1. apply eels_images_emit in Ev. step H.
  rewrite app_assoc. cbn [set_detector r_out] in H.
  destruct (d_stream d) as [[|[key st] others]|]; cbn [count].
  1,3: injection H as <-; cbn [r_out]; rewrite Ev; destruct (o_sum_detectors (c_opt c)); cbn; rewrite app_nil_r; reflexivity.
  step H. rename v0 into p. destruct p as [streams s2].
  assert (S : r_out s2 = r_out s1 /\ List.length streams = if o_sum_detectors (c_opt c) then 1%nat else S (List.length others)).
  { destruct (o_sum_detectors (c_opt c)).
    - step Ev1. destruct v0 as [x s3]. apply open_emits in Ev2. destruct Ev2 as (A & _). repeat step Ev1. injection Ev1 as <- <-. split; [exact A|reflexivity].
    - destruct (opens_emit _ _ _ _ _ Ev1) as [A B]. split; [exact A|exact B]. }
  destruct S as [S1 S2]. repeat step H. subst. injection H as <-. rewrite emits_all. unfold types. rewrite map_app. fold (types (r_out s2)). rewrite S1. fold (types (r_out s1)). rewrite Ev.
  match goal with M : mapM _ _ = Ok ?gs |- _ => change (map (fun g => m_signal (s_md g)) gs) with (types gs); rewrite (signals_types _ _ _ _ _ _ _ _ _ M) end.
  match goal with M : metadata_of _ _ _ _ _ = Ok _ |- _ => apply metadata_signal in M; destruct M as (M & _); rewrite M end. rewrite S2.
  destruct (o_sum_detectors (c_opt c)); reflexivity.
Qed.

Lemma selection_known : forall o p, selection o = Ok p -> p = (selected (o_select o) "images", selected (o_select o) "spectrum_image", selected (o_select o) "single_spectrum") /\ known (o_select o).
Proof.
  intros o p H. unfold selection in H. unfold selected, known. destruct (o_select o) as [t|]; [|injection H as <-; split; reflexivity || exact Logic.I].
  destruct (eqb_str t (str "single_spectrum")) eqn:A; [apply eqb_str_spec in A; subst t; injection H as <-; split; [reflexivity|tauto]|].
  destruct (eqb_str t (str "images")) eqn:B; [apply eqb_str_spec in B; subst t; injection H as <-; split; [reflexivity|tauto]|].
  destruct (eqb_str t (str "spectrum_image")) eqn:C; [apply eqb_str_spec in C; subst t; injection H as <-; split; [reflexivity|tauto]|]. discriminate.
Qed.

(** What is read, in which order *)
Theorem C122_types : forall o f l, read_file E o f = Ok l -> types l = expected o (f_data f).
Proof.
  intros o f l H. unfold read_file in H. cbv zeta in H. repeat step H. injection H as <-.
  match goal with X : read_data _ _ _ _ = Ok _ |- _ => rename X into R end.
  unfold read_data in R. step R. cbn [c_opt c_image c_stream] in *.
  match goal with S : selection _ = Ok ?q |- _ => apply selection_known in S; destruct S as [S _]; subst q end.
  unfold expected, has in *. set (d := f_data f) in *.
  assert (SS : forall c s s1, read_single_spectrum E c (selected (o_select o) "single_spectrum") d s = Ok s1 ->
     types (r_out s1) = types (r_out s) ++ (if selected (o_select o) "single_spectrum" then repeat (str "EDS_TEM") (count (d_spectrum d)) else [])).
  { intros c s s1 K. unfold read_single_spectrum in K. destruct (selected (o_select o) "single_spectrum"); cbn [negb] in K; [|injection K as <-; rewrite app_nil_r; reflexivity].
    destruct (d_spectrum d) as [ls|]; [|injection K as <-; cbn; rewrite app_nil_r; reflexivity]. exact (spectra_emit _ _ _ _ K). }
  assert (SI : forall c s s1, read_images E c (selected (o_select o) "images") (selected (o_select o) "spectrum_image") d s = Ok s1 ->
     types (r_out s1) = types (r_out s) ++ (if selected (o_select o) "images" then repeat [] (count (d_image d)) else [])).
  { intros c s s1 K. unfold read_images in K. destruct (negb _ && negb _) eqn:N.
    - injection K as <-. destruct (selected (o_select o) "images"); [discriminate|]. rewrite app_nil_r; reflexivity.
    - destruct (d_image d) as [li|]; [|injection K as <-; destruct (selected (o_select o) "images"); cbn; rewrite app_nil_r; reflexivity].
      destruct (selected (o_select o) "images"); [exact (images_emit _ _ _ _ K)|]. rewrite (images_silent _ _ _ _ K), app_nil_r. reflexivity. }
  assert (T : forall c s s1 s2, read_single_spectrum E c (selected (o_select o) "single_spectrum") d s = Ok s1 -> read_images E c (selected (o_select o) "images") (selected (o_select o) "spectrum_image") d s1 = Ok s2 ->
     types (r_out s2) = types (r_out s) ++ (if selected (o_select o) "single_spectrum" then repeat (str "EDS_TEM") (count (d_spectrum d)) else []) ++ (if selected (o_select o) "images" then repeat [] (count (d_image d)) else [])).
  { intros c s s1 s2 A B. rewrite (SI _ _ _ B), (SS _ _ _ A), <- app_assoc. reflexivity. }
  destruct (d_image d) as [li|] eqn:DI; destruct (d_si d) as [ls|] eqn:DS; cbn [andb negb] in R; cbv iota in R.
  - match type of R with bind ?r _ = _ => destruct r as [s1|] eqn:A; cbn [bind] in R; [|discriminate R] end.
    match type of R with bind ?r _ = _ => destruct r as [s2|] eqn:B; cbn [bind] in R; [|discriminate R] end.
    pose proof (T _ _ _ _ A B) as K. cbn [start r_out] in K. change (types [] ++ ?x) with x in K.
    destruct (selected (o_select o) "spectrum_image") eqn:SEL.
    + apply stream_emit in R. cbn [c_opt] in R. rewrite R, K, <- app_assoc. reflexivity.
    + unfold read_spectrum_stream in R. cbn [negb] in R. injection R as <-. rewrite K, app_nil_r. reflexivity.
  - apply SI in R. exact R.
  - match type of R with bind ?r _ = _ => destruct r as [s1|] eqn:A; cbn [bind] in R; [|discriminate R] end.
    match type of R with bind ?r _ = _ => destruct r as [s2|] eqn:B; cbn [bind] in R; [|discriminate R] end. injection R as <-.
    rewrite (T _ _ _ _ A B). cbn [start r_out types map app count]. destruct (selected (o_select o) "images"); cbn [repeat]; rewrite app_nil_r; reflexivity.
  - match type of R with bind ?r _ = _ => destruct r as [s1|] eqn:A; cbn [bind] in R; [|discriminate R] end.
    match type of R with bind ?r _ = _ => destruct r as [s2|] eqn:B; cbn [bind] in R; [|discriminate R] end. injection R as <-.
    rewrite (T _ _ _ _ A B). cbn [start r_out types map app count]. destruct (selected (o_select o) "images"); cbn [repeat]; rewrite app_nil_r; reflexivity.
Qed.
(** Another selection is refused, whatever the file *)
Theorem C122_unknown : forall o f, ~ known (o_select o) -> exists e, read_file E o f = Err e.
Proof.
  intros o f N. destruct (read_file E o f) as [l|e] eqn:H; [|exists e; reflexivity]. exfalso. apply N.
  unfold read_file in H. cbv zeta in H. repeat step H. match goal with R : read_data _ _ _ _ = Ok _ |- _ => unfold read_data in R; step R end. cbn [c_opt] in *.
  match goal with S : selection _ = Ok _ |- _ => exact (proj2 (selection_known _ _ S)) end.
Qed.
(** the error is a ValueError when the version and the metadata of the file can be read *)
Theorem C122_unknown_error : forall c d s, ~ known (o_select (c_opt c)) -> read_data E c d s = Err ValueError.
Proof.
  intros c d s N. unfold read_data, selection. destruct (o_select (c_opt c)) as [t|]; [|exfalso; apply N; exact Logic.I]. cbn [known] in N.
  destruct (eqb_str t (str "single_spectrum")) eqn:A; [apply eqb_str_spec in A; tauto|].
  destruct (eqb_str t (str "images")) eqn:B; [apply eqb_str_spec in B; tauto|].
  destruct (eqb_str t (str "spectrum_image")) eqn:C; [apply eqb_str_spec in C; tauto|]. reflexivity.
Qed.
End Props.
Print Assumptions C122_types.
Print Assumptions C122_unknown.
Print Assumptions C122_unknown_error.
