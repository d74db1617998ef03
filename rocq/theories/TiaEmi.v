(** Property C72: the XML objects of emi files.
    Model of /repo/rsciio/tia/_api.py: get_xml_info_from_emi (lines 364-375) and the choice
    of objects in emi_reader (lines 251-284).
    Simplifications: the ser files of an emi file are given by their digits; the object is
    returned as text, not as a dictionary. *)
From Verif Require Import Base Text Bytes Utf8 SfsModel.

(** bytes.find *)
Fixpoint find (p s : list Z) : option nat :=
  if startswith p s then Some O else match s with [] => None | _ :: s' => option_map S (find p s') end.
Definition find_from (p tx : list Z) (start : nat) : option nat := option_map (Nat.add start) (find p (skipn start tx)).
Definition open_tag : list Z := str "<ObjectInfo>".
Definition close_tag : list Z := str "</ObjectInfo>".
(** tx[-1:12], when nothing more is found *)
Definition last_piece (tx : list Z) : list Z := slice (List.length tx - 1) (12 - (List.length tx - 1)) tx.
(** The loop; tx[i : i_end + 13], where i_end is -1 without closing tag *)
Fixpoint xml_objects (fuel : nat) (tx : list Z) (i_start : nat) : res (list pystr) :=
  match fuel with
  | O => Err OutOfFuel
  | S fuel' =>
      match find_from open_tag tx (i_start + 1) with
      | None => let! o := utf8_decode (last_piece tx) in Ok [o]
      | Some i =>
          let stop := match find_from close_tag tx i with Some j => (j + 13)%nat | None => 12%nat end in
          let! o := utf8_decode (slice i (stop - i) tx) in
          let! l := xml_objects fuel' tx i in
          Ok (o :: l)
      end
  end.
Definition get_xml_info (tx : list Z) : res (list pystr) := let! l := xml_objects (S (S (List.length tx))) tx 0 in Ok (removelast l).
(** objects[i] *)
Definition py_index {A} (l : list A) (i : Z) : option A := if 0 <=? i then nth_error l (Z.to_nat i) else nth_error (rev l) (Z.to_nat (- i - 1)).
(** The object that goes to the metadata of the ser file with a digit (lines 269-283), and
    the one that gives date, time and units (line 514) *)
Definition metadata_object {A} (objects : list A) (digit : Z) : option A :=
  let index := digit - 1 in if index <? zlen objects then py_index objects index else None.
Definition date_object {A} (objects : list A) (digit : Z) : option A := nth_error objects 0.

(** * Specification: an emi file *)
Definition encode_object (body : list Z) : list Z := open_tag ++ body ++ close_tag.
(** Objects, each followed by other bytes *)
Definition encode_objects (l : list (list Z * list Z)) : list Z := List.concat (map (fun p => encode_object (fst p) ++ snd p) l).
Definition free (s : list Z) : Prop := contains open_tag s = false.
Definition object_ok (p : list Z * list Z) : Prop := free (fst p) /\ contains close_tag (fst p) = false /\ free (snd p).

(** * Searching *)
Lemma find_none : forall p s, contains p s = false -> find p s = None.
Proof. induction s as [|x s IH]; intro H; cbn [contains find] in *; destruct (startswith p _) eqn:E; try discriminate; [reflexivity|]. rewrite IH by exact H. reflexivity. Qed.
Lemma find_no_start : forall p a b, ~ In 60 a -> find (60 :: p) (a ++ b) = option_map (Nat.add (List.length a)) (find (60 :: p) b).
Proof.
  induction a as [|x a IH]; intros b H; [cbn; destruct (find _ b); reflexivity|]. cbn [app find startswith]. cbn [In] in H. assert (E : (60 =? x) = false) by lia. rewrite E. cbn [andb]. rewrite IH by tauto. destruct (find _ b); reflexivity.
Qed.
Lemma startswith_in : forall p s, startswith p s = true -> exists r, s = p ++ r.
Proof. induction p as [|x p IH]; intros s H; [exists s; reflexivity|]. destruct s as [|y s]; [discriminate|]. cbn [startswith] in H. apply andb_true_iff in H. destruct H as [H1 H2]. destruct (IH s H2) as [r ->]. exists r. cbn. f_equal. lia. Qed.
Lemma startswith_app : forall p r, startswith p (p ++ r) = true.
Proof. induction p as [|x p IH]; intro r; [reflexivity|]. cbn [app startswith]. rewrite Z.eqb_refl. apply IH. Qed.
Lemma startswith_cross : forall p a b, ~ In 60 p -> match b with [] => True | x :: _ => x = 60 end -> startswith p (a ++ b) = startswith p a.
Proof.
  induction p as [|x p IH]; intros a b H Hb; [destruct a; reflexivity|]. cbn [In] in H. destruct a as [|y a].
  - cbn [app]. destruct b as [|z b]; [reflexivity|]. subst z. cbn [startswith]. assert (E : (x =? 60) = false) by lia. rewrite E. reflexivity.
  - cbn [app startswith]. rewrite IH by tauto. reflexivity.
Qed.
Lemma find_free : forall p a b, ~ In 60 p -> contains (60 :: p) a = false -> match b with [] => True | x :: _ => x = 60 end ->
  find (60 :: p) (a ++ b) = option_map (Nat.add (List.length a)) (find (60 :: p) b).
Proof.
  induction a as [|x a IH]; intros b Hp Hf Hb; [cbn; destruct (find _ b); reflexivity|]. cbn [contains] in Hf. destruct (startswith (60 :: p) (x :: a)) eqn:E; [discriminate|].
  cbn [app find]. assert (E2 : startswith (60 :: p) (x :: a ++ b) = false). { cbn [startswith] in *. rewrite (startswith_cross p a b Hp Hb). exact E. }
  rewrite E2, IH by assumption. destruct (find _ b); reflexivity.
Qed.
Lemma open_form : open_tag = 60 :: str "ObjectInfo>" /\ close_tag = 60 :: str "/ObjectInfo>" /\ ~ In 60 (str "ObjectInfo>") /\ ~ In 60 (str "/ObjectInfo>").
Proof. repeat split; cbn; lia. Qed.
Lemma find_here : forall p r, find p (p ++ r) = Some O.
Proof. intros p r. destruct (p ++ r) as [|x s] eqn:E; cbn [find]; [destruct p; [reflexivity|discriminate]|]. rewrite <- E, startswith_app. reflexivity. Qed.
(** After an object has been found *)
Lemma find_next : forall body junk rest, object_ok (body, junk) -> match rest with [] => True | x :: _ => x = 60 end ->
  find open_tag (tl (encode_object body) ++ junk ++ rest) = option_map (Nat.add (List.length (tl (encode_object body) ++ junk))) (find open_tag rest).
Proof.
  intros body junk rest (Hb & _ & Hj) Hr. cbn [fst snd] in *. unfold free in *. destruct open_form as (Eo & Ec & No & Nc). unfold encode_object. rewrite Eo, Ec in *. cbn [app tl].
  rewrite <- !app_assoc. rewrite find_no_start by exact No. rewrite find_free; [|exact No|exact Hb|reflexivity]. cbn [app].
  assert (E : find (60 :: str "ObjectInfo>") (60 :: str "/ObjectInfo>" ++ junk ++ rest) = option_map S (find (60 :: str "ObjectInfo>") (str "/ObjectInfo>" ++ junk ++ rest))) by reflexivity.
  rewrite E. rewrite find_no_start by exact Nc. rewrite find_free; [|exact No|exact Hj|exact Hr]. destruct (find _ rest) as [n|]; [|reflexivity]. cbn [option_map]. f_equal. do 3 (rewrite ?app_length; cbn [List.length]). lia.
Qed.
Lemma find_close : forall body rest, contains close_tag body = false -> find close_tag (encode_object body ++ rest) = Some (12 + List.length body)%nat.
Proof.
  intros body rest Hb. destruct open_form as (Eo & Ec & No & Nc). unfold encode_object. rewrite Eo, Ec in *. cbn [app]. rewrite <- !app_assoc.
  assert (E : forall s, find (60 :: str "/ObjectInfo>") (60 :: str "ObjectInfo>" ++ s) = option_map S (find (60 :: str "/ObjectInfo>") (str "ObjectInfo>" ++ s))) by reflexivity.
  rewrite E. rewrite find_no_start by exact No. rewrite find_free; [|exact Nc|exact Hb|reflexivity]. rewrite find_here. cbn [option_map]. f_equal. change (List.length (str "ObjectInfo>")) with 11%nat. lia.
Qed.
Lemma encode_start : forall l, match encode_objects l with [] => True | x :: _ => x = 60 end.
Proof. destruct l as [|[b j] l]; [exact I|]. reflexivity. Qed.
Lemma skip_all : forall A (a b : list A) i, List.length a = i -> skipn i (a ++ b) = b.
Proof. exact skipn_app_exact. Qed.

(** * Objects *)
Lemma objects_found : forall l pre mid i fuel texts, List.length pre = (i + 1)%nat -> (List.length l < fuel)%nat -> Forall object_ok l ->
  find open_tag (mid ++ encode_objects l) = option_map (Nat.add (List.length mid)) (find open_tag (encode_objects l)) ->
  Forall2 (fun p t => utf8_decode (encode_object (fst p)) = Ok t) l texts ->
  let tx := pre ++ mid ++ encode_objects l in xml_objects fuel tx i = (let! o := utf8_decode (last_piece tx) in Ok (texts ++ [o])).
Proof.
  induction l as [|[b j] l IH]; intros pre mid i fuel texts Hp Hf Ho Hm Ht; cbv zeta; (destruct fuel as [|fuel]; [cbn in Hf; lia|]); cbn [xml_objects]; unfold find_from at 1; rewrite skip_all by exact Hp; rewrite Hm.
  - inversion Ht; subst. reflexivity.
  - inversion Ho as [|? ? Ho1 Ho2]; subst. inversion Ht as [|? t ? texts' Ht1 Ht2]; subst. cbn [fst] in Ht1.
    assert (Ee : encode_objects ((b, j) :: l) = encode_object b ++ j ++ encode_objects l) by (unfold encode_objects; cbn [map List.concat fst snd]; rewrite <- app_assoc; reflexivity). rewrite Ee.
    assert (F0 : find open_tag (encode_object b ++ j ++ encode_objects l) = Some O) by (unfold encode_object; rewrite <- !app_assoc; apply find_here). rewrite F0. cbn [option_map].
    set (at_ := (i + 1 + (List.length mid + 0))%nat). unfold find_from.
    assert (Sk : skipn at_ (pre ++ mid ++ encode_object b ++ j ++ encode_objects l) = encode_object b ++ j ++ encode_objects l) by (rewrite app_assoc; apply skip_all; rewrite app_length; unfold at_; lia).
    rewrite Sk, find_close by apply Ho1. cbn [option_map]. assert (Le : List.length (encode_object b) = (25 + List.length b)%nat) by (unfold encode_object; rewrite !app_length; change (List.length open_tag) with 12%nat; change (List.length close_tag) with 13%nat; lia).
    unfold slice at 1. rewrite Sk. replace (at_ + (12 + List.length b) + 13 - at_)%nat with (List.length (encode_object b)) by lia. rewrite firstn_app_exact by reflexivity. rewrite Ht1. cbn [bind].
    assert (Eh : encode_object b = [60] ++ tl (encode_object b)) by reflexivity.
    assert (Etx : pre ++ mid ++ encode_object b ++ j ++ encode_objects l = (pre ++ mid ++ [60]) ++ (tl (encode_object b) ++ j) ++ encode_objects l) by (rewrite Eh at 1; rewrite <- !app_assoc; reflexivity).
    rewrite Etx. rewrite (IH (pre ++ mid ++ [60]) (tl (encode_object b) ++ j) at_ fuel texts').
    + destruct (utf8_decode (last_piece _)); reflexivity.
    + rewrite !app_length. cbn [List.length]. unfold at_. lia.
    + cbn in Hf. lia.
    + exact Ho2.
    + rewrite <- app_assoc. apply find_next; [exact Ho1|apply encode_start].
    + exact Ht2.
Qed.
(** Every object is found, in order, if other bytes come first *)
Theorem C72_objects : forall junk l texts, junk <> [] -> free junk -> l <> [] -> Forall object_ok l ->
  Forall2 (fun p t => utf8_decode (encode_object (fst p)) = Ok t) l texts -> get_xml_info (junk ++ encode_objects l) = Ok texts.
Proof.
  intros junk l texts Hj Hf Hl Ho Ht. destruct junk as [|x junk]; [congruence|]. unfold get_xml_info.
  assert (Hlen : (25 * List.length l <= List.length (encode_objects l))%nat).
  { clear. unfold encode_objects. induction l as [|[b j] l IH]; [cbn; lia|]. cbn [map List.concat fst snd]. unfold encode_object at 1. rewrite !app_length. change (List.length open_tag) with 12%nat. change (List.length close_tag) with 13%nat. cbn [List.length]. lia. }
  assert (Hl1 : (1 <= List.length l)%nat) by (destruct l; [congruence|cbn; lia]).
  pose proof (objects_found l [x] junk 0 (S (S (List.length ((x :: junk) ++ encode_objects l)))) texts) as Q. cbv zeta in Q. change ([x] ++ junk ++ encode_objects l) with ((x :: junk) ++ encode_objects l) in Q.
  rewrite Q; [|reflexivity|rewrite app_length; cbn [List.length]; lia|exact Ho| |exact Ht].
  - assert (Lp : last_piece ((x :: junk) ++ encode_objects l) = []).
    { unfold last_piece, slice. replace (12 - (List.length ((x :: junk) ++ encode_objects l) - 1))%nat with 0%nat by (rewrite app_length; cbn [List.length]; lia). reflexivity. }
    rewrite Lp. cbn [utf8_decode bind]. rewrite removelast_last. reflexivity.
  - destruct open_form as (Eo & _ & No & _). unfold free in Hf. rewrite Eo in *. apply find_free; [exact No| |apply encode_start]. cbn [contains] in Hf. apply orb_false_iff in Hf. apply Hf.
Qed.
(** An object at the very beginning is missed *)
Theorem C72_first_refuted : get_xml_info (encode_object (str "a") ++ str "-" ++ encode_object (str "b")) = Ok [encode_object (str "b")].
Proof. vm_compute. reflexivity. Qed.
(** The ser file with digit d has the metadata of object d *)
Theorem C72_metadata : forall A (objects : list A) d, 1 <= d <= zlen objects -> metadata_object objects d = nth_error objects (Z.to_nat (d - 1)).
Proof. intros A objects d H. unfold metadata_object, py_index. assert (E : (d - 1 <? zlen objects) = true) by lia. rewrite E. assert (E2 : (0 <=? d - 1) = true) by lia. rewrite E2. reflexivity. Qed.
(** Date, time and units come from the first object *)
Theorem C72_date_refuted : exists objects : list Z, date_object objects 2 <> metadata_object objects 2 /\ metadata_object objects 2 = Some 8.
Proof. exists [7; 8]. split; [vm_compute; discriminate|reflexivity]. Qed.
Definition ex_emi : list (list Z * list Z) := [(str "<Uuid>1</Uuid>", [0; 60; 255]); (str "<User>" ++ [195; 169] ++ str "</User>", str "<Object"); ([], [])].
Example C72_example : get_xml_info ([200; 60] ++ encode_objects ex_emi) =
  Ok [encode_object (str "<Uuid>1</Uuid>"); encode_object (str "<User>" ++ [233] ++ str "</User>"); encode_object []].
Proof. vm_compute. reflexivity. Qed.
Example C72_example_hyps : free [200; 60] /\ Forall object_ok ex_emi /\
  Forall2 (fun p t => utf8_decode (encode_object (fst p)) = Ok t) ex_emi [encode_object (str "<Uuid>1</Uuid>"); encode_object (str "<User>" ++ [233] ++ str "</User>"); encode_object []].
Proof. split; [reflexivity|]. split; repeat constructor. Qed.
Print Assumptions C72_objects.
Print Assumptions C72_first_refuted.
Print Assumptions C72_metadata.
Print Assumptions C72_date_refuted.
