(** Claim C35: the tag tree of Digital Micrograph files. *)
From Verif Require Import Base Text Bytes Utf8 HierModel HierProof SfsModel SfsProps BcfUnpack DmModel.

(** * Specification: tag trees and their bytes *)
(** Simple types: bytes and signedness. *)
Definition width (t : Z) : option (nat * bool) :=
  match t with
  | 2 => Some (2%nat, true) | 3 => Some (4%nat, true) | 4 => Some (2%nat, false) | 5 => Some (4%nat, false)
  | 6 => Some (4%nat, false) | 7 => Some (8%nat, false) | 8 => Some (1%nat, false) | 9 => Some (1%nat, false)
  | 10 => Some (1%nat, true) | 11 => Some (8%nat, true) | 12 => Some (8%nat, false)
  | _ => None
  end.
(** A number that a simple type can hold (for floats: the bit pattern). *)
Definition holds (t x : Z) : Prop :=
  match width t with
  | Some (n, true) => - 2 ^ (8 * Z.of_nat n - 1) <= x < 2 ^ (8 * Z.of_nat n - 1)
  | Some (n, false) => 0 <= x < 256 ^ Z.of_nat n
  | None => False
  end.
Definition means (t x : Z) : dval := if t =? 6 then DFloat 4 x else if t =? 7 then DFloat 8 x else if t =? 9 then DChar x else DInt x.

Inductive tdata :=
| TSimple (t x : Z)
| TArray (t : Z) (xs : list Z)
| TStruct (fs : list (Z * Z))
| TStructs (def : list Z) (rows : list (list Z))
| TString (latin : bool) (s : pystr)
| TStrings (len : Z) (ss : list pystr).
Inductive ttree := Leaf (junk : Z) (d : tdata) | Node (flag1 flag2 junk : Z) (kids : list (pystr * ttree)).

Section Spec.
Variables (v4 big : bool).
Definition w (x : Z) : list Z := if v4 then be 8 x else be 4 x.
Definition num (t x : Z) : list Z := match width t with Some (n, _) => enc big n x | None => [] end.
Definition utf8 (s : pystr) : list Z := flat_map utf8_char s.
Definition enc_def (j : Z) (def : list Z) : list Z := w j ++ w (zlen def) ++ flat_map (fun t => w j ++ w t) def.
Definition enc_row (def xs : list Z) : list Z := flat_map (fun p => num (fst p) (snd p)) (combine def xs).
Definition info (j : Z) (d : tdata) : list Z :=
  match d with
  | TSimple t _ => w 1 ++ w t
  | TArray t xs => w 3 ++ w 20 ++ w t ++ w (zlen xs)
  | TStruct fs => w (3 + 2 * zlen fs) ++ w 15 ++ enc_def j (map fst fs)
  | TStructs def rows => w (5 + 2 * zlen def) ++ w 20 ++ w 15 ++ enc_def j def ++ w (zlen rows)
  | TString latin s => w 2 ++ w 18 ++ w (zlen (if latin then s else utf8 s))
  | TStrings len ss => w 4 ++ w 20 ++ w 18 ++ w len ++ w (zlen ss)
  end.
Definition body (d : tdata) : list Z :=
  match d with
  | TSimple t x => num t x
  | TArray t xs => flat_map (num t) xs
  | TStruct fs => flat_map (fun p => num (fst p) (snd p)) fs
  | TStructs def rows => flat_map (enc_row def) rows
  | TString latin s => if latin then s else utf8 s
  | TStrings _ ss => flat_map utf8 ss
  end.
Fixpoint enc_tree (name : pystr) (t : ttree) : list Z :=
  match t with
  | Leaf j d => [21] ++ be 2 (zlen (utf8 name)) ++ utf8 name ++ (if v4 then be 8 j else []) ++ str "%%%%" ++ info j d ++ body d
  | Node a b j kids =>
      [20] ++ be 2 (zlen (utf8 name)) ++ utf8 name ++ (if v4 then be 8 j else []) ++ [a; b] ++ w (zlen kids) ++
      flat_map (fun p => enc_tree (fst p) (snd p)) kids
  end.
Definition enc_kids (kids : list (pystr * ttree)) : list Z := flat_map (fun p => enc_tree (fst p) (snd p)) kids.
End Spec.
Definition enc_file (v4 big : bool) (size flags1 flags2 : Z) (kids : list (pystr * ttree)) (tail : list Z) : list Z :=
  be 4 (if v4 then 4 else 3) ++ w v4 size ++ be 4 (if big then 0 else 1) ++ [flags1; flags2] ++ w v4 (zlen kids) ++ enc_kids v4 big kids ++ tail.

(** Keys: names without dots; tags without name are numbered, data and groups apart. *)
Definition clean (name : pystr) : pystr := filter (fun c => negb (c =? 46)) name.
Definition unnamed (name : pystr) : bool := match clean name with [] => true | _ => false end.
Definition is_leaf (t : ttree) : bool := match t with Leaf _ _ => true | Node _ _ _ _ => false end.
Definition key (nd ng : Z) (name : pystr) (t : ttree) : pystr :=
  if unnamed name then (if is_leaf t then str "Data" ++ str_int nd else str "TagGroup" ++ str_int ng) else clean name.
Definition next_d (nd : Z) (name : pystr) (t : ttree) : Z := if unnamed name && is_leaf t then nd + 1 else nd.
Definition next_g (ng : Z) (name : pystr) (t : ttree) : Z := if unnamed name && negb (is_leaf t) then ng + 1 else ng.
Fixpoint keys (nd ng : Z) (kids : list (pystr * ttree)) : list pystr :=
  match kids with
  | [] => []
  | (name, t) :: kids' => key nd ng name t :: keys (next_d nd name t) (next_g ng name t) kids'
  end.

(** The value read for a tag.  The data of an image are left in the file, at a known place. *)
Definition leaf_reads (big : bool) (file : list Z) (skip : bool) (d : tdata) (v : dval) : Prop :=
  match d with
  | TSimple t x => v = means t x
  | TArray t xs =>
      if skip then exists off, v = DSkip (zlen xs) (zlen (body big d)) off /\ bytes_at file off (body big d)
      else v = (if (t =? 4) && (0 <? zlen xs) then DStr xs else DList (map (means t) xs))
  | TStruct fs =>
      if skip then exists off, v = DSkip (zlen fs) (zlen (body big d)) off /\ bytes_at file off (body big d)
      else v = DTuple (map (fun p => means (fst p) (snd p)) fs)
  | TStructs def rows =>
      if skip then exists off, v = DSkip (zlen rows) (zlen (body big d)) off /\ bytes_at file off (body big d)
      else v = DList (map (fun r => DTuple (map (fun p => means (fst p) (snd p)) (combine def r))) rows)
  | TString _ s => if skip then exists off, v = DSkip (zlen (body big d)) 0 off /\ bytes_at file off (body big d) else v = DStr s
  | TStrings _ ss => v = DList (map DStr ss)
  end.
Definition is_image (group name : pystr) : bool := eqb_str group (str "ImageData") && eqb_str (clean name) (str "Data").
(** [group]: the key of the tag itself; [skip]: it is the data of an image. *)
Fixpoint reads (big : bool) (file : list Z) (group : pystr) (skip : bool) (t : ttree) (v : dval) {struct t} : Prop :=
  match t with
  | Leaf _ d => leaf_reads big file skip d v
  | Node _ _ _ kids =>
      exists e, v = DDict e /\
        (fix all (nd ng : Z) (kids : list (pystr * ttree)) (e : list (pystr * dval)) : Prop :=
           match kids, e with
           | [], [] => True
           | (name, t) :: kids', (k, v) :: e' =>
               k = key nd ng name t /\ reads big file k (is_image group name) t v /\ all (next_d nd name t) (next_g ng name t) kids' e'
           | _, _ => False
           end) 0 0 kids e
  end.
Fixpoint reads_kids (big : bool) (file : list Z) (group : pystr) (nd ng : Z) (kids : list (pystr * ttree)) (e : list (pystr * dval)) : Prop :=
  match kids, e with
  | [], [] => True
  | (name, t) :: kids', (k, v) :: e' =>
      k = key nd ng name t /\ reads big file k (is_image group name) t v /\ reads_kids big file group (next_d nd name t) (next_g ng name t) kids' e'
  | _, _ => False
  end.

(** What can be stored. *)
Section Storable.
Variable v4 : bool.
Definition small (x : Z) : Prop := 0 <= x < (if v4 then 2 ^ 61 else 2 ^ 29).
Definition data_ok (skip : bool) (d : tdata) : Prop :=
  match d with
  | TSimple t x => holds t x
  | TArray t xs => width t <> None /\ Forall (holds t) xs /\ small (zlen xs)
  | TStruct fs => fs <> [] /\ Forall (fun p => holds (fst p) (snd p)) fs /\ small (zlen fs)
  | TStructs def rows => def <> [] /\ Forall (fun t => width t <> None) def /\ small (zlen def) /\ small (zlen rows) /\ Forall (Forall2 holds def) rows
  | TString false s => forallb scalar s = true /\ small (zlen (utf8 s))
  | TString true s => (exists e, utf8_decode s = Err e) /\ small (zlen s)
  | TStrings len ss => skip = false /\ 0 < len /\ small len /\ small (zlen ss) /\ Forall (fun s => forallb scalar s = true /\ zlen (utf8 s) = len) ss
  end.
Definition name_ok (name : pystr) : Prop := forallb scalar name = true /\ zlen (utf8 name) < 32768.
Fixpoint tree_ok (group : pystr) (skip : bool) (t : ttree) : Prop :=
  match t with
  | Leaf _ d => data_ok skip d
  | Node _ _ _ kids =>
      small (zlen kids) /\ NoDup (keys 0 0 kids) /\
      (fix all (nd ng : Z) (kids : list (pystr * ttree)) : Prop :=
         match kids with
         | [] => True
         | (name, t) :: kids' => name_ok name /\ tree_ok (key nd ng name t) (is_image group name) t /\ all (next_d nd name t) (next_g ng name t) kids'
         end) 0 0 kids
  end.
Fixpoint kids_ok (group : pystr) (nd ng : Z) (kids : list (pystr * ttree)) : Prop :=
  match kids with
  | [] => True
  | (name, t) :: kids' => name_ok name /\ tree_ok (key nd ng name t) (is_image group name) t /\ kids_ok group (next_d nd name t) (next_g ng name t) kids'
  end.
End Storable.

(** * Reading numbers *)
Lemma getn_ok : forall n a l, zlen a = n -> getn n (a ++ l) = Ok (a, l).
Proof.
  intros n a l H. unfold getn. rewrite zlen_app. pose proof (zlen_nonneg _ l). replace (zlen a + zlen l <? n) with false by lia.
  rewrite firstz_app, skipz_app by exact H. reflexivity.
Qed.
Lemma zlen_be : forall n x, zlen (be n x) = Z.of_nat n.
Proof. intros. unfold zlen. rewrite be_length. reflexivity. Qed.
Lemma zlen_enc : forall b n x, zlen (enc b n x) = Z.of_nat n.
Proof. intros. unfold zlen. rewrite enc_length. reflexivity. Qed.
Definition fits (v4 : bool) (x : Z) : Prop := 0 <= x < (if v4 then 2 ^ 63 else 2 ^ 31).
Lemma word_ok : forall v4 x l, fits v4 x -> word v4 (w v4 x ++ l) = Ok (x, l).
Proof.
  intros v4 x l Hx. unfold fits in Hx. unfold word, w. destruct v4; rewrite getn_ok by (rewrite zlen_be; reflexivity); cbn [bind]; rewrite be_val_be, signed_mod; try reflexivity; try lia.
Qed.
(** Any number is read for the unused words. *)
Lemma word_any : forall v4 x l, exists y, word v4 (w v4 x ++ l) = Ok (y, l).
Proof. intros v4 x l. unfold word, w. destruct v4; rewrite getn_ok by (rewrite zlen_be; reflexivity); cbn [bind]; eexists; reflexivity. Qed.
Lemma width_cases : forall t, width t <> None -> t = 2 \/ t = 3 \/ t = 4 \/ t = 5 \/ t = 6 \/ t = 7 \/ t = 8 \/ t = 9 \/ t = 10 \/ t = 11 \/ t = 12.
Proof.
  intros t H. unfold width in H. destruct t as [|p|p]; try contradiction.
  do 4 (destruct p as [p|p|]; try contradiction; try tauto).
Qed.
Lemma width_bounds : forall v4 t, width t <> None -> fits v4 t.
Proof. intros v4 t H. apply width_cases in H. unfold fits. destruct v4; lia. Qed.
Lemma small_fits : forall (v4 : bool) x y, small v4 x -> (0 <= x -> 0 <= y <= 5 + 2 * x) -> fits v4 y.
Proof. intros v4 x y H1 H2. unfold small in H1. unfold fits. destruct v4; lia. Qed.
Lemma fits_const : forall v4 x, 0 <= x < 2 ^ 31 -> fits v4 x.
Proof. intros v4 x H. unfold fits. destruct v4; lia. Qed.
Ltac fits := (apply fits_const; lia) || (match goal with H : small _ ?x |- _ => apply (small_fits _ x _ H); lia end).
Lemma holds_width : forall t x, holds t x -> width t <> None.
Proof. intros t x H E. unfold holds in H. rewrite E in H. exact H. Qed.
Lemma width_pos : forall t n s, width t = Some (n, s) -> (1 <= n)%nat.
Proof.
  intros t n s E. assert (W : width t <> None) by (rewrite E; discriminate). apply width_cases in W.
  repeat (destruct W as [->|W]; [injection E as <- _; lia|]). subst t. injection E as <- _. lia.
Qed.
Lemma width_size : forall t, simple_size t = option_map (fun p => Z.of_nat (fst p)) (width t).
Proof. intro t. unfold simple_size, width. destruct t as [|p|p]; try reflexivity. do 4 (destruct p as [p|p|]; try reflexivity). Qed.

Lemma num_len : forall big t x, holds t x -> exists n, simple_size t = Some n /\ zlen (num big t x) = n /\ 1 <= n.
Proof.
  intros big t x H. rewrite width_size. unfold holds in H. unfold num. destruct (width t) as [[n s]|] eqn:E; [|contradiction].
  exists (Z.of_nat n). split; [reflexivity|]. split; [apply zlen_enc|]. apply width_pos in E. lia.
Qed.
Lemma read_simple_ok : forall big t x l, holds t x -> read_simple big t (num big t x ++ l) = Ok (means t x, l).
Proof.
  intros big t x l H. unfold read_simple. destruct (num_len big t x H) as [n [E [L _]]]. rewrite E. rewrite getn_ok by exact L. cbn [bind]. f_equal. f_equal.
  unfold simple_value, means, num. pose proof (width_cases t (holds_width t x H)) as C. unfold holds in H. clear E L n.
  repeat (destruct C as [C|C]); subst t; cbn [width Z.eqb Pos.eqb] in *;
  match goal with |- context [enc big ?n x] => pose proof (dec_enc_mod big n x) as D end; unfold dec_int in D; rewrite D;
  (rewrite Z.mod_small by exact H; reflexivity) || (rewrite signed_mod by (exact H || lia); reflexivity).
Qed.

Lemma repeat_read_ok : forall A B (f : list Z -> res (B * list Z)) (e : A -> list Z) (m : A -> B) xs l,
  (forall x l, In x xs -> f (e x ++ l) = Ok (m x, l)) -> repeat_read (List.length xs) f (flat_map e xs ++ l) = Ok (map m xs, l).
Proof.
  intros A B f e m xs. induction xs as [|x xs IH]; intros l H; [reflexivity|].
  cbn [List.length repeat_read flat_map map]. rewrite <- app_assoc. rewrite H by (left; reflexivity). cbn [bind]. rewrite IH; [reflexivity|].
  intros y l' Hy. apply H. right. exact Hy.
Qed.
Lemma len_ge : forall A (e : A -> list Z) xs l, (forall x, In x xs -> 1 <= zlen (e x)) -> zlen xs <= zlen (flat_map e xs ++ l).
Proof.
  intros A e xs l H. rewrite zlen_app. pose proof (zlen_nonneg _ l). enough (zlen xs <= zlen (flat_map e xs)) by lia.
  induction xs as [|x xs IH]; [reflexivity|]. cbn [flat_map]. rewrite zlen_app, zlen_cons. specialize (H x (or_introl eq_refl)) as H1.
  assert (zlen xs <= zlen (flat_map e xs)) by (apply IH; intros y Hy; apply H; right; exact Hy). lia.
Qed.
Lemma read_string_ok : forall s l, forallb scalar s = true -> read_string (zlen (utf8 s)) (utf8 s ++ l) = Ok (s, l).
Proof.
  intros s l H. unfold read_string. pose proof (zlen_nonneg _ (utf8 s)). rewrite getn_ok by lia. cbn [bind]. unfold decode_text.
  rewrite (utf8_round_trip s); [reflexivity|]. unfold utf8_encode. rewrite H. reflexivity.
Qed.

Lemma fields_ok : forall v4 j def l, Forall (fun t => width t <> None) def -> fields v4 (List.length def) (flat_map (fun t => w v4 j ++ w v4 t) def ++ l) = Ok (def, l).
Proof.
  intros v4 j def. induction def as [|t def IH]; intros l H; [reflexivity|]. inversion H as [|? ? H1 H2]; subst.
  cbn [List.length fields flat_map]. rewrite <- !app_assoc. destruct (word_any v4 j (w v4 t ++ flat_map (fun t => w v4 j ++ w v4 t) def ++ l)) as [y ->]. cbn [bind].
  rewrite word_ok by (apply width_bounds; exact H1).
  cbn [bind]. rewrite IH by exact H2. reflexivity.
Qed.
Lemma w_len : forall v4 x, 1 <= zlen (w v4 x).
Proof. intros [] x; unfold w; rewrite zlen_be; lia. Qed.
Lemma struct_def_ok : forall v4 j def l, Forall (fun t => width t <> None) def -> small v4 (zlen def) -> struct_def v4 (enc_def v4 j def ++ l) = Ok (def, l).
Proof.
  intros v4 j def l H S. unfold struct_def, enc_def. rewrite <- !app_assoc. destruct (word_any v4 j (w v4 (zlen def) ++ flat_map (fun t => w v4 j ++ w v4 t) def ++ l)) as [y ->]. cbn [bind].
  rewrite word_ok by fits. cbn [bind].
  pose proof (len_ge Z (fun t => w v4 j ++ w v4 t) def l) as L. replace (zlen _ <? zlen def) with false.
  2:{ symmetry. apply Z.ltb_ge. apply L. intros t _. rewrite zlen_app. pose proof (w_len v4 j). pose proof (w_len v4 t). lia. }
  unfold zlen. rewrite Nat2Z.id. apply fields_ok. exact H.
Qed.
Lemma read_fields_ok : forall big fs l, Forall (fun p => holds (fst p) (snd p)) fs ->
  read_fields big (map fst fs) (flat_map (fun p => num big (fst p) (snd p)) fs ++ l) = Ok (map (fun p => means (fst p) (snd p)) fs, l).
Proof.
  intros big fs. induction fs as [|[t x] fs IH]; intros l H; [reflexivity|]. inversion H as [|? ? H1 H2]; subst. cbn [fst snd] in H1.
  cbn [map read_fields flat_map fst snd]. destruct (num_len big t x H1) as [n [E _]]. rewrite E. rewrite <- app_assoc. rewrite read_simple_ok by exact H1. cbn [bind].
  rewrite IH by exact H2. reflexivity.
Qed.
Lemma skip_fields_ok : forall big fs, Forall (fun p => holds (fst p) (snd p)) fs -> skip_fields (map fst fs) = Ok (zlen (flat_map (fun p => num big (fst p) (snd p)) fs)).
Proof.
  intros big fs. induction fs as [|[t x] fs IH]; intro H; [reflexivity|]. inversion H as [|? ? H1 H2]; subst. cbn [fst snd] in H1.
  cbn [map skip_fields flat_map fst snd]. destruct (num_len big t x H1) as [n [E [L _]]]. rewrite E, IH by exact H2. cbn [bind]. rewrite zlen_app, L. reflexivity.
Qed.
Lemma Forall2_combine : forall def r, Forall2 holds def r -> Forall (fun p => holds (fst p) (snd p)) (combine def r) /\ map fst (combine def r) = def.
Proof. induction 1 as [|t x def r H F [IH1 IH2]]; [split; constructor|]. cbn. split; [constructor; assumption|]. rewrite IH2. reflexivity. Qed.

(** * Data tags *)
Lemma skip_bytes_at : forall file pre b rest tot, file = pre ++ b ++ rest -> tot = zlen file -> bytes_at file (tell tot (b ++ rest)) b.
Proof.
  intros file pre b rest tot -> ->. unfold tell, bytes_at. rewrite zlen_app. pose proof (zlen_nonneg _ pre). split; [lia|].
  replace (Z.to_nat (zlen pre + zlen (b ++ rest) - zlen (b ++ rest))) with (List.length pre) by (unfold zlen; lia). apply slice_app; reflexivity.
Qed.
Lemma seekf_ok : forall b l, seekf (zlen b) (b ++ l) = Ok l.
Proof. intros b l. unfold seekf. pose proof (zlen_nonneg _ b). replace (zlen b <? 0) with false by lia. rewrite skipz_app by reflexivity. reflexivity. Qed.
Lemma array_len : forall big t xs, Forall (holds t) xs -> forall n, simple_size t = Some n -> zlen (flat_map (num big t) xs) = n * zlen xs.
Proof.
  intros big t xs H n E. induction H as [|x xs H1 _ IH]; [cbn; lia|]. cbn [flat_map]. rewrite zlen_app, IH, zlen_cons.
  destruct (num_len big t x H1) as [m [E2 [L _]]]. assert (m = n) by congruence. lia.
Qed.

Lemma data_tag_ok : forall (v4 big : bool) tot file pre skip prev j d rest, data_ok v4 skip d -> tot = zlen file ->
  file = pre ++ (if v4 then be 8 j else []) ++ str "%%%%" ++ info v4 j d ++ body big d ++ rest ->
  exists v, data_tag v4 big tot skip prev ((if v4 then be 8 j else []) ++ str "%%%%" ++ info v4 j d ++ body big d ++ rest) = Ok (v, rest) /\
    leaf_reads big file skip d v.
Proof.
  intros v4 big tot file pre skip prev j d rest Hd Ht Hf. unfold data_tag.
  assert (S4 : skipif4 v4 2 ((if v4 then be 8 j else []) ++ str "%%%%" ++ info v4 j d ++ body big d ++ rest) = str "%%%%" ++ info v4 j d ++ body big d ++ rest).
  { unfold skipif4. destruct v4; [|reflexivity]. apply skipz_app. rewrite zlen_be. reflexivity. }
  rewrite S4. rewrite getn_ok by reflexivity. cbn [bind]. rewrite eqb_str_refl. cbn [negb].
  assert (Hp : exists pre', file = pre' ++ body big d ++ rest).
  { exists (pre ++ (if v4 then be 8 j else []) ++ str "%%%%" ++ info v4 j d). rewrite Hf, <- !app_assoc. reflexivity. }
  clear S4 Hf pre. destruct Hp as [pre Hf]. pose proof (skip_bytes_at file pre (body big d) rest tot Hf Ht) as At. clear Hf Ht.
  destruct d as [t x|t xs|fs|def rows|latin s|len ss]; cbn [info body data_ok leaf_reads] in *; rewrite <- ?app_assoc in *.
  - rewrite word_ok by fits. cbn [bind Z.eqb Pos.eqb]. rewrite word_ok by (eapply width_bounds, holds_width; exact Hd).
    cbn [bind]. rewrite read_simple_ok by exact Hd. eexists. split; reflexivity.
  - destruct Hd as [Hw [Hx Hs]]. pose proof (zlen_nonneg _ xs). rewrite !word_ok by fits. cbn [bind Z.eqb Pos.eqb negb]. rewrite word_ok by fits. cbn [bind Z.eqb Pos.eqb negb]. rewrite word_ok by (apply width_bounds; exact Hw).
    cbn [bind]. rewrite word_ok by fits. cbn [bind]. unfold simple_array.
    assert (exists n, simple_size t = Some n /\ 1 <= n) as [n [En Hn]].
    { rewrite width_size. destruct (width t) as [[n s]|] eqn:E; [|contradiction]. exists (Z.of_nat n). split; [reflexivity|].
      apply width_pos in E. lia. }
    rewrite En. pose proof (array_len big t xs Hx n En) as La. destruct skip.
    + rewrite <- La, seekf_ok. cbn [bind]. eexists. split; [reflexivity|]. eexists. split; [reflexivity|exact At].
    + assert (zlen (flat_map (num big t) xs ++ rest) <? zlen xs = false) as ->.
      { apply Z.ltb_ge. apply len_ge. intros x Hin. rewrite Forall_forall in Hx. destruct (num_len big t x (Hx x Hin)) as [m [_ [L K]]]. lia. }
      replace (Z.to_nat (zlen xs)) with (List.length xs) by (unfold zlen; lia).
      rewrite (repeat_read_ok _ _ (read_simple big t) (num big t) (means t)). 2:{ intros x l Hin. apply read_simple_ok. rewrite Forall_forall in Hx. apply Hx. exact Hin. }
      cbn [bind]. eexists. split; [reflexivity|]. destruct xs as [|x xs]; [rewrite andb_false_r; reflexivity|]. cbn [map].
      rewrite zlen_cons. pose proof (zlen_nonneg _ xs). replace (0 <? 1 + zlen xs) with true by lia. rewrite andb_true_r.
      destruct (t =? 4) eqn:E4; [|reflexivity]. assert (t = 4) as -> by lia. f_equal. cbn. f_equal. rewrite map_map. apply map_id.
  - destruct Hd as [Hne [Hfs Hs]]. assert (0 < zlen fs) by (destruct fs; [contradiction|rewrite zlen_cons; pose proof (zlen_nonneg _ fs); lia]).
    rewrite word_ok by fits. cbn [bind]. replace (3 + 2 * zlen fs =? 1) with false by lia. replace (3 + 2 * zlen fs =? 2) with false by lia.
    replace (3 + 2 * zlen fs =? 3) with false by lia. replace (3 <? 3 + 2 * zlen fs) with true by lia. rewrite word_ok by fits. cbn [bind Z.eqb Pos.eqb].
    assert (Hw : Forall (fun t => width t <> None) (map fst fs)).
    { apply Forall_map. eapply Forall_impl; [|exact Hfs]. intros [t x]. cbn [fst snd]. unfold holds. destruct (width t); [discriminate|contradiction]. }
    rewrite struct_def_ok by (try exact Hw; unfold small, zlen in *; rewrite map_length; exact Hs). cbn [bind]. destruct skip.
    + rewrite (skip_fields_ok big) by exact Hfs. cbn [bind]. rewrite skipz_app by reflexivity. eexists. split; [reflexivity|].
      replace (zlen (map fst fs)) with (zlen fs) by (unfold zlen; rewrite map_length; reflexivity). eexists. split; [reflexivity|exact At].
    + rewrite read_fields_ok by exact Hfs. cbn [bind]. eexists. split; reflexivity.
  - destruct Hd as [Hne [Hw [Hs1 [Hs2 Hr]]]]. pose proof (zlen_nonneg _ rows). assert (0 < zlen def) by (destruct def; [contradiction|rewrite zlen_cons; pose proof (zlen_nonneg _ def); lia]).
    rewrite word_ok by fits. cbn [bind]. replace (5 + 2 * zlen def =? 1) with false by lia. replace (5 + 2 * zlen def =? 2) with false by lia.
    replace (5 + 2 * zlen def =? 3) with false by lia. replace (3 <? 5 + 2 * zlen def) with true by lia. rewrite word_ok by fits. cbn [bind Z.eqb Pos.eqb].
    rewrite word_ok by fits. cbn [bind Z.eqb Pos.eqb]. rewrite struct_def_ok by (try exact Hw; exact Hs1). cbn [bind]. rewrite word_ok by fits. cbn [bind]. unfold struct_array.
    assert (Hrow : forall r, In r rows -> skip_fields def = Ok (zlen (enc_row big def r)) /\ Forall (fun p => holds (fst p) (snd p)) (combine def r) /\ map fst (combine def r) = def).
    { intros r Hin. rewrite Forall_forall in Hr. destruct (Forall2_combine def r (Hr r Hin)) as [A B]. split; [|split; assumption].
      rewrite <- B at 1. unfold enc_row. apply skip_fields_ok. exact A. }
    destruct skip.
    + assert (exists n, skip_fields def = Ok n /\ n * zlen rows = zlen (flat_map (enc_row big def) rows)) as [n [En Ln]].
      { destruct rows as [|r rows].
        - assert (exists n, skip_fields def = Ok n) as [n En]. { clear - Hw. induction Hw as [|t def Ht _ [n IH]]; [eexists; reflexivity|]. cbn [skip_fields]. rewrite width_size. destruct (width t); [|contradiction]. cbn [option_map]. rewrite IH. eexists; reflexivity. }
          exists n. split; [exact En|]. cbn. lia.
        - exists (zlen (enc_row big def r)). destruct (Hrow r (or_introl eq_refl)) as [E _]. split; [exact E|].
          clear - Hrow E. revert Hrow. generalize (r :: rows). intros l Hrow. induction l as [|q l IH]; [cbn; lia|].
          cbn [flat_map]. rewrite zlen_app, zlen_cons, <- IH by (intros; apply Hrow; right; assumption).
          destruct (Hrow q (or_introl eq_refl)) as [E2 _]. assert (zlen (enc_row big def q) = zlen (enc_row big def r)) by congruence. lia. }
      rewrite En. cbn [bind]. rewrite Ln, seekf_ok. cbn [bind]. eexists. split; [reflexivity|]. eexists. split; [reflexivity|exact At].
    + assert (zlen (flat_map (enc_row big def) rows ++ rest) <? zlen rows = false) as ->.
      { apply Z.ltb_ge. apply len_ge. intros r Hin. destruct (Hrow r Hin) as [_ [A B]]. unfold enc_row. destruct (combine def r) as [|[t x] c] eqn:Ec.
        - rewrite <- B in Hne. contradiction.
        - inversion A as [|? ? A1 A2]; subst. cbn [flat_map fst snd] in *. rewrite zlen_app. destruct (num_len big t x A1) as [m [_ [L K]]].
          pose proof (zlen_nonneg _ (flat_map (fun p : Z * Z => num big (fst p) (snd p)) c)). lia. }
      rewrite andb_false_r. replace (Z.to_nat (zlen rows)) with (List.length rows) by (unfold zlen; lia).
      rewrite (repeat_read_ok _ _ _ (enc_row big def) (fun r => DTuple (map (fun p => means (fst p) (snd p)) (combine def r)))).
      2:{ intros r l Hin. destruct (Hrow r Hin) as [_ [A B]]. rewrite <- B at 1. unfold enc_row. rewrite read_fields_ok by exact A. reflexivity. }
      cbn [bind]. eexists. split; reflexivity.
  - assert (S : small v4 (zlen (if latin then s else utf8 s))) by (destruct latin; apply Hd). pose proof (zlen_nonneg _ (if latin then s else utf8 s)).
    rewrite !word_ok by fits. cbn [bind Z.eqb Pos.eqb negb]. rewrite word_ok by fits. cbn [bind Z.eqb Pos.eqb negb]. rewrite word_ok by fits. cbn [bind].
    destruct skip.
    + rewrite seekf_ok. cbn [bind]. eexists. split; [reflexivity|]. eexists. split; [reflexivity|exact At].
    + destruct latin.
      * destruct Hd as [[e He] _]. unfold read_string. replace (Z.max 0 (zlen s)) with (zlen s) by (pose proof (zlen_nonneg _ s); lia). rewrite getn_ok by reflexivity. cbn [bind]. unfold decode_text. rewrite He. eexists. split; reflexivity.
      * rewrite read_string_ok by apply Hd. cbn [bind]. eexists. split; reflexivity.
  - destruct Hd as [-> [Hlen [Hs1 [Hs2 Hss]]]]. pose proof (zlen_nonneg _ ss).
    rewrite word_ok by fits. cbn [bind Z.eqb Pos.eqb Z.ltb Z.compare Pos.compare Pos.compare_cont]. rewrite word_ok by fits. cbn [bind Z.eqb Pos.eqb]. rewrite word_ok by fits. cbn [bind Z.eqb Pos.eqb].
    rewrite word_ok by fits. cbn [bind]. rewrite word_ok by fits. cbn [bind]. unfold string_array.
    rewrite Forall_forall in Hss. assert (zlen (flat_map utf8 ss ++ rest) <? zlen ss = false) as ->.
    { apply Z.ltb_ge. apply len_ge. intros s Hin. destruct (Hss s Hin) as [_ L]. lia. }
    rewrite andb_false_r. replace (Z.to_nat (zlen ss)) with (List.length ss) by (unfold zlen; lia).
    rewrite (repeat_read_ok _ _ _ utf8 DStr). 2:{ intros s l Hin. destruct (Hss s Hin) as [A B]. rewrite <- B, read_string_ok by exact A. reflexivity. }
    cbn [bind]. eexists. split; reflexivity.
Qed.

(** * Groups *)
Lemma name_read : forall name l, name_ok name -> read_string (signed 2 (be_val (be 2 (zlen (utf8 name))))) (utf8 name ++ l) = Ok (name, l).
Proof.
  intros name l [H1 H2]. pose proof (zlen_nonneg _ (utf8 name)). rewrite be_val_be, signed_mod by (cbn; lia). apply read_string_ok. exact H1.
Qed.
Lemma header_ok : forall id name l, 0 <= id < 128 -> name_ok name ->
  tag_header ([id] ++ be 2 (zlen (utf8 name)) ++ utf8 name ++ l) = Ok (id, clean name, l).
Proof.
  intros id name l Hi Hn. unfold tag_header. rewrite getn_ok by reflexivity. cbn [bind]. rewrite getn_ok by (rewrite zlen_be; reflexivity). cbn [bind].
  rewrite name_read by exact Hn. cbn [bind]. unfold clean. f_equal. f_equal. f_equal. replace (be_val [id]) with (id mod 256 ^ Z.of_nat 1).
  - apply signed_mod; cbn; lia.
  - rewrite <- be_val_be. f_equal. cbn. f_equal. lia.
Qed.
Lemma group_ok : forall (v4 : bool) a b j n l, fits v4 n ->
  tag_group v4 true ((if v4 then be 8 j else []) ++ [a; b] ++ w v4 n ++ l) = Ok (n, l).
Proof.
  intros v4 a b j n l Hn. unfold tag_group. destruct v4.
  - change (be 8 j) with (rev (le 8 j)). cbn [le rev app]. cbn [andb].
    match goal with |- context [getn 2 (?x :: ?y :: ?r)] => change (getn 2 (x :: y :: r)) with (getn 2 ([x; y] ++ r)) end.
    rewrite getn_ok by reflexivity. cbn [bind].
    assert (G : forall x1 x2 x3 x4 x5 x6 x7 x8 r, exists y, word true (x1 :: x2 :: x3 :: x4 :: x5 :: x6 :: x7 :: x8 :: r) = Ok (y, r)).
    { intros. unfold word. change (x1 :: x2 :: x3 :: x4 :: x5 :: x6 :: x7 :: x8 :: r) with ([x1; x2; x3; x4; x5; x6; x7; x8] ++ r).
      rewrite getn_ok by reflexivity. eexists. reflexivity. }
    match goal with |- context [word true (?x1 :: ?x2 :: ?x3 :: ?x4 :: ?x5 :: ?x6 :: ?x7 :: ?x8 :: ?r)] => destruct (G x1 x2 x3 x4 x5 x6 x7 x8 r) as [y ->] end.
    cbn [bind]. apply word_ok. exact Hn.
  - cbn [app andb]. change (a :: b :: w false n ++ l) with ([a; b] ++ w false n ++ l). rewrite getn_ok by reflexivity. cbn [bind]. apply word_ok. exact Hn.
Qed.
Lemma tree_kids_ok : forall v4 group skip a b j kids, tree_ok v4 group skip (Node a b j kids) <-> small v4 (zlen kids) /\ NoDup (keys 0 0 kids) /\ kids_ok v4 group 0 0 kids.
Proof.
  intros. cbn [tree_ok]. assert (G : forall kids nd ng, (fix all (nd ng : Z) (kids : list (pystr * ttree)) : Prop :=
         match kids with
         | [] => True
         | (name, t) :: kids' => name_ok name /\ tree_ok v4 (key nd ng name t) (is_image group name) t /\ all (next_d nd name t) (next_g ng name t) kids'
         end) nd ng kids <-> kids_ok v4 group nd ng kids).
  { induction kids0 as [|[name t] kids0 IH]; intros nd ng; [reflexivity|]. cbn [kids_ok]. rewrite IH. reflexivity. }
  rewrite G. reflexivity.
Qed.
Lemma reads_node : forall big file group skip a b j kids v, reads big file group skip (Node a b j kids) v <-> exists e, v = DDict e /\ reads_kids big file group 0 0 kids e.
Proof.
  intros. cbn [reads]. assert (G : forall kids nd ng e, (fix all (nd ng : Z) (kids : list (pystr * ttree)) (e : list (pystr * dval)) : Prop :=
           match kids, e with
           | [], [] => True
           | (name, t) :: kids', (k, v) :: e' =>
               k = key nd ng name t /\ reads big file k (is_image group name) t v /\ all (next_d nd name t) (next_g ng name t) kids' e'
           | _, _ => False
           end) nd ng kids e <-> reads_kids big file group nd ng kids e).
  { induction kids0 as [|[name t] kids0 IH]; intros nd ng e; destruct e as [|[k v'] e]; try reflexivity. cbn [reads_kids]. rewrite IH. reflexivity. }
  split; intros [e [E H]]; exists e; (split; [exact E|apply G; exact H]).
Qed.

Lemma tags_ok : forall v4 big file tot, tot = zlen file -> forall fuel kids group prev nd ng d rest pre,
  (List.length (enc_kids v4 big kids) <= fuel)%nat -> small v4 (zlen kids) -> kids_ok v4 group nd ng kids -> NoDup (map fst d ++ keys nd ng kids) ->
  file = pre ++ enc_kids v4 big kids ++ rest ->
  exists e, tags v4 big tot fuel (zlen kids) group prev nd ng d (enc_kids v4 big kids ++ rest) = Ok (d ++ e, rest) /\
    reads_kids big file group nd ng kids e.
Proof.
  intros v4 big file tot Ht. induction fuel as [|k IH]; intros kids group prev nd ng d rest pre Hl Hs Hk Hd Hf.
  - destruct kids as [|[name t] kids]. { exists []. rewrite app_nil_r. split; [reflexivity|exact I]. }
    exfalso. unfold enc_kids in Hl. cbn [flat_map fst snd] in Hl. rewrite app_length in Hl. destruct t; cbn [enc_tree] in Hl; rewrite app_length in Hl; cbn in Hl; lia.
  - destruct kids as [|[name t] kids]. { exists []. rewrite app_nil_r. split; [reflexivity|exact I]. }
    cbn [kids_ok] in Hk. destruct Hk as [Hn [Htr Hk]]. cbn [keys] in Hd. rewrite zlen_cons in *. pose proof (zlen_nonneg _ kids) as Hz.
    cbn [tags]. replace (1 + zlen kids <=? 0) with false by lia.
    assert (Hfresh : ~ In (key nd ng name t) (map fst d)) by (apply NoDup_remove_2 in Hd; intro K; apply Hd; apply in_or_app; auto).
    assert (Hnext : forall v : dval, NoDup (map fst (d ++ [(key nd ng name t, v)]) ++ keys (next_d nd name t) (next_g ng name t) kids)) by (intro v; rewrite map_app, <- app_assoc; exact Hd).
    assert (Hlen : (List.length (enc_kids v4 big kids) <= k)%nat /\ forall a b j sub, t = Node a b j sub -> (List.length (enc_kids v4 big sub) <= k)%nat).
    { unfold enc_kids in Hl. cbn [flat_map fst snd] in Hl. fold (enc_kids v4 big kids) in Hl. rewrite app_length in Hl. split.
      - destruct t; cbn [enc_tree] in Hl; rewrite app_length in Hl; cbn [List.length] in Hl; lia.
      - intros a b j sub ->. cbn [enc_tree] in Hl. fold (enc_kids v4 big sub) in Hl. rewrite !app_length in Hl. cbn [List.length] in Hl. lia. }
    destruct Hlen as [Hl1 Hl2]. replace (1 + zlen kids - 1) with (zlen kids) by lia.
    unfold enc_kids in *. cbn [flat_map fst snd] in *. fold (enc_kids v4 big kids) in *.
    destruct t as [j dt|a b j sub]; cbn [enc_tree] in *; rewrite <- !app_assoc in *.
    + rewrite header_ok by (try exact Hn; lia). cbn [bind Z.eqb Pos.eqb]. cbn [tree_ok] in Htr.
      destruct (data_tag_ok v4 big tot file (pre ++ [21] ++ be 2 (zlen (utf8 name)) ++ utf8 name) (is_image group name) prev j dt (enc_kids v4 big kids ++ rest) Htr Ht) as [v [Ev Rv]].
      { rewrite Hf, <- !app_assoc. reflexivity. }
      unfold is_image in Ev. rewrite Ev. cbn [bind].
      assert (Ek : (if match clean name with [] => true | _ :: _ => false end then str "Data" ++ str_int nd else clean name) = key nd ng name (Leaf j dt)) by reflexivity.
      rewrite Ek. rewrite put_fresh by exact Hfresh.
      assert (En : (if match clean name with [] => true | _ :: _ => false end then nd + 1 else nd) = next_d nd name (Leaf j dt)) by (unfold next_d, unnamed, is_leaf; rewrite andb_true_r; reflexivity).
      rewrite En. assert (Eg : ng = next_g ng name (Leaf j dt)) by (unfold next_g, is_leaf; rewrite andb_false_r; reflexivity).
      destruct (IH kids group (Some v) (next_d nd name (Leaf j dt)) (next_g ng name (Leaf j dt)) (d ++ [(key nd ng name (Leaf j dt), v)]) rest
        (pre ++ [21] ++ be 2 (zlen (utf8 name)) ++ utf8 name ++ (if v4 then be 8 j else []) ++ str "%%%%" ++ info v4 j dt ++ body big dt)) as [e [Ee Re]].
      { exact Hl1. } { unfold small in *. lia. } { exact Hk. } { apply Hnext. } { rewrite Hf, <- !app_assoc. reflexivity. }
      exists ((key nd ng name (Leaf j dt), v) :: e). split.
      * fold (enc_kids v4 big kids) in Ee. rewrite <- Eg in Ee. rewrite Ee. rewrite <- app_assoc. reflexivity.
      * cbn [reads_kids]. split; [reflexivity|]. split; [exact Rv|exact Re].
    + fold (enc_kids v4 big sub) in *. rewrite header_ok by (try exact Hn; lia). cbn [bind Z.eqb Pos.eqb]. apply tree_kids_ok in Htr. destruct Htr as [Hs2 [Hd2 Hk2]].
      rewrite group_ok by fits. cbn [bind].
      assert (Ek : (if match clean name with [] => true | _ :: _ => false end then str "TagGroup" ++ str_int ng else clean name) = key nd ng name (Node a b j sub)) by reflexivity.
      rewrite Ek.
      destruct (IH sub (key nd ng name (Node a b j sub)) None 0 0 [] (enc_kids v4 big kids ++ rest)
        (pre ++ [20] ++ be 2 (zlen (utf8 name)) ++ utf8 name ++ (if v4 then be 8 j else []) ++ [a; b] ++ w v4 (zlen sub))) as [e2 [Ee2 Re2]].
      { eapply Hl2. reflexivity. } { exact Hs2. } { exact Hk2. } { exact Hd2. } { rewrite Hf, <- !app_assoc. reflexivity. }
      fold (enc_kids v4 big sub) in Ee2. rewrite Ee2. cbn [bind app]. rewrite put_fresh by exact Hfresh.
      assert (En : (if match clean name with [] => true | _ :: _ => false end then ng + 1 else ng) = next_g ng name (Node a b j sub)) by (unfold next_g, unnamed, is_leaf; rewrite andb_true_r; reflexivity).
      rewrite En. assert (Eg : nd = next_d nd name (Node a b j sub)) by (unfold next_d, is_leaf; rewrite andb_false_r; reflexivity).
      destruct (IH kids group prev (next_d nd name (Node a b j sub)) (next_g ng name (Node a b j sub)) (d ++ [(key nd ng name (Node a b j sub), DDict e2)]) rest
        (pre ++ [20] ++ be 2 (zlen (utf8 name)) ++ utf8 name ++ (if v4 then be 8 j else []) ++ [a; b] ++ w v4 (zlen sub) ++ enc_kids v4 big sub)) as [e [Ee Re]].
      { exact Hl1. } { unfold small in *. lia. } { exact Hk. } { apply Hnext. } { rewrite Hf, <- !app_assoc. reflexivity. }
      exists ((key nd ng name (Node a b j sub), DDict e2) :: e). split.
      * fold (enc_kids v4 big kids) in Ee. rewrite <- Eg in Ee. rewrite Ee. rewrite <- app_assoc. reflexivity.
      * cbn [reads_kids]. split; [reflexivity|]. split; [|exact Re]. apply reads_node. exists e2. split; [reflexivity|exact Re2].
Qed.

Theorem C35_tags : forall v4 big size flag1 flag2 kids tail, small v4 (zlen kids) -> NoDup (str "root" :: keys 0 0 kids) -> kids_ok v4 (str "root") 0 0 kids ->
  let file := enc_file v4 big size flag1 flag2 kids tail in
  exists e, parse_file file = Ok ((str "root", DDict []) :: e) /\ reads_kids big file (str "root") 0 0 kids e.
Proof.
  intros v4 big size flag1 flag2 kids tail Hs Hd Hk file.
  destruct (tags_ok v4 big file (zlen file) eq_refl (S (List.length (enc_kids v4 big kids ++ tail))) kids (str "root") None 0 0 [(str "root", DDict [])] tail
    (be 4 (if v4 then 4 else 3) ++ w v4 size ++ be 4 (if big then 0 else 1) ++ [flag1; flag2] ++ w v4 (zlen kids))) as [e [Ee Re]].
  { rewrite app_length. lia. } { exact Hs. } { exact Hk. } { exact Hd. } { unfold file, enc_file. rewrite <- !app_assoc. reflexivity. }
  exists e. split; [|exact Re]. unfold parse_file. unfold file at 1, enc_file. rewrite getn_ok by (rewrite zlen_be; reflexivity). cbn [bind].
  replace (signed 4 (be_val (be 4 (if v4 then 4 else 3)))) with (if v4 then 4 else 3) by (destruct v4; reflexivity).
  replace (negb (((if v4 then 4 else 3) =? 3) || ((if v4 then 4 else 3) =? 4))) with false by (destruct v4; reflexivity).
  replace ((if v4 then 4 else 3) =? 4) with v4 by (destruct v4; reflexivity).
  match goal with |- context [word v4 (w v4 size ++ ?l)] => destruct (word_any v4 size l) as [y ->] end. cbn [bind].
  rewrite getn_ok by (rewrite zlen_be; reflexivity). cbn [bind].
  replace (be_val (be 4 (if big then 0 else 1)) =? 0) with big by (destruct big; reflexivity).
  unfold tag_group. rewrite getn_ok by reflexivity. cbn [bind]. rewrite andb_false_r. cbn [bind]. rewrite word_ok by fits. cbn [bind].
  rewrite Ee. reflexivity.
Qed.
Print Assumptions C35_tags.

(** * Instances *)
Definition sample : list (pystr * ttree) :=
  [(str "ImageList", Node 0 0 0
     [([], Node 0 0 0
        [(str "ImageData", Node 1 0 99
           [(str "Data", Leaf 0 (TArray 6 [1065353216; 0; 3212836864])); (str "DataType", Leaf 0 (TSimple 3 2)); ([], Leaf 0 (TSimple 2 (-5)))])]);
      ([], Node 0 0 0 [])]);
   (str "D.M", Leaf 7 (TStruct [(3, -1); (8, 1); (10, -128)]));
   (str "Text", Leaf 7 (TArray 4 [65; 956; 66]));
   ([], Leaf 0 (TStructs [2; 7] [[1; 2]; [-3; 4]]));
   ([], Leaf 0 (TString false [181; 109]));
   (str "Latin", Leaf 0 (TString true [181; 109]));
   ([181], Leaf 0 (TStrings 2 [[181]; [97; 98]]))].
Lemma nodup_pystr : forall l : list pystr, (fix go (l : list pystr) : bool := match l with [] => true | k :: l' => forallb (fun k' => negb (eqb_str k k')) l' && go l' end) l = true -> NoDup l.
Proof.
  induction l as [|k l IH]; intro H; [constructor|]. apply andb_prop in H. destruct H as [H1 H2]. constructor; [|apply IH; exact H2].
  intro K. rewrite forallb_forall in H1. specialize (H1 k K). rewrite eqb_str_refl in H1. discriminate.
Qed.
Example C35_example : forall v4, small v4 (zlen sample) /\ NoDup (str "root" :: keys 0 0 sample) /\ kids_ok v4 (str "root") 0 0 sample.
Proof.
  intro v4. split; [unfold small; destruct v4; vm_compute; repeat split; discriminate|]. split; [apply nodup_pystr; vm_compute; reflexivity|].
  assert (S : forall x, 0 <= x < 2 ^ 29 -> small v4 x) by (intros x Hx; unfold small; destruct v4; lia).
  unfold sample. cbn [kids_ok tree_ok data_ok]. unfold name_ok.
  repeat match goal with
  | |- _ /\ _ => split
  | |- small _ _ => apply S; vm_compute; split; [discriminate|reflexivity]
  | |- NoDup _ => apply nodup_pystr; vm_compute; reflexivity
  | |- Forall2 _ _ _ => constructor
  | |- Forall _ _ => constructor
  | |- exists _, _ => eexists; vm_compute; reflexivity
  | |- holds _ _ => vm_compute; split; (discriminate || reflexivity)
  | |- _ <> _ => discriminate
  | |- _ = _ => vm_compute; reflexivity
  | |- _ < _ => vm_compute; reflexivity
  | |- True => exact I
  end.
Qed.
(** What is read from a big-endian DM4 file and from a little-endian DM3 file. *)
Example C35_read : parse_file (enc_file true true 1000 0 1 sample [1; 2; 3]) =
  Ok [(str "root", DDict []);
      (str "ImageList", DDict [(str "TagGroup0", DDict [(str "ImageData", DDict [(str "Data", DSkip 3 12 158); (str "DataType", DInt 2); (str "Data0", DInt (-5))])]); (str "TagGroup1", DDict [])]);
      (str "DM", DTuple [DInt (-1); DInt 1; DInt (-128)]); (str "Text", DStr [65; 956; 66]);
      (str "Data0", DList [DTuple [DInt 1; DFloat 8 2]; DTuple [DInt (-3); DFloat 8 4]]); (str "Data1", DStr [181; 109]);
      (str "Latin", DStr [181; 109]); ([181], DList [DStr [181]; DStr [97; 98]])].
Proof. vm_compute. reflexivity. Qed.
Example C35_read3 : bind (parse_file (enc_file false false 1000 0 1 sample [])) (fun d => match d with _ :: (_, DDict [(_, DDict [(_, DDict [(k, v); _; _])]); _]) :: _ => Ok (k, v) | _ => Err KeyError end) =
  Ok (str "Data", DSkip 3 12 90).
Proof. vm_compute. reflexivity. Qed.

(** * What is not read back *)
(** Two tags whose names differ only by dots: only the second is kept. *)
Theorem C35_dots_refuted : exists kids, zlen kids = 2 /\ map fst kids = [str "a.b"; str "ab"] /\
  parse_file (enc_file false false 0 0 0 kids []) = Ok [(str "root", DDict []); (str "ab", DInt 2)].
Proof. exists [(str "a.b", Leaf 0 (TSimple 3 1)); (str "ab", Leaf 0 (TSimple 3 2))]. repeat split. Qed.
Print Assumptions C35_dots_refuted.
(** The number given to a tag without name may be the name of another one. *)
Theorem C35_unnamed_refuted : exists kids, map fst kids = [str "Data0"; []] /\
  parse_file (enc_file false false 0 0 0 kids []) = Ok [(str "root", DDict []); (str "Data0", DInt 2)].
Proof. exists [(str "Data0", Leaf 0 (TSimple 3 1)); ([], Leaf 0 (TSimple 3 2))]. repeat split. Qed.
Print Assumptions C35_unnamed_refuted.
(** A tag of the name "root" at the top level replaces the empty entry of the result. *)
Theorem C35_root_refuted : parse_file (enc_file false false 0 0 0 [(str "root", Leaf 0 (TSimple 3 1))] []) = Ok [(str "root", DInt 1)].
Proof. reflexivity. Qed.
Print Assumptions C35_root_refuted.
(** An unknown composite type: the tag gets the data of the tag before it. *)
Definition unknown_tag (name : pystr) : list Z := [21] ++ be 2 (zlen name) ++ name ++ str "%%%%" ++ be 4 4 ++ be 4 99.
Theorem C35_stale_refuted :
  parse_file (be 4 3 ++ be 4 0 ++ be 4 1 ++ [0; 0] ++ be 4 2 ++ enc_kids false false [(str "a", Leaf 0 (TSimple 3 17))] ++ unknown_tag (str "b")) =
  Ok [(str "root", DDict []); (str "a", DInt 17); (str "b", DInt 17)].
Proof. vm_compute. reflexivity. Qed.
Print Assumptions C35_stale_refuted.
(** An array of two arrays of three numbers: only two numbers are read, the reader is lost. *)
Definition array2_tag (name : pystr) : list Z :=
  [21] ++ be 2 (zlen name) ++ name ++ str "%%%%" ++ be 4 5 ++ be 4 20 ++ be 4 20 ++ be 4 3 ++ be 4 3 ++ be 4 2 ++ flat_map (le 4) [1; 2; 3; 4; 5; 6].
Theorem C35_arrays_refuted :
  parse_file (be 4 3 ++ be 4 0 ++ be 4 1 ++ [0; 0] ++ be 4 1 ++ array2_tag (str "a")) = Ok [(str "root", DDict []); (str "a", DList [DInt 1; DInt 2])] /\
  parse_file (be 4 3 ++ be 4 0 ++ be 4 1 ++ [0; 0] ++ be 4 2 ++ array2_tag (str "a") ++ enc_kids false false [(str "b", Leaf 0 (TSimple 3 17))]) = Err OtherError.
Proof. split; vm_compute; reflexivity. Qed.
Print Assumptions C35_arrays_refuted.
(** The strings of an image are skipped by the length of one string. *)
Theorem C35_strings_refuted :
  parse_file (enc_file false false 0 0 0 [(str "ImageData", Node 0 0 0 [(str "Data", Leaf 0 (TStrings 2 [str "ab"; str "cd"])); (str "x", Leaf 0 (TSimple 3 1))])] []) = Err StructError.
Proof. vm_compute. reflexivity. Qed.
Print Assumptions C35_strings_refuted.

(** * Every file is parsed or refused in a number of steps bounded by its length *)
Definition good {A} (l : list Z) (r : res (A * list Z)) : Prop := match r with Ok (_, l') => (List.length l' <= List.length l)%nat | Err e => e <> OutOfFuel end.
Lemma good_bind : forall A B l (r : res (A * list Z)) (f : A * list Z -> res (B * list Z)),
  good l r -> (forall a l', (List.length l' <= List.length l)%nat -> good l (f (a, l'))) -> good l (bind r f).
Proof. intros A B l [[a l']|e] f H1 H2; cbn [bind]; [apply H2; exact H1|exact H1]. Qed.
Lemma good_le : forall A l l' (r : res (A * list Z)), good l' r -> (List.length l' <= List.length l)%nat -> good l r.
Proof. intros A l l' [[a l2]|e] H1 H2; cbn [good] in *; [lia|exact H1]. Qed.
Lemma skipz_le : forall (l : list Z) z, (List.length (skipz z l) <= List.length l)%nat.
Proof. intros. rewrite skipz_skipn, skipn_length. lia. Qed.
Lemma getn_good : forall n l, good l (getn n l).
Proof. intros. unfold getn. destruct (zlen l <? n); cbn [good]; [discriminate|apply skipz_le]. Qed.
Lemma word_good : forall v4 l, good l (word v4 l).
Proof. intros v4 l. unfold word. destruct v4; apply good_bind; try apply getn_good; intros; cbn [good]; assumption. Qed.
Ltac good := repeat first
  [ progress intros
  | match goal with
    | |- good ?l (bind (word ?v ?l') _) => apply good_bind; [apply (good_le _ _ l'); [apply word_good|lia]|]
    | |- good ?l (bind (getn ?n ?l') _) => apply good_bind; [apply (good_le _ _ l'); [apply getn_good|lia]|]
    | |- good _ (if ?b then _ else _) => destruct b
    | |- good _ (Err (if ?b then _ else _)) => destruct b
    | |- good _ (Err _) => cbn [good]; discriminate
    | |- good _ (Ok (_, ?l)) => cbn [good]; first [lia | (match goal with |- context [skipz ?z ?l'] => pose proof (skipz_le l' z) end; lia)]
    end ].
Lemma read_simple_good : forall big t l, good l (read_simple big t l).
Proof. intros. unfold read_simple. destruct (simple_size t); good. Qed.
Lemma read_string_good : forall n l, good l (read_string n l).
Proof. intros. unfold read_string. good. Qed.
Lemma fields_good : forall v4 n l, good l (fields v4 n l).
Proof.
  induction n as [|n IH]; intros l; cbn [fields]; good. apply good_bind; [apply (good_le _ _ l'0); [apply IH|lia]|]. good.
Qed.
Lemma struct_def_good : forall v4 l, good l (struct_def v4 l).
Proof. intros. unfold struct_def. good. apply (good_le _ _ l'0); [apply fields_good|lia]. Qed.
Lemma read_fields_good : forall big def l, good l (read_fields big def l).
Proof.
  induction def as [|t def IH]; intros l; cbn [read_fields]; [good|]. destruct (simple_size t); cbn [good]; [|discriminate].
  apply good_bind; [apply read_simple_good|]. intros. apply good_bind; [apply (good_le _ _ l'); [apply IH|lia]|]. good.
Qed.
Lemma repeat_good : forall A (f : list Z -> res (A * list Z)) n l, (forall l, good l (f l)) -> good l (repeat_read n f l).
Proof.
  intros A f n. induction n as [|n IH]; intros l H; cbn [repeat_read]; good. apply good_bind; [apply H|]. intros. apply good_bind; [apply (good_le _ _ l'); [apply IH; exact H|lia]|]. good.
Qed.
Lemma seek_good : forall A n l (f : list Z -> res (A * list Z)), (forall l', (List.length l' <= List.length l)%nat -> good l (f l')) -> good l (bind (seekf n l) f).
Proof. intros A n l f H. unfold seekf. destruct (n <? 0); cbn [bind good]; [discriminate|]. apply H. apply skipz_le. Qed.
Lemma skip_fields_no : forall def e, skip_fields def = Err e -> e <> OutOfFuel.
Proof.
  induction def as [|t def IH]; intros e; cbn [skip_fields]; [discriminate|]. destruct (simple_size t); [|intro H; injection H as <-; discriminate].
  destruct (skip_fields def) eqn:E; cbn [bind]; [discriminate|]. intro H. injection H as <-. apply IH. reflexivity.
Qed.
Lemma simple_array_good : forall big tot skip n t l, good l (simple_array big tot skip n t l).
Proof.
  intros. unfold simple_array. destruct (simple_size t); good.
  - apply seek_good. good.
  - apply good_bind; [apply repeat_good; apply read_simple_good|]. good.
Qed.
Lemma struct_array_good : forall big tot skip def n l, good l (struct_array big tot skip def n l).
Proof.
  intros. unfold struct_array. destruct skip.
  - destruct (skip_fields def) eqn:E; cbn [bind]; [|apply (skip_fields_no _ _ E)]. apply seek_good. good.
  - good. apply good_bind; [apply repeat_good|good]. intros. apply good_bind; [apply read_fields_good|good].
Qed.
Lemma string_array_good : forall tot skip len n l, good l (string_array tot skip len n l).
Proof.
  intros. unfold string_array. destruct skip.
  - apply seek_good. good.
  - good. apply good_bind; [apply repeat_good|good]. intros. apply good_bind; [apply read_string_good|good].
Qed.
Lemma data_tag_good : forall v4 big tot skip prev l, good l (data_tag v4 big tot skip prev l).
Proof.
  intros. unfold data_tag. apply (good_le _ _ (skipif4 v4 2 l)). 2:{ unfold skipif4. destruct v4; [apply skipz_le|lia]. }
  generalize (skipif4 v4 2 l). clear l. intro l. good.
  - apply (good_le _ _ l'1); [apply read_simple_good|lia].
  - apply (good_le _ _ l'2); [|lia]. apply seek_good. good.
  - apply (good_le _ _ l'2); [|lia]. apply good_bind; [apply read_string_good|good].
  - apply (good_le _ _ l'3); [apply simple_array_good|lia].
  - apply (good_le _ _ l'1); [|lia]. apply good_bind; [apply struct_def_good|]. intros. destruct skip.
    + destruct (skip_fields a2) eqn:E; cbn [bind]; [|apply (skip_fields_no _ _ E)]. good.
    + apply good_bind; [apply (good_le _ _ l'2); [apply read_fields_good|lia]|good].
  - apply (good_le _ _ l'2); [|lia]. apply good_bind; [apply struct_def_good|]. good. apply (good_le _ _ l'4); [apply struct_array_good|lia].
  - apply (good_le _ _ l'4); [apply string_array_good|lia].
  - apply (good_le _ _ l'5); [apply simple_array_good|lia].
  - unfold stale. destruct prev; cbn [good]; [lia|discriminate].
  - unfold stale. destruct prev; cbn [good]; [lia|discriminate].
Qed.
Lemma header_shrinks : forall l, match tag_header l with Ok (_, _, l') => (List.length l' < List.length l)%nat | Err e => e <> OutOfFuel end.
Proof.
  intro l. unfold tag_header. unfold getn at 1. destruct (zlen l <? 1) eqn:E; cbn [bind]; [discriminate|].
  assert (L : (List.length (skipz 1 l) < List.length l)%nat) by (rewrite skipz_skipn, skipn_length; unfold zlen in E; lia).
  pose proof (getn_good 2 (skipz 1 l)) as G. destruct (getn 2 (skipz 1 l)) as [[b l2]|e]; cbn [bind good] in *; [|exact G].
  pose proof (read_string_good (signed 2 (be_val b)) l2) as G2. destruct (read_string (signed 2 (be_val b)) l2) as [[s l3]|e]; cbn [bind good] in *; [lia|exact G2].
Qed.
Lemma group_good : forall v4 size l, good l (tag_group v4 size l).
Proof.
  intros. unfold tag_group. good. destruct (v4 && size); cbn [bind]; good; (apply (good_le _ _ l'0) || apply (good_le _ _ l')); (apply word_good || lia).
Qed.
Lemma tags_good : forall v4 big tot fuel n group prev nd ng d l, (List.length l < fuel)%nat -> good l (tags v4 big tot fuel n group prev nd ng d l).
Proof.
  intros v4 big tot. induction fuel as [|k IH]; intros n group prev nd ng d l H; [lia|].
  cbn [tags]. destruct (n <=? 0); [cbn [good]; lia|].
  pose proof (header_shrinks l) as Hh. destruct (tag_header l) as [[[id name] l1]|e]; cbn [bind] in *; [|exact Hh].
  apply (good_le _ _ l1); [|lia]. destruct (id =? 21); [|destruct (id =? 20)].
  - apply good_bind; [apply data_tag_good|]. intros v l2 L2. apply (good_le _ _ l2); [apply IH; lia|lia].
  - apply good_bind; [apply group_good|]. intros m l2 L2. apply good_bind; [apply (good_le _ _ l2); [apply IH; lia|lia]|].
    intros sub l3 L3. apply (good_le _ _ l3); [apply IH; lia|lia].
  - cbn [good]; discriminate.
Qed.
Theorem C35_total : forall f, parse_file f <> Err OutOfFuel.
Proof.
  intros f H. unfold parse_file in H. unfold getn at 1 in H. destruct (zlen f <? 4); cbn [bind] in H; [discriminate|].
  destruct (negb _); [discriminate|]. set (l := skipz 4 f) in H. set (v4 := signed 4 (be_val (firstz 4 f)) =? 4) in H.
  pose proof (word_good v4 l) as G1. destruct (word v4 l) as [[y l1]|e]; cbn [bind good] in *; [|congruence].
  pose proof (getn_good 4 l1) as G2. destruct (getn 4 l1) as [[b l2]|e]; cbn [bind good] in *; [|congruence].
  pose proof (group_good v4 false l2) as G3. destruct (tag_group v4 false l2) as [[m l3]|e]; cbn [bind good] in *; [|congruence].
  match type of H with bind (tags ?a ?b ?c ?d ?e ?f ?g ?h ?i ?j ?k) _ = _ => pose proof (tags_good a b c d e f g h i j k ltac:(lia)) as G4; destruct (tags a b c d e f g h i j k) as [[d' l4]|e']; cbn [bind good] in * end; congruence.
Qed.
Print Assumptions C35_total.
