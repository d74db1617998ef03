(** Property C73: the objects of sur and pro files. *)
From Coq Require Import QArith Qabs.
From Verif Require Import Base Text Bytes RowMajor SfsModel SfsProps BcfUnpack SurFloat SurModel.
Local Open Scope Z_scope.

(** * Specification *)
Definition blanks : list Z := [32; 9; 10].
Definition clean (t : pystr) : Prop := t = [] \/ (~ In (hd 0 t) blanks /\ ~ In (last t 0) blanks).
(** [t] is [s] without blanks at its ends *)
Definition stripped (s t : pystr) : Prop := exists a b, s = a ++ t ++ b /\ Forall (fun c => In c blanks) a /\ Forall (fun c => In c blanks) b /\ clean t.
Definition chars (s : pystr) : Prop := Forall (fun c => 0 <= c < 256) s.
(** Floats are read as the nearest number of single precision, see C73_float and C73_single *)
Definition fits (q : Q) : Prop := (Qabs q < inject_Z (2 ^ 127))%Q.
(** A field that is written as [v] is read as [v'] *)
Definition kept (k : kind) (v v' : fval) : Prop :=
  match k, v, v' with
  | KS n, FS s, FS t => chars s /\ stripped (firstn n s) t
  | KI16, FI z, FI z' => - 2 ^ 15 <= z < 2 ^ 15 /\ z' = z
  | KU16, FI z, FI z' => 0 <= z < 2 ^ 16 /\ z' = z
  | KI32, FI z, FI z' => - 2 ^ 31 <= z < 2 ^ 31 /\ z' = z
  | KU32, FI z, FI z' => 0 <= z < 2 ^ 32 /\ z' = z
  | KF, FF q, FF q' => fits q /\ q' = nearest q
  | KB n, FB b, FB b' => (List.length b <= n)%nat /\ b' = b ++ repeat 0 (n - List.length b)
  | _, _, _ => False
  end.
(** Compressed data: the number of streams, the raw and compressed size of each, the streams *)
Definition encode_streams (raws zips : list (list Z)) : list Z :=
  le 4 (zlen zips) ++ List.concat (map (fun p => le 4 (zlen (fst p)) ++ le 4 (zlen (snd p))) (combine raws zips)) ++ List.concat zips.
(** The bytes [b] of an object with header [h] hold the integers [ints], of 2 or 4 bytes *)
Definition holds (unzip : list Z -> res (list Z)) (h : list fval) (b ints : list Z) : Prop :=
  exists w, ((w = 2%nat /\ int_at h 15 = 16) \/ (w = 4%nat /\ int_at h 15 = 32)) /\
  Forall (fun z => - 2 ^ (8 * Z.of_nat w - 1) <= z < 2 ^ (8 * Z.of_nat w - 1)) ints /\
  ((str_at h 1 <> str "DSCOMPRESSED" /\ b = List.concat (map (le w) ints) /\ zlen ints = int_at h 20 * Z.max (int_at h 14) 1) \/
   (str_at h 1 = str "DSCOMPRESSED" /\ zlen b = int_at h 48 /\
    exists raws zips, b = encode_streams raws zips /\ Forall2 (fun r z => unzip z = Ok r) raws zips /\ List.concat raws = List.concat (map (le w) ints) /\
      zlen zips < 2 ^ 32 /\ Forall (fun z => zlen z < 2 ^ 32) zips)).
(** An object and what is read of it *)
Definition object_kept (unzip : list Z -> res (list Z)) (c : content) (o : object) : Prop :=
  Forall2 (fun k p => kept k (fst p) (snd p)) layout (combine (c_fields c) (o_fields o)) /\ List.length (c_fields c) = List.length (o_fields o) /\
  int_at (c_fields c) 50 = zlen (c_comment c) /\ chars (c_comment c) /\ stripped (c_comment c) (o_comment o) /\
  int_at (c_fields c) 51 = zlen (c_private c) /\ bytes (c_private c) /\ stripped (firstn (List.length (c_private c)) (bytes_repr (c_private c))) (o_private o) /\
  exists ints, holds unzip (o_fields o) (c_points c) ints /\ decode_points (o_fields o) ints = Ok (o_points o).

(** * Text *)
Lemma blank_in : forall c, blank c = true <-> In c blanks.
Proof. intro c. unfold blank, blanks. cbn [In]. split; intro H; [apply orb_true_iff in H; destruct H as [H|H]; [apply orb_true_iff in H; destruct H|]; lia|]. destruct H as [H|[H|[H|[]]]]; subst c; reflexivity. Qed.
Lemma trim_left_app : forall a s, Forall (fun c => In c blanks) a -> trim_left (a ++ s) = trim_left s.
Proof. induction a as [|x a IH]; intros s H; [reflexivity|]. inversion H as [|? ? Hx H']; subst. cbn [app trim_left]. apply blank_in in Hx. rewrite Hx. apply IH. exact H'. Qed.
Lemma trim_left_clean : forall s, (s = [] \/ ~ In (hd 0 s) blanks) -> trim_left s = s.
Proof. intros [|c s] H; [reflexivity|]. cbn [trim_left]. destruct (blank c) eqn:E; [|reflexivity]. apply blank_in in E. destruct H as [H|H]; [discriminate|]. cbn [hd] in H. tauto. Qed.
Lemma trim_left_blank : forall a, Forall (fun c => In c blanks) a -> trim_left a = [].
Proof. intros a H. rewrite <- (app_nil_r a). rewrite trim_left_app by exact H. reflexivity. Qed.
Lemma forall_rev : forall A (P : A -> Prop) l, Forall P l -> Forall P (rev l).
Proof. intros A P l H. apply Forall_forall. intros x Hx. apply in_rev in Hx. revert x Hx. apply Forall_forall. exact H. Qed.
Lemma trim_stripped : forall s t, stripped s t -> trim s = t.
Proof.
  intros s t (a & b & -> & Ha & Hb & Ht). unfold trim. rewrite trim_left_app by exact Ha. destruct Ht as [->|[H1 H2]].
  - cbn [app]. rewrite (trim_left_blank b Hb). reflexivity.
  - destruct t as [|c t]; [cbn [app]; rewrite (trim_left_blank b Hb); reflexivity|].
    rewrite (trim_left_clean ((c :: t) ++ b)) by (right; exact H1). rewrite rev_app_distr, trim_left_app by (apply forall_rev; exact Hb).
    rewrite trim_left_clean, rev_involutive; [reflexivity|]. right. destruct (rev_last_cons Z (c :: t) 0 ltac:(discriminate)) as [r E]. rewrite E. exact H2.
Qed.
Lemma stripped_spaces : forall s t n, stripped s t -> stripped (s ++ repeat 32 n) t.
Proof.
  intros s t n (a & b & -> & Ha & Hb & Ht). exists a, (b ++ repeat 32 n). rewrite <- !app_assoc. split; [reflexivity|]. split; [exact Ha|]. split; [|exact Ht].
  apply Forall_app. split; [exact Hb|]. apply Forall_forall. intros x Hx. apply repeat_spec in Hx. subst x. left. reflexivity.
Qed.
Lemma latin1_chars : forall s, chars s -> latin1 s = true.
Proof. intros s H. unfold latin1. apply forallb_forall. intros c Hc. pose proof (proj1 (Forall_forall _ _) H c Hc) as X. cbn beta in X. lia. Qed.
Lemma set_str_ok : forall n s, chars s -> set_str n s = Ok (firstn n s ++ repeat 32 (n - List.length s)).
Proof.
  intros n s H. unfold set_str. rewrite latin1_chars.
  - f_equal. unfold pack_s. rewrite app_length, repeat_length. replace (n - (List.length s + (n - List.length s)))%nat with 0%nat by lia. cbn [repeat]. rewrite app_nil_r, firstn_app. f_equal. apply firstn_all2. rewrite repeat_length. lia.
  - apply Forall_app. split; [exact H|]. apply Forall_forall. intros x Hx. apply repeat_spec in Hx. subst x. lia.
Qed.
Lemma set_str_length : forall n s b, set_str n s = Ok b -> List.length b = n.
Proof. intros n s b H. unfold set_str in H. destruct (latin1 _); [|discriminate]. assert (E : b = pack_s n (s ++ repeat 32 (n - List.length s))) by congruence. subst b. unfold pack_s. rewrite app_length, firstn_length, repeat_length, app_length, repeat_length. lia. Qed.

(** * Fields *)
Lemma take_app : forall n a b, List.length a = n -> take n (a ++ b) = Ok (a, b).
Proof. intros n a b H. unfold take. rewrite app_length. assert (E : (List.length a + List.length b <? n)%nat = false) by (apply Nat.ltb_ge; lia). rewrite E, firstn_app_exact, skipn_app_exact by exact H. reflexivity. Qed.
Lemma get_kept : forall k v v', kept k v v' -> exists b, set_field k v = Ok b /\ forall rest, get_field k (b ++ rest) = Ok (v', rest).
Proof.
  intros k v v' H. destruct k as [n| | | | | |n]; destruct v as [z|q|s|b]; cbn [kept] in H; try contradiction; destruct v' as [z'|q'|s'|b']; try contradiction; cbn [set_field get_field].
  - destruct H as [Hc Hs]. rewrite set_str_ok by exact Hc. eexists. split; [reflexivity|]. intro rest. assert (L : List.length (firstn n s ++ repeat 32 (n - List.length s)) = n) by (rewrite app_length, firstn_length, repeat_length; lia).
    rewrite firstn_app_exact, skipn_app_exact by exact L. rewrite (trim_stripped _ s'); [reflexivity|]. apply stripped_spaces. exact Hs.
  - destruct H as [Hz ->]. unfold set_int. assert (E : (- 2 ^ 15 <=? z) && (z <? 2 ^ 15) = true) by lia. rewrite E. eexists. split; [reflexivity|]. intro rest. rewrite take_app by apply le_length. cbn [bind]. rewrite le_val_le, (signed_mod 2 z ltac:(lia) Hz). reflexivity.
  - destruct H as [Hz ->]. unfold set_int. assert (E : (0 <=? z) && (z <? 2 ^ 16) = true) by lia. rewrite E. eexists. split; [reflexivity|]. intro rest. rewrite take_app by apply le_length. cbn [bind]. rewrite le_val_small by exact Hz. reflexivity.
  - destruct H as [Hz ->]. unfold set_int. assert (E : (- 2 ^ 31 <=? z) && (z <? 2 ^ 31) = true) by lia. rewrite E. eexists. split; [reflexivity|]. intro rest. rewrite take_app by apply le_length. cbn [bind]. rewrite le_val_le, (signed_mod 4 z ltac:(lia) Hz). reflexivity.
  - destruct H as [Hz ->]. unfold set_int. assert (E : (0 <=? z) && (z <? 2 ^ 32) = true) by lia. rewrite E. eexists. split; [reflexivity|]. intro rest. rewrite take_app by apply le_length. cbn [bind]. rewrite le_val_small by exact Hz. reflexivity.
  - destruct H as [Hq ->]. destruct (pack32_ok q Hq) as [w Hw]. destruct (round32_nearest q w Hw) as [Hv Hr]. rewrite Hw. cbn [bind]. eexists. split; [reflexivity|]. intro rest. rewrite take_app by apply le_length. cbn [bind]. rewrite le_val_small by exact Hr. rewrite Hv. reflexivity.
  - destruct H as [Hl ->]. eexists. split; [reflexivity|]. intro rest. unfold pack_s. rewrite (firstn_all2 b Hl). assert (L : List.length (b ++ repeat 0 (n - List.length b)) = n) by (rewrite app_length, repeat_length; lia).
    rewrite firstn_app_exact, skipn_app_exact by exact L. reflexivity.
Qed.
Lemma get_fields_kept : forall ks vs vs', List.length vs = List.length vs' -> Forall2 (fun k p => kept k (fst p) (snd p)) ks (combine vs vs') ->
  exists b, set_fields ks vs = Ok b /\ forall rest, get_fields ks (b ++ rest) = Ok (vs', rest).
Proof.
  induction ks as [|k ks IH]; intros vs vs' L H.
  - inversion H as [E|]; subst. destruct vs as [|v vs]; destruct vs' as [|v' vs']; try discriminate. exists []. split; reflexivity.
  - destruct vs as [|v vs]; destruct vs' as [|v' vs']; try discriminate; [inversion H|]. cbn [combine] in H. inversion H as [|? ? ? ? H1 H2]; subst. cbn [fst snd] in H1.
    destruct (get_kept _ _ _ H1) as (b1 & S1 & G1). destruct (IH vs vs' ltac:(cbn in L; lia) H2) as (b2 & S2 & G2). cbn [set_fields get_fields]. rewrite S1, S2. cbn [bind]. exists (b1 ++ b2). split; [reflexivity|].
    intro rest. rewrite <- app_assoc, G1. cbn [bind]. rewrite G2. reflexivity.
Qed.
(** Integer fields are the same on both sides *)
Lemma kept_int : forall ks vs vs' i k, List.length vs = List.length vs' -> Forall2 (fun k p => kept k (fst p) (snd p)) ks (combine vs vs') ->
  nth_error ks i = Some k -> (k = KI16 \/ k = KU16 \/ k = KI32 \/ k = KU32) -> nth i vs (FI 0) = nth i vs' (FI 0).
Proof.
  induction ks as [|k0 ks IH]; intros vs vs' i k L H Hk Hi; [destruct i; discriminate|].
  destruct vs as [|v vs]; destruct vs' as [|v' vs']; try discriminate; [inversion H|]. cbn [combine] in H. inversion H as [|? ? ? ? H1 H2]; subst. cbn [fst snd] in H1. destruct i as [|i].
  - cbn [nth_error] in Hk. assert (Ek : k0 = k) by congruence. subst k0. cbn [nth]. destruct Hi as [-> | [-> | [-> | ->]]]; destruct v; destruct v'; cbn [kept] in H1; try contradiction; destruct H1 as [_ ->]; reflexivity.
  - cbn [nth_error] in Hk. cbn [nth]. apply (IH vs vs' i k ltac:(cbn in L; lia) H2 Hk Hi).
Qed.
Lemma repr_chars : forall b, bytes b -> chars (bytes_repr b).
Proof.
  intros b H. unfold bytes_repr. set (quote := if (_ && _)%bool then 34 else 39). assert (Hq : 0 <= quote < 256) by (subst quote; destruct (existsb _ _ && _); lia). clearbody quote.
  constructor; [lia|]. constructor; [exact Hq|]. apply Forall_app. split; [|constructor; [exact Hq|constructor]]. induction H as [|x l Hx Hl IH]; [constructor|]. cbn [flat_map]. apply Forall_app. split; [|exact IH].
  unfold is_byte in Hx. unfold escape. destruct ((x =? quote) || (x =? 92)); [repeat constructor; lia|]. destruct (x =? 9); [repeat constructor; lia|]. destruct (x =? 10); [repeat constructor; lia|]. destruct (x =? 13); [repeat constructor; lia|].
  destruct ((x <? 32) || (127 <=? x)); [|repeat constructor; lia]. assert (Hh : forall d, 0 <= d < 16 -> 0 <= hex d < 256) by (intros d Hd; unfold hex; destruct (d <? 10); lia).
  constructor; [lia|]. constructor; [lia|]. constructor; [apply Hh; lia|]. constructor; [apply Hh; lia|constructor].
Qed.

(** * Data *)
Lemma read_n_app : forall a b n, zlen a = n -> read_n n (a ++ b) = Ok (a, b).
Proof.
  intros a b n H. unfold read_n. assert (E1 : (n =? -1) = false) by (unfold zlen in H; lia). assert (E2 : (n <? 0) = false) by (unfold zlen in H; lia). rewrite E1, E2. rewrite firstz_firstn, skipz_skipn, firstn_app_exact, skipn_app_exact by (unfold zlen in H; lia). reflexivity.
Qed.
Lemma stream_sizes_ok : forall (raws zips : list (list Z)) rest, List.length raws = List.length zips -> Forall (fun z => zlen z < 2 ^ 32) zips ->
  stream_sizes (List.length zips) (List.concat (map (fun p => le 4 (zlen (fst p)) ++ le 4 (zlen (snd p))) (combine raws zips)) ++ rest) = Ok (map zlen zips, rest).
Proof.
  induction raws as [|r raws IH]; intros [|z zips] rest L H; try discriminate; [reflexivity|]. cbn [List.length combine map List.concat fst snd stream_sizes]. rewrite <- !app_assoc. inversion H; subst. rewrite take_app by apply le_length. cbn [bind].
  rewrite take_app by apply le_length. cbn [bind]. rewrite IH by (cbn in L; lia || assumption). cbn [bind]. rewrite le_val_small by (pose proof (zlen_nonneg _ z); lia). reflexivity.
Qed.
Lemma unzip_streams_ok : forall unzip raws zips rest, Forall2 (fun r z => unzip z = Ok r) raws zips -> unzip_streams unzip (map zlen zips) (List.concat zips ++ rest) = Ok (List.concat raws, rest).
Proof.
  intros unzip raws zips rest H. induction H as [|r z raws zips Hz H IH]; [reflexivity|]. cbn [map List.concat unzip_streams]. rewrite <- app_assoc. rewrite firstz_firstn, skipz_skipn. rewrite firstn_app_exact, skipn_app_exact by (unfold zlen; lia). rewrite Hz. cbn [bind]. rewrite IH. reflexivity.
Qed.
Lemma frombuffer_ok : forall w ints, (w = 2%nat \/ w = 4%nat) -> Forall (fun z => - 2 ^ (8 * Z.of_nat w - 1) <= z < 2 ^ (8 * Z.of_nat w - 1)) ints -> frombuffer w (List.concat (map (le w) ints)) = Ok ints.
Proof.
  intros w ints Hw H. unfold frombuffer. assert (L : List.length (List.concat (map (le w) ints)) = (List.length ints * w)%nat).
  { rewrite (concat_length_const _ w); [rewrite map_length; lia|]. apply Forall_forall. intros x Hx. apply in_map_iff in Hx. destruct Hx as (y & <- & _). apply le_length. }
  assert (Hw0 : w <> 0%nat) by lia. rewrite L, Nat.mod_mul by exact Hw0. cbn [Nat.eqb]. rewrite Nat.div_mul by exact Hw0. f_equal.
  rewrite <- (app_nil_r (List.concat (map (le w) ints))). replace (List.length ints) with (List.length (map (le w) ints)) by apply map_length. rewrite records_concat.
  - rewrite map_map. rewrite <- (map_id ints) at 2. apply map_ext_in. intros z Hz. pose proof (proj1 (Forall_forall _ _) H z Hz) as X. cbn beta in X. rewrite le_val_le. apply signed_mod; [lia|exact X].
  - apply Forall_forall. intros x Hx. apply in_map_iff in Hx. destruct Hx as (y & <- & _). apply le_length.
Qed.
Lemma sized_ok : forall A n (r : nat -> res A), 0 <= n -> sized n r = r (Z.to_nat n).
Proof. intros A n r H. unfold sized. assert (E : (n <? 0) = false) by lia. rewrite E. reflexivity. Qed.
Lemma signature_true : forall h, signature h = true <-> str_at h 1 = str "DSCOMPRESSED".
Proof. intro h. apply eqb_str_spec. Qed.
Lemma psize_cases : forall h w, (w = 2%nat /\ int_at h 15 = 16) \/ (w = 4%nat /\ int_at h 15 = 32) -> psize h = Z.of_nat w /\ (if psize h =? 2 then 2%nat else 4%nat) = w.
Proof. intros h w [[-> E]|[-> E]]; unfold psize; rewrite E; split; reflexivity. Qed.
Lemma concat_le_length : forall w ints, zlen (List.concat (map (le w) ints)) = zlen ints * Z.of_nat w.
Proof.
  intros w ints. unfold zlen. rewrite (concat_length_const _ w); [rewrite map_length; lia|]. apply Forall_forall. intros x Hx. apply in_map_iff in Hx. destruct Hx as (y & <- & _). apply le_length.
Qed.
Lemma pack_s_exact : forall n b, List.length b = n -> pack_s n b = b.
Proof. intros n b H. unfold pack_s. rewrite firstn_all2 by lia. replace (n - List.length b)%nat with 0%nat by lia. cbn [repeat]. apply app_nil_r. Qed.
Lemma str_kept_signature : forall ks vs vs', List.length vs = List.length vs' -> Forall2 (fun k p => kept k (fst p) (snd p)) (KS 12 :: ks) (combine vs vs') -> clean (str_at vs 1) -> (List.length (str_at vs 1) <= 12)%nat -> str_at vs' 1 = str_at vs 1.
Proof.
  intros ks vs vs' L H Hc Hl. destruct vs as [|v vs]; destruct vs' as [|v' vs']; try discriminate; [inversion H|]. cbn [combine] in H. inversion H as [|? ? ? ? H1 H2]; subst. cbn [fst snd] in H1. unfold str_at, fld in *. cbn [Nat.sub nth] in *. destruct v; destruct v'; cbn [kept] in H1; try contradiction. destruct H1 as [_ H1].
  rewrite firstn_all2 in H1 by exact Hl. apply trim_stripped in H1. rewrite <- H1. apply trim_stripped. exists [], []. rewrite app_nil_r. repeat split; [constructor|constructor|exact Hc].
Qed.
(** * Objects *)
Lemma read_written : forall unzip c o, clean (str_at (c_fields c) 1) -> (List.length (str_at (c_fields c) 1) <= 12)%nat -> object_kept unzip c o ->
  exists b, write_object c = Ok b /\ forall rest, read_object unzip (b ++ rest) = Ok (o, rest).
Proof.
  intros unzip c o Hc1 Hl1 (Hk & Hl & Hn50 & Hch & Hcm & Hn51 & Hpb & Hpr & ints & Hd & Hdec).
  destruct (get_fields_kept _ _ _ Hl Hk) as (a & Sa & Ga). unfold write_object, read_object. rewrite Sa. cbn [bind].
  assert (Hi : forall i k, nth_error layout (i - 1) = Some k -> (k = KI16 \/ k = KU16 \/ k = KI32 \/ k = KU32) -> int_at (o_fields o) i = int_at (c_fields c) i).
  { intros i k Hi Hki. unfold int_at, fld. rewrite (kept_int layout (c_fields c) (o_fields o) (i - 1) k Hl Hk Hi Hki). reflexivity. }
  assert (I50 := Hi 50%nat KI16 eq_refl ltac:(tauto)). assert (I51 := Hi 51%nat KI16 eq_refl ltac:(tauto)). assert (I48 := Hi 48%nat KU32 eq_refl ltac:(tauto)). assert (I20 := Hi 20%nat KI32 eq_refl ltac:(tauto)). assert (I14 := Hi 14%nat KU32 eq_refl ltac:(tauto)). assert (I15 := Hi 15%nat KI16 eq_refl ltac:(tauto)). clear Hi.
  assert (S1 : str_at (o_fields o) 1 = str_at (c_fields c) 1) by (apply (str_kept_signature (tl layout) _ _ Hl Hk Hc1 Hl1)).
  rewrite !sized_ok by (rewrite ?Hn50, ?Hn51; apply zlen_nonneg). rewrite set_str_ok by exact Hch. cbn [bind]. rewrite set_str_ok by (apply repr_chars; exact Hpb). cbn [bind].
  set (cb := firstn _ (c_comment c) ++ _). set (pb := firstn _ (bytes_repr (c_private c)) ++ _).
  assert (Lc : zlen cb = int_at (o_fields o) 50) by (rewrite I50, Hn50; unfold cb, zlen; rewrite app_length, firstn_length, repeat_length; rewrite Hn50; unfold zlen; lia).
  assert (Lp : zlen pb = int_at (o_fields o) 51) by (rewrite I51, Hn51; unfold pb, zlen; rewrite app_length, firstn_length, repeat_length; rewrite Hn51; unfold zlen; lia).
  assert (Tc : trim cb = o_comment o). { apply trim_stripped. unfold cb. apply stripped_spaces. rewrite firstn_all2 by (rewrite Hn50; unfold zlen; lia). exact Hcm. }
  assert (Tp : trim pb = o_private o). { apply trim_stripped. unfold pb. apply stripped_spaces. rewrite Hn51. replace (Z.to_nat (zlen (c_private c))) with (List.length (c_private c)) by (unfold zlen; lia). exact Hpr. }
  clearbody cb pb. destruct Hd as (w & Hw & Hr & Hd). pose proof (psize_cases _ _ Hw) as [P1 P2].
  assert (Fb : frombuffer w (List.concat (map (le w) ints)) = Ok ints) by (apply frombuffer_ok; [tauto|exact Hr]).
  assert (Hsz : (if signature (c_fields c) then int_at (c_fields c) 48 else raw_size (c_fields c)) = zlen (c_points c)).
  { destruct Hd as [(D1 & D2 & D3)|(D1 & D2 & D3)].
    - assert (E : signature (c_fields c) = false) by (destruct (signature (c_fields c)) eqn:E; [apply signature_true in E; congruence|reflexivity]). rewrite E. unfold raw_size. rewrite <- I20, <- I14. unfold psize in *. rewrite <- I15, P1. rewrite <- D3, D2. symmetry. apply concat_le_length.
    - assert (E : signature (c_fields c) = true) by (apply signature_true; congruence). rewrite E. congruence. }
  rewrite Hsz. rewrite sized_ok by apply zlen_nonneg. cbn [bind]. rewrite pack_s_exact by (unfold zlen; lia). eexists. split; [reflexivity|]. intro rest. rewrite <- !app_assoc, Ga. cbn [bind].
  rewrite (read_n_app cb _ _ Lc). cbn [bind]. rewrite (read_n_app pb _ _ Lp). cbn [bind].
  assert (Er : read_raw unzip (o_fields o) (c_points c ++ rest) = Ok (List.concat (map (le w) ints), rest)).
  { unfold read_raw. destruct Hd as [(D1 & D2 & D3)|(D1 & D2 & raws & zips & D3 & D4 & D5 & D6 & D7)].
    - assert (E : signature (o_fields o) = false) by (destruct (signature (o_fields o)) eqn:E; [apply signature_true in E; congruence|reflexivity]). rewrite E. rewrite D2. apply read_n_app. rewrite concat_le_length. unfold raw_size. rewrite P1, <- D3. reflexivity.
    - assert (E : signature (o_fields o) = true) by (apply signature_true; exact D1). rewrite E. rewrite D3. unfold encode_streams. rewrite <- !app_assoc. rewrite take_app by apply le_length. cbn [bind]. rewrite le_val_small by (pose proof (zlen_nonneg _ zips); lia).
      assert (Lz : List.length raws = List.length zips) by (clear - D4; induction D4; cbn; lia). replace (Z.to_nat (zlen zips)) with (List.length zips) by (unfold zlen; lia). rewrite stream_sizes_ok by assumption. cbn [bind]. rewrite (unzip_streams_ok unzip raws zips rest D4). rewrite D5. reflexivity. }
  rewrite Er. cbn [bind]. rewrite P2, Fb. cbn [bind]. rewrite Hdec. cbn [bind]. rewrite Tc, Tp. destruct o; reflexivity.
Qed.

Lemma read_objects_written : forall unzip cs os, Forall (fun c => clean (str_at (c_fields c) 1) /\ (List.length (str_at (c_fields c) 1) <= 12)%nat) cs -> Forall2 (object_kept unzip) cs os ->
  exists b, write_objects cs = Ok b /\ forall rest, read_objects unzip (List.length cs) (b ++ rest) = Ok (os, rest).
Proof.
  intros unzip cs os Hs H. induction H as [|c o cs os H1 H2 IH]; [exists []; split; reflexivity|]. inversion Hs as [|? ? [Hs1 Hs2] Hs']; subst.
  destruct (read_written unzip c o Hs1 Hs2 H1) as (b1 & W1 & R1). destruct (IH Hs') as (b2 & W2 & R2). exists (b1 ++ b2). cbn [write_objects List.length read_objects]. rewrite W1, W2. split; [reflexivity|].
  intro rest. rewrite <- app_assoc, R1. cbn [bind]. rewrite R2. reflexivity.
Qed.
(** Every object of a file is read back: all fields, the comment, and the data, compressed or not, in one or more streams *)
Theorem C73_objects : forall unzip cs os h, hd_error (map c_fields cs) = Some h ->
  Forall (fun c => str_at (c_fields c) 1 = str "DSCOMPRESSED" \/ str_at (c_fields c) 1 = str "DIGITAL SURF") cs ->
  zlen cs = Z.max 1 (int_at h 3) * Z.max 1 (int_at h 8) -> Forall2 (object_kept unzip) cs os ->
  exists f, write_objects cs = Ok f /\ read_sur unzip f = Ok os.
Proof.
  intros unzip cs os h Hh Hs Hn H. assert (Hs' : Forall (fun c => clean (str_at (c_fields c) 1) /\ (List.length (str_at (c_fields c) 1) <= 12)%nat) cs).
  { eapply Forall_impl; [|exact Hs]. intros c [E|E]; rewrite E; (split; [right; split; cbn; lia|vm_compute; lia]). }
  destruct H as [|c o cs os H1 H2]; [discriminate|]. cbn [map hd_error] in Hh. assert (Eh : h = c_fields c) by congruence. subst h. inversion Hs' as [|? ? [Hs1 Hs2] Hs3]; subst.
  destruct (read_written unzip c o Hs1 Hs2 H1) as (b1 & W1 & R1). destruct (read_objects_written unzip cs os Hs3 H2) as (b2 & W2 & R2). cbn [write_objects]. rewrite W1, W2. cbn [bind]. exists (b1 ++ b2). split; [reflexivity|].
  unfold read_sur. rewrite R1. cbn [bind]. destruct H1 as (Hk & Hl & _).
  assert (I3 : int_at (o_fields o) 3 = int_at (c_fields c) 3) by (unfold int_at, fld; cbn [Nat.sub]; rewrite (kept_int layout (c_fields c) (o_fields o) 2 KU16 Hl Hk eq_refl ltac:(tauto)); reflexivity).
  assert (I8 : int_at (o_fields o) 8 = int_at (c_fields c) 8) by (unfold int_at, fld; cbn [Nat.sub]; rewrite (kept_int layout (c_fields c) (o_fields o) 7 KI16 Hl Hk eq_refl ltac:(tauto)); reflexivity).
  rewrite I3, I8. replace (Z.to_nat _) with (List.length cs) by (unfold zlen in Hn; cbn [List.length] in Hn; rewrite (Z.max_comm (int_at (c_fields c) 3)), (Z.max_comm (int_at (c_fields c) 8)); set (x := Z.max 1 _) in *; set (y := Z.max 1 (int_at (c_fields c) 8)) in *; lia).
  rewrite <- (app_nil_r b2). rewrite R2. reflexivity.
Qed.
(** Text that is not longer than the field and has no blanks at its ends is unchanged *)
Theorem C73_text : forall n s, chars s -> (List.length s <= n)%nat -> clean s -> kept (KS n) (FS s) (FS s).
Proof. intros n s Hc Hl Hs. cbn [kept]. split; [exact Hc|]. rewrite firstn_all2 by exact Hl. exists [], []. rewrite app_nil_r. repeat split; [constructor|constructor|exact Hs]. Qed.
(** Floats are rounded to single precision *)
Theorem C73_float : forall q, (Qabs (nearest q - q) <= Qabs q * (1 # 2 ^ 24))%Q \/ (Qabs (nearest q - q) <= 1 # 2 ^ 150)%Q.
Proof. exact nearest_error. Qed.
Theorem C73_single : forall q, single q -> (nearest q == q)%Q.
Proof. intros q H. destruct (single_nearest q H) as [_ E]. rewrite E. apply Qred_correct. Qed.

(** * Examples *)
Definition ex_fields (n : Z) (name : pystr) (zipped : bool) (size : Z) (private : Z) : list fval :=
  [FS (if zipped then str "DSCOMPRESSED" else str "DIGITAL SURF"); FI 0; FI n; FI 1; FI 2; FS name; FS []; FI 1; FI 0; FI 0; FI 0; FI 0; FF 0; FI 0; FI 16; FI (-1); FI 300; FI 3; FI 1; FI 3; FF (1 # 4); FF 1; FF 1] ++
  repeat (FS (str "um")) 9 ++ [FF 1; FF 1; FF 1; FI 0; FI 0; FI 0; FB []] ++ repeat (FI 0) 7 ++ [FF 0; FI size; FB []; FI 6; FI private; FB [1; 2]; FF 0; FF (-3 # 2); FF (-1); FF 0; FF 0; FS []; FS []].
Definition ex_content (n : Z) (name : pystr) (zipped : bool) (points private : list Z) : content :=
  {| c_fields := ex_fields n name zipped (if zipped then zlen points else 0) (zlen private); c_comment := str "$a = 1"; c_private := private; c_points := points |}.
Definition ex_streams : list Z := encode_streams [le 2 (-1) ++ le 2 300; le 2 7] [1 :: le 2 (-1) ++ le 2 300; 1 :: le 2 7].
Definition ex_unzip (z : list Z) : res (list Z) := match z with 1 :: r => Ok r | _ => Err OtherError end.
Example C73_example :
  let cs := [ex_content 2 (str "first") false (List.concat (map (le 2) [-1; 300; 7])) []; ex_content 2 (str " a") true ex_streams []] in
  match write_objects cs with
  | Ok f => match read_sur ex_unzip f with Ok os => map (fun o => (str_at (o_fields o) 6, int_at (o_fields o) 16, float_at (o_fields o) 21, float_at (o_fields o) 54, o_comment o, o_points o)) os | Err _ => [] end
  | Err _ => []
  end = [(str "first", -1, (1 # 4)%Q, (-3 # 2)%Q, str "$a = 1", [PI (-1); PI 300; PI 7]); (str "a", -1, (1 # 4)%Q, (-3 # 2)%Q, str "$a = 1", [PI (-1); PI 300; PI 7])].
Proof. vm_compute. reflexivity. Qed.
(** A private zone is written as the text of a Python literal and cut *)
Theorem C73_private_refuted :
  match write_objects [ex_content 1 [] false (List.concat (map (le 2) [-1; 300; 7])) (str "serial 12")] with
  | Ok f => match read_sur ex_unzip f with Ok os => map o_private os | Err _ => [] end
  | Err _ => []
  end = [str "b'serial"] /\ str "b'serial" <> str "serial 12".
Proof. split; [vm_compute; reflexivity|discriminate]. Qed.
(** The hypotheses of C73_objects are met *)
Definition ex_read (name : pystr) (zipped : bool) (size : Z) : list fval :=
  [FS (if zipped then str "DSCOMPRESSED" else str "DIGITAL SURF"); FI 0; FI 2; FI 1; FI 2; FS name; FS []; FI 1; FI 0; FI 0; FI 0; FI 0; FF 0; FI 0; FI 16; FI (-1); FI 300; FI 3; FI 1; FI 3; FF (1 # 4); FF 1; FF 1] ++
  repeat (FS (str "um")) 9 ++ [FF 1; FF 1; FF 1; FI 0; FI 0; FI 0; FB (repeat 0 12)] ++ repeat (FI 0) 7 ++ [FF 0; FI size; FB (repeat 0 6); FI 6; FI 0; FB ([1; 2] ++ repeat 0 126); FF 0; FF (-3 # 2); FF (-1); FF 0; FF 0; FS []; FS []].
Definition ex_object (name : pystr) (zipped : bool) (size : Z) : object :=
  {| o_fields := ex_read name zipped size; o_comment := str "$a = 1"; o_private := []; o_points := [PI (-1); PI 300; PI 7] |}.
Example C73_hyps : Forall2 (object_kept ex_unzip)
  [ex_content 2 (str "first") false (List.concat (map (le 2) [-1; 300; 7])) []; ex_content 2 (str " a") true ex_streams []]
  [ex_object (str "first") false 0; ex_object (str "a") true (zlen ex_streams)].
Proof.
  assert (T : forall n s, forallb (fun c => (0 <=? c) && (c <? 256)) s && (Z.of_nat (List.length s) <=? Z.of_nat n) && match s with [] => true | _ => negb (blank (hd 0 s)) && negb (blank (last s 0)) end = true -> chars s /\ stripped (firstn n s) s).
  { intros n s H. apply C73_text; [| |].
    - apply Forall_forall. intros c Hc. apply andb_true_iff in H. destruct H as [H _]. apply andb_true_iff in H. destruct H as [H _]. pose proof (proj1 (forallb_forall _ _) H c Hc). cbn beta in *. lia.
    - apply andb_true_iff in H. destruct H as [H _]. lia.
    - apply andb_true_iff in H. destruct H as [_ H]. destruct s as [|x s]; [left; reflexivity|right]. apply andb_true_iff in H. destruct H as [H1 H2]. split; intro X; apply blank_in in X; [rewrite X in H1|rewrite X in H2]; discriminate. }
  assert (F : forall q, (Qabs q ?= inject_Z (2 ^ 127))%Q = Lt -> nearest q = q -> fits q /\ q = nearest q) by (intros q A B; split; [apply Qlt_alt; exact A|symmetry; exact B]).
  assert (C : clean (str "$a = 1")) by (right; split; cbn; lia).
  assert (Cc : chars (str "$a = 1")) by (repeat constructor; vm_compute; congruence).
  assert (St : stripped (str "$a = 1") (str "$a = 1")) by (exists [], []; repeat split; [constructor|constructor|exact C]).
  assert (Se : stripped [] []) by (exists [], []; repeat split; [constructor|constructor|left; reflexivity]).
  constructor; [|constructor; [|constructor]]; (split; [|split; [reflexivity|split; [reflexivity|split; [exact Cc|split; [exact St|split; [reflexivity|split; [constructor|split; [exact Se|]]]]]]]]).
  - cbn [layout c_fields ex_content ex_fields o_fields ex_object ex_read repeat app combine].
    repeat (apply Forall2_cons; [first [apply T; vm_compute; reflexivity | apply F; vm_compute; reflexivity | (split; [cbn; lia|reflexivity]) | (split; [lia|reflexivity])]|]). constructor.
  - exists [-1; 300; 7]. split; [|reflexivity]. exists 2%nat. split; [left; split; reflexivity|]. split; [repeat constructor; cbn; lia|]. left. split; [discriminate|]. split; reflexivity.
  - cbn [layout c_fields ex_content ex_fields o_fields ex_object ex_read repeat app combine].
    do 5 (apply Forall2_cons; [first [apply T; vm_compute; reflexivity | (split; [lia|reflexivity])]|]).
    apply Forall2_cons; [split; [repeat constructor; vm_compute; congruence|]; exists [32], []; repeat split; [repeat constructor|constructor|right; split; cbn; lia]|].
    repeat (apply Forall2_cons; [first [apply T; vm_compute; reflexivity | apply F; vm_compute; reflexivity | (split; [cbn; lia|reflexivity]) | (split; [lia|reflexivity]) | (split; [vm_compute; split; congruence|reflexivity])]|]). constructor.
  - exists [-1; 300; 7]. split; [|reflexivity]. exists 2%nat. split; [left; split; reflexivity|]. split; [repeat constructor; cbn; lia|]. right. split; [reflexivity|]. split; [reflexivity|].
    exists [le 2 (-1) ++ le 2 300; le 2 7], [1 :: le 2 (-1) ++ le 2 300; 1 :: le 2 7]. split; [reflexivity|]. split; [repeat constructor|]. split; [reflexivity|]. split; [cbn; lia|]. repeat constructor; cbn; lia.
Qed.
Print Assumptions C73_objects.
Print Assumptions C73_text.
Print Assumptions C73_float.
Print Assumptions C73_single.
Print Assumptions C73_example.
Print Assumptions C73_private_refuted.
Print Assumptions C73_hyps.
