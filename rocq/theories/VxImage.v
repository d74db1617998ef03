(** Property C123: images of Velox files. *)
From Coq Require Import QArith.
From Verif Require Import Base Text HierModel SfsModel RowMajor VxModel VxProps.
Local Open Scope Z_scope.

(** * Specification *)
(** the number of frames that are kept of [n] stored ones *)
Definition kept (c : fixed) (n : Z) : Z := if o_stack (c_opt c) || c_image c then n else 1.
Definition element {A} (d : A) (shape idx : list Z) (flat : list A) : A := nth (Z.to_nat (row_major shape idx)) flat d.
(** a length of value [q] in units of size [a] and one of value [r] in units of size [b] are the same *)
Definition same_length (q a r b : Q) : Prop := (q * a == r * b)%Q.
(** the number under a key *)
Definition number_at (E : env) (j : json) (k : string) (q : Q) : Prop := exists v, item j (str k) = Ok v /\ float_of E v = Ok q.

Ltac step H :=
  match type of H with
  | bind ?r _ = Ok _ => let x := fresh "v" in let e := fresh "Ev" in destruct r as [x|] eqn:e; cbn [bind] in H; [|discriminate H]
  | (let (_, _) := ?p in _) = Ok _ => destruct p eqn:?
  | (match ?p with (_, _) => _ end) = Ok _ => destruct p eqn:?
  | Err _ = Ok _ => discriminate H
  | (if ?b then _ else _) = Ok _ => destruct b eqn:?
  | (match ?l with _ => _ end) = Ok _ => destruct l eqn:?
  | (let x := _ in _) = _ => cbv zeta in H
  end.

(** * Rolled arrays *)
Lemma roll_length : forall A (d : A) ys xs n flat, 0 <= ys -> 0 <= xs -> 0 <= n -> Z.of_nat (List.length (roll d ys xs n flat)) = n * ys * xs.
Proof.
  intros A d ys xs n flat Hy Hx Hn. unfold roll. rewrite (flat_map_len _ _ _ _ (Z.to_nat ys * Z.to_nat xs)%nat).
  - rewrite zseq_length. nia.
  - intros f _. rewrite (flat_map_len _ _ _ _ (Z.to_nat xs)); [rewrite zseq_length; reflexivity|]. intros y _. rewrite map_length, zseq_length. reflexivity.
Qed.
Lemma roll_nth : forall A (d : A) ys xs n flat f y x, 0 <= f < n -> 0 <= y < ys -> 0 <= x < xs ->
  nth_error (roll d ys xs n flat) (Z.to_nat ((f * ys + y) * xs + x)) = Some (nth (Z.to_nat ((y * xs + x) * n + f)) flat d).
Proof.
  intros A d ys xs n flat f y x Hf Hy Hx. unfold roll.
  replace (Z.to_nat ((f * ys + y) * xs + x)) with (Z.to_nat f * (Z.to_nat ys * Z.to_nat xs) + (Z.to_nat y * Z.to_nat xs + Z.to_nat x))%nat by nia.
  rewrite (nth_error_flat_map _ _ _ _ (Z.to_nat ys * Z.to_nat xs)%nat _ _ f).
  - rewrite (nth_error_flat_map _ _ _ _ (Z.to_nat xs) _ _ y).
    + erewrite map_nth_error; [reflexivity|]. rewrite nth_error_zseq by lia. f_equal. lia.
    + intros z _. rewrite map_length, zseq_length. reflexivity.
    + rewrite nth_error_zseq by lia. f_equal. lia.
    + lia.
  - intros z _. rewrite (flat_map_len _ _ _ _ (Z.to_nat xs)); [rewrite zseq_length; reflexivity|]. intros t _. rewrite map_length, zseq_length. reflexivity.
  - rewrite nth_error_zseq by lia. f_equal. lia.
  - nia.
Qed.
Lemma firstn_nth_error : forall A (l : list A) n i, (i < n)%nat -> nth_error (firstn n l) i = nth_error l i.
Proof. intros A. induction l as [|a l IH]; intros [|n] [|i] H; cbn; try reflexivity; try lia. apply IH. lia. Qed.
Lemma to_default : forall A (d : A) l i x, nth_error l i = Some x -> nth i l d = x.
Proof. intros A d. induction l as [|a l IH]; intros [|i] x H; cbn in *; try discriminate; [congruence|]. exact (IH _ _ H). Qed.

(** * Units *)
Section Image.
Variable E : env.
Lemma convert_same : forall q u v r, convert E q u v = Ok r -> exists d a b, e_unit E u = Some (d, a) /\ e_unit E v = Some (d, b) /\ r = (q * a / b)%Q.
Proof.
  intros q u v r H. unfold convert in H. destruct (e_unit E u) as [[d a]|]; [|discriminate]. destruct (e_unit E v) as [[d' b]|]; [|discriminate]. destruct (d =? d') eqn:D; [|discriminate].
  injection H as <-. apply Z.eqb_eq in D. subst d'. exists d, a, b. repeat split; reflexivity.
Qed.
Lemma quotient : forall q a b : Q, ~ (b == 0)%Q -> same_length (q * a / b) b q a.
Proof. intros q a b N. unfold same_length. field. exact N. Qed.
(** The scales and offsets of a plane are the ones of the file in one common unit *)
Theorem C123_calibration : forall size offset units factor sy oy sx ox u,
  plane E size offset units factor = Ok (sy, oy, sx, ox, u) ->
  exists a b w h x y, (exists d, e_unit E units = Some (d, a) /\ e_unit E u = Some (d, b)) /\
    number_at E size "width" w /\ number_at E size "height" h /\ number_at E offset "x" x /\ number_at E offset "y" y /\
    (~ (b == 0)%Q -> same_length sx b w a /\ same_length sy b h a /\ same_length ox b x a /\ same_length oy b y a).
Proof.
  intros size offset units factor sy oy sx ox u H. unfold plane, convert_float, convert_scale in H.
  destruct (item size (str "width")) as [jw|] eqn:W; [|discriminate]. cbn [bind] in H. destruct (float_of E jw) as [w|] eqn:FW; [|discriminate]. cbn [bind] in H.
  destruct (e_unit E units) as [[d a]|] eqn:U; [|discriminate]. destruct (factor =? 0); [discriminate|]. cbv zeta in H.
  set (u' := e_compact E (inject_Z factor / 2 * w) units) in *. destruct (convert E w units u') as [sx'|] eqn:CX; [|discriminate]. cbn [bind] in H.
  destruct (item size (str "height")) as [jh|] eqn:HH; [|discriminate]. cbn [bind] in H. destruct (float_of E jh) as [h|] eqn:FH; [|discriminate]. cbn [bind] in H.
  destruct (convert E h units u') as [sy'|] eqn:CY; [|discriminate]. cbn [bind] in H.
  destruct (item offset (str "x")) as [jx|] eqn:HX; [|discriminate]. cbn [bind] in H. destruct (float_of E jx) as [x|] eqn:FX; [|discriminate]. cbn [bind] in H.
  destruct (convert E x units u') as [ox'|] eqn:CO; [|discriminate]. cbn [bind] in H.
  destruct (item offset (str "y")) as [jy|] eqn:HY; [|discriminate]. cbn [bind] in H. destruct (float_of E jy) as [y|] eqn:FY; [|discriminate]. cbn [bind] in H.
  destruct (convert E y units u') as [oy'|] eqn:CQ; [|discriminate]. cbn [bind] in H. injection H as <- <- <- <- Eu. clearbody u'. subst u'.
  apply convert_same in CX. destruct CX as (d1 & a1 & b & A1 & B & ->). rewrite U in A1. injection A1 as <- <-.
  apply convert_same in CY. destruct CY as (d2 & a2 & b2 & A2 & B2 & ->). rewrite U in A2. injection A2 as <- <-. rewrite B in B2. injection B2 as <-.
  apply convert_same in CO. destruct CO as (d3 & a3 & b3 & A3 & B3 & ->). rewrite U in A3. injection A3 as <- <-. rewrite B in B3. injection B3 as <-.
  apply convert_same in CQ. destruct CQ as (d4 & a4 & b4 & A4 & B4 & ->). rewrite U in A4. injection A4 as <- <-. rewrite B in B4. injection B4 as <-.
  exists a, b, w, h, x, y. split; [exists d; split; first [reflexivity|assumption]|]. repeat (split; [eexists; split; eassumption|]). intro N. repeat split; apply quotient; exact N.
Qed.

(** * Images *)
(** the parts of a successful reading *)
Lemma image_parts : forall c key i s g s', read_image E c key i s = Ok (g, s') ->
  exists ys xs n t first sy oy sx ox u om br size offset units info,
    i_shape i = [ys; xs; n] /\ image_type (o_lazy (c_opt c)) i = Ok t /\
    original E c (i_meta i) = Ok om /\ item (JDict om) (str "BinaryResult") = Ok br /\
    detector_information E om = Ok info /\ image_detector c key info (r_detector s) = Ok (r_detector s') /\
    get br (str "PixelSize") = Ok size /\ get br (str "Offset") = Ok offset /\ get br (str "PixelUnitX") = Ok units /\
    (exists ut, units_text (default units (JStr [])) = Ok ut /\
       plane E (default size (JDict [(str "height", JReal 1); (str "width", JReal 1)])) (default offset (JDict [(str "x", JReal 0); (str "y", JReal 0)])) ut xs = Ok (sy, oy, sx, ox, u)) /\
    (let m := if o_stack (c_opt c) || c_image c then n else Z.min 1 n in
     (if m =? 1 then first = [] else exists ft p, frame_time E om = Ok ft /\ convert_scale E ft (str "s") (2 * m) = Ok p /\ first = [ax (Some 0) (str "Time") 0 (Some (fst p)) m (Some (snd p)) true]) /\
     s_data g = Arr (if m =? 1 then [ys; xs] else [m; ys; xs])
                    (if o_stack (c_opt c) || c_image c then roll (Real 0) ys xs n (i_flat i) else firstn (Z.to_nat (Z.min 1 n * ys * xs)) (roll (Real 0) ys xs n (i_flat i))) t /\
     let k := if m =? 1 then 0 else 1 in
     s_axes g = first ++ [ax (Some k) (str "y") oy (Some sy) ys (Some u) false; ax (Some (k + 1)) (str "x") ox (Some sx) xs (Some u) false]) /\
    r_shape s' = Some [ys; xs] /\
    m_title (s_md g) = match lookup key (c_labels c) with Some l => Some l | None => r_detector s' end.
Proof.
  intros c key i s g s' H. unfold read_image in H. cbv zeta in H.
  destruct (original E c (i_meta i)) as [om|] eqn:OM; cbn [bind] in H; [|discriminate].
  destruct (detector_information E om) as [info|] eqn:INF; cbn [bind] in H; [|discriminate].
  destruct (image_detector c key info (r_detector s)) as [det|] eqn:DET; cbn [bind] in H; [|discriminate].
  destruct (i_shape i) as [|ys [|xs [|n [|]]]] eqn:SH; try discriminate.
  destruct (image_type (o_lazy (c_opt c)) i) as [t|] eqn:TY; cbn [bind] in H; [|discriminate].
  destruct (item (JDict om) (str "BinaryResult")) as [br|] eqn:BR; cbn [bind] in H; [|discriminate].
  destruct (get br (str "PixelSize")) as [size|] eqn:G1; cbn [bind] in H; [|discriminate].
  destruct (get br (str "Offset")) as [offset|] eqn:G2; cbn [bind] in H; [|discriminate].
  destruct (get br (str "PixelUnitX")) as [units|] eqn:G3; cbn [bind] in H; [|discriminate].
  destruct (if o_stack (c_opt c) || c_image c then (n, roll (Real 0) ys xs n (i_flat i)) else (Z.min 1 n, firstn (Z.to_nat (Z.min 1 n * ys * xs)) (roll (Real 0) ys xs n (i_flat i)))) as [m fl] eqn:KEEP.
  assert (KE : m = (if o_stack (c_opt c) || c_image c then n else Z.min 1 n) /\ fl = if o_stack (c_opt c) || c_image c then roll (Real 0) ys xs n (i_flat i) else firstn (Z.to_nat (Z.min 1 n * ys * xs)) (roll (Real 0) ys xs n (i_flat i))).
  { destruct (o_stack (c_opt c) || c_image c); injection KEEP as <- <-; split; reflexivity. }
  clear KEEP. destruct KE as [-> ->]. set (m := if o_stack (c_opt c) || c_image c then n else Z.min 1 n) in *.
  match type of H with bind ?r _ = _ => destruct r as [first|] eqn:FI; cbn [bind] in H; [|discriminate] end.
  destruct (units_text (default units (JStr []))) as [ut|] eqn:UT; cbn [bind] in H; [|discriminate].
  match type of H with bind ?r _ = _ => destruct r as [[[[[sy oy] sx] ox] u]|] eqn:PL; cbn [bind] in H; [|discriminate] end.
  destruct (metadata_of E c det [] om) as [md|] eqn:MD; cbn [bind] in H; [|discriminate]. apply metadata_signal in MD. destruct MD as (_ & MT & _).
  match type of H with bind ?r _ = _ => destruct r as [om'|] eqn:OM'; cbn [bind] in H; [|discriminate] end.
  match type of H with bind ?r _ = _ => destruct r as [mp|] eqn:MP; cbn [bind] in H; [|discriminate] end.
  injection H as <- <-. cbn [s_data s_axes s_md r_shape r_detector].
  exists ys, xs, n, t, first, sy, oy, sx, ox, u, om, br, size, offset, units, info. repeat (split; [first [reflexivity|assumption]|]).
  split; [exists ut; split; assumption|]. split.
  - split.
    + match goal with |- if ?b then _ else _ => change b with (m =? 1) end. destruct (m =? 1); [injection FI as <-; reflexivity|]. step FI. step FI. injection FI as <-. do 2 eexists. repeat split; eassumption.
    + split; reflexivity.
  - split; [reflexivity|]. destruct (lookup key (c_labels c)); [reflexivity|exact MT].
Qed.

(** Every frame is the stored one, with the frames first; a single frame is a plain image *)
Theorem C123_data : forall c key i s g s' ys xs n, read_image E c key i s = Ok (g, s') -> i_shape i = [ys; xs; n] -> 1 <= n -> 0 <= ys -> 0 <= xs ->
  exists flat t, s_data g = Arr (if kept c n =? 1 then [ys; xs] else [kept c n; ys; xs]) flat t /\
    Z.of_nat (List.length flat) = kept c n * ys * xs /\
    forall f y x, 0 <= f < kept c n -> 0 <= y < ys -> 0 <= x < xs ->
      element (Real 0) [kept c n; ys; xs] [f; y; x] flat = element (Real 0) [ys; xs; n] [y; x; f] (i_flat i).
Proof.
  intros c key i s g s' ys xs n H SH Hn Hy Hx. destruct (image_parts _ _ _ _ _ _ H) as (ys' & xs' & n' & t & first & sy & oy & sx & ox & u & om & br & size & offset & units & info & SH' & TY & _ & _ & _ & _ & _ & _ & _ & _ & (_ & D & _) & _).
  rewrite SH in SH'. injection SH' as <- <- <-. rewrite Z.min_l in D by lia. fold (kept c n) in D.
  eexists _, t. split; [exact D|]. assert (K : 1 <= kept c n <= n) by (unfold kept; destruct (_ || _); lia).
  assert (RM : forall f y x, row_major [kept c n; ys; xs] [f; y; x] = (f * ys + y) * xs + x) by (intros; cbn [row_major prodZ fold_right]; lia).
  split.
  - unfold kept. destruct (_ || _); [apply roll_length; lia|]. rewrite firstn_length. pose proof (roll_length _ (Real 0) ys xs n (i_flat i) Hy Hx ltac:(lia)). nia.
  - intros f y x Hf Hy' Hx'. unfold element at 1. rewrite RM. apply to_default.
    assert (R : nth_error (roll (Real 0) ys xs n (i_flat i)) (Z.to_nat ((f * ys + y) * xs + x)) = Some (element (Real 0) [ys; xs; n] [y; x; f] (i_flat i))).
    { rewrite roll_nth by lia. unfold element. replace (row_major [ys; xs; n] [y; x; f]) with ((y * xs + x) * n + f) by (cbn [row_major prodZ fold_right]; lia). reflexivity. }
    unfold kept in Hf. destruct (_ || _); [exact R|]. rewrite firstn_nth_error; [exact R|]. assert (f = 0) by lia. subst f. nia.
Qed.
(** The axes: names, positions and sizes of the array that is returned *)
Theorem C123_axes : forall c key i s g s' ys xs n, read_image E c key i s = Ok (g, s') -> i_shape i = [ys; xs; n] -> 1 <= n ->
  map x_name (s_axes g) = (if kept c n =? 1 then [] else [str "Time"]) ++ [str "y"; str "x"] /\
  map x_index (s_axes g) = map Some (zseq 0 (if kept c n =? 1 then 2%nat else 3%nat)) /\
  map x_size (s_axes g) = (if kept c n =? 1 then [ys; xs] else [kept c n; ys; xs]) /\
  map x_navigate (s_axes g) = (if kept c n =? 1 then [] else [true]) ++ [false; false].
Proof.
  intros c key i s g s' ys xs n H SH Hn. destruct (image_parts _ _ _ _ _ _ H) as (ys' & xs' & n' & t & first & sy & oy & sx & ox & u & om & br & size & offset & units & info & SH' & TY & _ & _ & _ & _ & _ & _ & _ & _ & (F & _ & A) & _).
  rewrite SH in SH'. injection SH' as <- <- <-. rewrite Z.min_l in F, A by lia. cbv zeta in A. fold (kept c n) in F, A. rewrite A.
  destruct (kept c n =? 1); [subst first; repeat split; reflexivity|]. destruct F as (ft & p & _ & _ & ->). repeat split; reflexivity.
Qed.
(** Both axes of the plane have the unit of x, and their calibration is that of the file; the defaults are 1 and 0 *)
Definition stored_or (br : json) (k : string) (dflt : json) (j : json) : Prop := exists d, br = JDict d /\ j = match lookup (str k) d with Some v => v | None => dflt end.
Theorem C123_calibrated : forall c key i s g s', read_image E c key i s = Ok (g, s') ->
  exists om br size offset units ut u a b w h x y, original E c (i_meta i) = Ok om /\ item (JDict om) (str "BinaryResult") = Ok br /\
    stored_or br "PixelSize" (JDict [(str "height", JReal 1); (str "width", JReal 1)]) size /\ stored_or br "Offset" (JDict [(str "x", JReal 0); (str "y", JReal 0)]) offset /\
    stored_or br "PixelUnitX" (JStr []) units /\ units = JStr ut /\
    (exists d, e_unit E ut = Some (d, a) /\ e_unit E u = Some (d, b)) /\
    number_at E size "width" w /\ number_at E size "height" h /\ number_at E offset "x" x /\ number_at E offset "y" y /\
    (~ (b == 0)%Q -> forall e, In e (s_axes g) ->
       (x_name e = str "x" -> x_units e = Some u /\ same_length (x_offset e) b x a /\ exists q, x_scale e = Some q /\ same_length q b w a) /\
       (x_name e = str "y" -> x_units e = Some u /\ same_length (x_offset e) b y a /\ exists q, x_scale e = Some q /\ same_length q b h a)).
Proof.
  intros c key i s g s' H. destruct (image_parts _ _ _ _ _ _ H) as (ys & xs & n & t & first & sy & oy & sx & ox & u & om & br & size & offset & units & info & SH & TY & OM & BR & _ & _ & G1 & G2 & G3 & (ut & UT & PL) & (F & _ & A) & _).
  destruct (C123_calibration _ _ _ _ _ _ _ _ _ PL) as (a & b & w & h & x & y & DU & W & HH & X & Y & CAL).
  assert (ST : forall k dflt o, get br (str k) = Ok o -> stored_or br k dflt (default o dflt)).
  { intros k dflt o G. unfold get, entries in G. destruct br as [| | | | | |d]; cbn [bind] in G; try discriminate. injection G as <-. exists d. split; [reflexivity|]. unfold default. destruct (lookup (str k) d); reflexivity. }
  exists om, br, (default size (JDict [(str "height", JReal 1); (str "width", JReal 1)])), (default offset (JDict [(str "x", JReal 0); (str "y", JReal 0)])), (default units (JStr [])), ut, u, a, b, w, h, x, y.
  split; [exact OM|]. split; [exact BR|]. split; [apply ST; exact G1|]. split; [apply ST; exact G2|]. split; [apply ST; exact G3|].
  split. { unfold units_text in UT. destruct (default units (JStr [])); try discriminate. injection UT as ->. reflexivity. }
  split; [exact DU|]. repeat (split; [assumption|]). intro N. destruct (CAL N) as (C1 & C2 & C3 & C4).
  intros e He. rewrite A in He. apply in_app_or in He. destruct He as [He|He].
  - destruct (_ =? 1) in F; [subst first; contradiction|]. destruct F as (ft & p & _ & _ & ->). destruct He as [<-|[]]. split; intro K; discriminate K.
  - destruct He as [<-|[<-|[]]]; cbn [ax x_name x_units x_offset x_scale].
    + split; intro K; [discriminate K|]. split; [reflexivity|]. split; [exact C4|]. eexists; split; [reflexivity|exact C2].
    + split; intro K; [|discriminate K]. split; [reflexivity|]. split; [exact C3|]. eexists; split; [reflexivity|exact C1].
Qed.
(** The title is the label of the display, or else the name of the detector *)
Theorem C123_title : forall c key i s g s', read_image E c key i s = Ok (g, s') ->
  m_title (s_md g) = match lookup key (c_labels c) with Some l => Some l | None => r_detector s' end.
Proof.
  intros c key i s g s' H. destruct (image_parts _ _ _ _ _ _ H) as (ys & xs & n & t & first & sy & oy & sx & ox & u & om & br & size & offset & units & info & R).
  repeat match type of R with _ /\ _ => destruct R as [_ R] | exists _, _ => destruct R as [? R] end. exact R.
Qed.

(** * Lazy and eager *)
Definition lazily (b : bool) (c : fixed) : fixed :=
  let o := c_opt c in
  {| c_opt := {| o_lazy := b; o_select := o_select o; o_first := o_first o; o_last := o_last o; o_sum_frames := o_sum_frames o; o_sum_detectors := o_sum_detectors o; o_rebin := o_rebin o;
                 o_dtype := o_dtype o; o_stack := o_stack o |};
     c_file := c_file c; c_version := c_version c; c_stream := c_stream c; c_image := c_image c; c_groups := c_groups c; c_labels := c_labels c |}.
Definition retyped (t : pystr) (g : signal) : signal :=
  {| s_data := match s_data g with Arr sh fl _ => Arr sh fl t | v => v end; s_axes := s_axes g; s_md := s_md g; s_om := s_om g; s_mapping := s_mapping g |}.
Lemma read_image_typed : forall b c key i s t g s', image_type b i = Ok t -> read_image E c key i s = Ok (g, s') -> read_image E (lazily b c) key i s = Ok (retyped t g, s').
Proof.
  intros b c key i s t g s' T H. unfold read_image in *. cbv zeta in *. unfold lazily. cbn [c_opt o_lazy o_stack c_image c_labels c_groups] in *.
  change (original E {| c_opt := _; c_file := c_file c; c_version := c_version c; c_stream := c_stream c; c_image := c_image c; c_groups := c_groups c; c_labels := c_labels c |} (i_meta i)) with (original E c (i_meta i)).
  destruct (original E c (i_meta i)) as [om|]; cbn [bind] in *; [|discriminate].
  destruct (detector_information E om) as [info|]; cbn [bind] in *; [|discriminate].
  match goal with |- bind (image_detector ?c' key info (r_detector s)) _ = _ => change (image_detector c' key info (r_detector s)) with (image_detector c key info (r_detector s)) end.
  destruct (image_detector c key info (r_detector s)) as [det|]; cbn [bind] in *; [|discriminate].
  destruct (i_shape i) as [|ys [|xs [|n [|]]]]; try discriminate. rewrite T. cbn [bind].
  destruct (image_type (o_lazy (c_opt c)) i) as [t'|]; cbn [bind] in *; [|discriminate].
  destruct (item (JDict om) (str "BinaryResult")) as [br|]; cbn [bind] in *; [|discriminate].
  destruct (get br (str "PixelSize")) as [size|]; cbn [bind] in *; [|discriminate].
  destruct (get br (str "Offset")) as [offset|]; cbn [bind] in *; [|discriminate].
  destruct (get br (str "PixelUnitX")) as [units|]; cbn [bind] in *; [|discriminate].
  destruct (if o_stack (c_opt c) || c_image c then (n, roll (Real 0) ys xs n (i_flat i)) else (Z.min 1 n, firstn (Z.to_nat (Z.min 1 n * ys * xs)) (roll (Real 0) ys xs n (i_flat i)))) as [m fl].
  match type of H with bind ?r _ = _ => destruct r as [first|]; cbn [bind] in *; [|discriminate] end.
  destruct (units_text (default units (JStr []))) as [ut|]; cbn [bind] in *; [|discriminate].
  match type of H with bind ?r _ = _ => destruct r as [[[[[sy oy] sx] ox] u]|]; cbn [bind] in *; [|discriminate] end.
  match goal with |- bind (metadata_of E ?c' det [] om) _ = _ => change (metadata_of E c' det [] om) with (metadata_of E c det [] om) end.
  destruct (metadata_of E c det [] om) as [md|]; cbn [bind] in *; [|discriminate].
  match type of H with bind ?r _ = _ => destruct r as [om'|]; cbn [bind] in *; [|discriminate] end.
  match goal with |- bind (mapping_of ?c' false false) _ = _ => change (mapping_of c' false false) with (mapping_of c false false) end.
  destruct (mapping_of c false false) as [mp|]; cbn [bind] in *; [|discriminate]. injection H as <- <-. reflexivity.
Qed.
(** Reading lazily gives the same image; only the type of the elements can differ *)
Theorem C123_lazy : forall c key i s g s', read_image E (lazily false c) key i s = Ok (g, s') ->
  exists t, read_image E (lazily true c) key i s = Ok (retyped t g, s').
Proof.
  intros c key i s g s' H. assert (T : exists t, image_type true i = Ok t).
  { unfold image_type. destruct (i_names i) as [[a b]|]; [|eexists; reflexivity]. destruct (existsb _ _); eexists; reflexivity. }
  destruct T as [t T]. exists t. exact (read_image_typed true _ _ _ _ _ _ _ T H).
Qed.
(** pairs of other names cannot be read eagerly, all other images can when they can be read lazily *)
Theorem C123_eager : forall c key i s g s', read_image E (lazily true c) key i s = Ok (g, s') ->
  (i_names i = None \/ exists p, i_names i = Some p /\ In p [(str "realFloatHalfEven", str "imagFloatHalfEven"); (str "realFloatHalfOdd", str "imagFloatHalfOdd"); (str "realFloat", str "imagFloat")]) ->
  exists t, read_image E (lazily false c) key i s = Ok (retyped t g, s').
Proof.
  intros c key i s g s' H K. assert (T : exists t, image_type false i = Ok t).
  { unfold image_type. destruct K as [-> |([a b] & -> & I)]; [eexists; reflexivity|].
    replace (existsb _ _) with true; [eexists; reflexivity|]. symmetry. apply existsb_exists. exists (a, b). split; [exact I|]. cbn [fst snd]. rewrite !eqb_str_refl. reflexivity. }
  destruct T as [t T]. exists t. exact (read_image_typed false _ _ _ _ _ _ _ T H).
Qed.
End Image.
Print Assumptions C123_calibration.
Print Assumptions C123_data.
Print Assumptions C123_axes.
Print Assumptions C123_calibrated.
Print Assumptions C123_title.
Print Assumptions C123_lazy.
Print Assumptions C123_eager.
