(** Properties C83 and C84: names, numbers and metadata of whole Renishaw files. *)
From Coq Require Import QArith Qpower.
From Verif Require Import Base Text Bytes Utf8 SfsModel SfsProps BcfUnpack HierModel HierProps RowMajor SurFloat SurQuantity RenModel RenBlocks RenPset RenData RenMeta RenDemo.
Local Open Scope Z_scope.

(** * Units and names (classes UnitType and MetadataTypeMulti of the reader) *)
Definition the_units : list (Z * pystr) :=
  [(0, str ""); (1, str "1/cm"); (2, str "nm"); (3, str "nm"); (4, str "eV"); (5, [181; 109]); (6, str "counts"); (7, str "electrons"); (8, str "mm"); (9, str "m"); (10, str "K"); (11, str "Pa"); (12, str "s"); (13, str "ms");
   (14, str "h"); (15, str "d"); (16, str "px"); (17, str ""); (18, str ""); (19, [176]); (20, str "rad"); (21, [176; 67]); (22, [176; 70]); (23, str "K/min"); (24, str "ns"); (25, [181; 115])].
Theorem C83_units : forall u, (forall s, In (u, s) the_units -> unit_text u = s) /\ (~ In u (map fst the_units) -> unit_text u = str "0").
Proof.
  intro u. split.
  - intros s H. unfold the_units in H. cbn [In] in H. repeat (destruct H as [H|H]; [injection H as <- <-; reflexivity|]). destruct H.
  - intro H. cbn [map fst the_units In] in H. unfold unit_text. replace (u =? 5) with false by lia. replace (u =? 19) with false by lia. replace (u =? 21) with false by lia. replace (u =? 22) with false by lia. replace (u =? 25) with false by lia. replace (_ && _) with false by lia. reflexivity.
Qed.
Definition signal_names : list (Z * string) := [(1, "Raman Shift"); (2, "Wavenumber"); (3, "Wavelength"); (5, "Wavelength")]%string.
Theorem C83_names : forall u, (forall s, In (u, s) signal_names -> signal_name u = str s) /\ (~ In u (map fst signal_names) -> signal_name u = str "Unknown").
Proof.
  intro u. split.
  - intros s H. cbn [signal_names In] in H. repeat (destruct H as [H|H]; [injection H as <- <-; reflexivity|]). destruct H.
  - intro H. cbn [map fst signal_names In] in H. unfold signal_name. replace (u =? 1) with false by lia. replace (u =? 2) with false by lia. replace (_ || _) with false by lia. reflexivity.
Qed.
Example C83_units_example : In (25, [181; 115]) the_units /\ ~ In 26 (map fst the_units) /\ ~ In 4 (map fst signal_names).
Proof. repeat split; cbn; intuition lia. Qed.

(** * Numbers *)
(** The order has the infinities at both ends; what is not a number is in no order *)
Definition infinity : Z := 255 * 2 ^ 23.
Theorem C83_infinite : forall a p, 0 <= a < 2 ^ 32 -> val32 a = Ok p -> above infinity a = true /\ above a (infinity + 2 ^ 31) = true /\ above a infinity = false /\ above (infinity + 2 ^ 31) a = false.
Proof.
  intros a p Ha Hp. unfold val32 in Hp. destruct (a mod 2 ^ 31 / 2 ^ 23 =? 255) eqn:E; [discriminate Hp|]. clear Hp. unfold above, gt32, nan32, order32, infinity. change ((255 * 2 ^ 23 + 2 ^ 31) mod 2 ^ 31) with (255 * 2 ^ 23). change (255 * 2 ^ 23 mod 2 ^ 31) with (255 * 2 ^ 23).
  assert (W := Z.mod_pos_bound a (2 ^ 31) ltac:(lia)). assert (L : a mod 2 ^ 31 < 255 * 2 ^ 23) by lia. assert (M : a = a mod 2 ^ 31 \/ a = 2 ^ 31 + a mod 2 ^ 31) by lia.
  change (2 ^ 31 <=? 255 * 2 ^ 23) with false. change (2 ^ 31 <=? 255 * 2 ^ 23 + 2 ^ 31) with true. cbn iota. destruct (2 ^ 31 <=? a) eqn:S; repeat split; lia.
Qed.
Theorem C83_nan : forall a b, 255 * 2 ^ 23 < a mod 2 ^ 31 -> above a b = false /\ above b a = false.
Proof. intros a b H. unfold above, gt32, nan32. replace (255 * 2 ^ 23 <? a mod 2 ^ 31) with true by lia. cbn [negb andb]. rewrite andb_false_r. split; reflexivity. Qed.
Example C83_infinite_example : val32 1065353216 = Ok (1 # 1)%Q /\ above infinity 1065353216 = true /\ above 1065353216 infinity = false /\ 255 * 2 ^ 23 < 2143289344 mod 2 ^ 31.
Proof. vm_compute. repeat split; reflexivity. Qed.
(** Numbers of double precision: sign, exponent, fraction *)
Definition two_to (e : Z) : Q := ((2 # 1) ^ e)%Q.
Lemma two_to_pos : forall e, 0 <= e -> (two_to e == inject_Z (2 ^ e))%Q.
Proof. intros e H. unfold two_to. rewrite Zpower_Qpower by exact H. reflexivity. Qed.
Lemma q2_value : forall m e, (q2 m e == inject_Z m * two_to e)%Q.
Proof.
  intros m e. unfold q2. rewrite Qred_correct. destruct (Z.le_gt_cases 0 e) as [P|P].
  - rewrite two_to_pos by exact P. unfold up. rewrite Z.max_r by lia. rewrite Z.max_l by lia. rewrite <- inject_Z_mult. reflexivity.
  - assert (E : (two_to e == / inject_Z (2 ^ (- e)))%Q). { rewrite <- two_to_pos by lia. unfold two_to. rewrite <- Qpower_opp. rewrite Z.opp_involutive. reflexivity. }
    rewrite E. unfold up. rewrite Z.max_l by lia. rewrite Z.max_r by lia. assert (K : 0 < 2 ^ (- e)) by (apply Z.pow_pos_nonneg; lia). change (2 ^ 0) with 1. rewrite Z.mul_1_r. rewrite Qmake_Qdiv. rewrite Z2Pos.id by exact K. reflexivity.
Qed.
Definition sign_of (s : bool) (m : Z) : Z := if s then - m else m.
Theorem C83_double : forall (s : bool) e m, 0 <= e < 2047 -> 0 <= m < 2 ^ 52 ->
  exists q, val64 ((if s then 2 ^ 63 else 0) + e * 2 ^ 52 + m) = Ok q /\ (q == inject_Z (sign_of s (if (e =? 0)%Z then m else 2 ^ 52 + m)%Z) * two_to (if (e =? 0)%Z then -1074 else e - 1075)%Z)%Q.
Proof.
  intros s e m He Hm. unfold val64. set (w := (if s then 2 ^ 63 else 0) + e * 2 ^ 52 + m). assert (A : w mod 2 ^ 63 = e * 2 ^ 52 + m) by (unfold w; destruct s; [symmetry; apply (Z.mod_unique _ _ 1); lia|apply Z.mod_small; lia]).
  rewrite A. assert (D : (e * 2 ^ 52 + m) / 2 ^ 52 = e) by (symmetry; apply (Z.div_unique _ _ _ m); lia). assert (R : (e * 2 ^ 52 + m) mod 2 ^ 52 = m) by (symmetry; apply (Z.mod_unique _ _ e); lia). rewrite D, R. replace (e =? 2047) with false by lia.
  assert (S : (2 ^ 63 <=? w) = s) by (unfold w; destruct s; lia). rewrite S. destruct (e =? 0); eexists; (split; [reflexivity|]); rewrite q2_value; unfold sign_of; [reflexivity|]. rewrite (Z.add_comm m). reflexivity.
Qed.
Example C83_double_example : val64 (2 ^ 63 + 1023 * 2 ^ 52 + 2 ^ 51) = Ok (-3 # 2)%Q.
Proof. vm_compute. reflexivity. Qed.
(** An origin whose note is no text is no axis of a series *)
Theorem C83_note : forall n t u note data r, In t known_types -> t <> 16 -> t <> 17 -> 0 <= u < 2 ^ 32 -> List.length note = 16%nat -> utf8_decode note = Err UnicodeError -> zlen data = n -> 0 < n -> Forall (word_ok 63) data ->
  exists o, parse_origins 1 n [] (orig_bytes {| r_type := t; r_unit := u; r_note := note; r_data := data |} ++ r) = Ok [o] /\ series_axis o = Err KeyError.
Proof.
  intros n t u note data r T T16 T17 U L A D N W. cbn [parse_origins]. unfold orig_bytes. cbn [r_type r_unit r_note r_data]. rewrite <- !app_assoc. destruct (known_in _ T) as [KT RT]. rewrite quad_front by lia. cbn [bind]. rewrite KT. rewrite quad_front by exact U. cbn [bind].
  assert (Z16 : 16 = zlen note) by (unfold zlen; lia). assert (F16 : forall r', firstz 16 (note ++ r') = note) by (intro; rewrite Z16; apply firstz_front). assert (S16 : forall r', skipz 16 (note ++ r') = r') by (intro; rewrite Z16; apply skipz_front). rewrite F16, S16, A. cbn [is_ok].
  pose proof (words_read_front 8 data r ltac:(lia)) as R. change (Z.of_nat 8) with 8 in R. rewrite D in R. rewrite R by (eapply Forall_impl; [|exact W]; unfold word_ok; intros; lia). clear R. replace (t =? 16) with false by lia. replace (t =? 17) with false by lia. cbn [orb].
  destruct (is_time t).
  - destruct data as [|x l]; [unfold zlen in D; cbn in D; lia|]. cbn [map bind put_origin]. eexists. split; reflexivity.
  - cbn [bind put_origin]. eexists. split; reflexivity.
Qed.
Example C83_note_example : utf8_decode (repeat 255 16) = Err UnicodeError /\ In 11 known_types.
Proof. split; [reflexivity|vm_compute; tauto]. Qed.

(** * Metadata of a whole file *)
Definition set_keys : list string := ["WXIS_0"; "WXCS_0"; "WXDA_0"; "ZLDC_0"; "WARP_0"; "WARP_1"]%string.
Lemma metadata_keep : forall info f id om um st k, parse_metadata info f id (om, um) = Ok st -> k <> str id -> lookup k (fst st) = lookup k om.
Proof.
  intros info f id om um st k H N. unfold parse_metadata in H. destruct (pset_size info id f) as [[size b]|e]; [|discriminate H]. cbn [bind] in H. destruct (size =? 0); [injection H as <-; reflexivity|]. destruct (read_pset (str id) size um b) as [[[d um'] b']|e]; [|discriminate H]. cbn [bind] in H. injection H as <-. cbn [fst]. rewrite lookup_put. rewrite (proj2 (eqb_str_neq k (str id)) N). reflexivity.
Qed.
Lemma all_keep : forall info f ids om um st k, parse_all info f ids (om, um) = Ok st -> ~ In k (map str ids) -> lookup k (fst st) = lookup k om.
Proof.
  intros info f ids. induction ids as [|id ids IH]; intros om um st k H N; [injection H as <-; reflexivity|]. cbn [parse_all] in H. destruct (parse_metadata info f id (om, um)) as [[om' um']|e] eqn:E; [|discriminate H]. cbn [bind] in H. cbn [map In] in N. rewrite (IH _ _ _ _ H) by tauto. apply (metadata_keep _ _ _ _ _ _ _ E). intro K. apply N. left. symmetry. exact K.
Qed.
Lemma all_found : forall bs id l ids om um st, Forall blk_ok bs -> NoDup (map key_of bs) -> has bs id (pset_body l) -> set_ok l -> l <> [] -> In id ids -> NoDup (map str ids) ->
  parse_all (table_of 0 bs) (file_of bs) ids (om, um) = Ok st -> lookup (str id) (fst st) = Some (Dict (dictionary (items l))).
Proof.
  intros bs id l ids. induction ids as [|i ids IH]; intros om um st OK ND HB SO NE I NS H; [destruct I|]. cbn [parse_all] in H. cbn [map] in NS. apply NoDup_cons_iff in NS. destruct NS as [N1 N2]. destruct I as [-> | I].
  - rewrite (C84_block bs id l om um OK ND HB SO NE) in H. cbn [bind] in H. rewrite (all_keep _ _ _ _ _ _ _ H N1). rewrite lookup_put, eqb_str_refl. reflexivity.
  - destruct (parse_metadata (table_of 0 bs) (file_of bs) i (om, um)) as [[om' um']|e] eqn:E; [|discriminate H]. cbn [bind] in H. apply (IH _ _ _ OK ND HB SO NE I N2 H).
Qed.
Lemma wxdm_keep : forall om um st k, map_wxdm (om, um) = Ok st -> k <> top -> lookup k (fst st) = lookup k om.
Proof.
  intros om um st k H N. unfold map_wxdm in H. change (str "WXDM_0") with top in H. destruct (lookup top om) as [d|]; [|injection H as <-; reflexivity]. destruct (lookup top um) as [u|]; [|discriminate H]. destruct (lookup (str "sub0") _) as [v|] in H; [|discriminate H]. destruct v; try discriminate H. destruct d; try discriminate H. destruct (lookup (str "subdicts") _) as [subs|] in H; [|discriminate H].
  injection H as <-. cbn [fst]. rewrite lookup_put. rewrite (proj2 (eqb_str_neq k top) N). reflexivity.
Qed.
Lemma wxdm_found : forall om um st d, map_wxdm (om, um) = Ok st -> lookup top om = Some (Dict d) -> exists subs, lookup top (fst st) = Some (Dict (put (str "extra_matches") subs d)).
Proof.
  intros om um st d H N. unfold map_wxdm in H. change (str "WXDM_0") with top in H. rewrite N in H. destruct (lookup top um) as [u|]; [|discriminate H]. destruct (lookup (str "sub0") _) as [v|] in H; [|discriminate H]. destruct v; try discriminate H. destruct (lookup (str "subdicts") _) as [subs|] in H; [|discriminate H].
  injection H as <-. cbn [fst]. rewrite lookup_put, eqb_str_refl. exists subs. reflexivity.
Qed.
Lemma map_keep : forall info f id om um st k, parse_map info f id (om, um) = Ok st -> k <> str id -> lookup k (fst st) = lookup k om.
Proof.
  intros info f id om um st k H N. unfold parse_map in H. destruct (find_block id info) as [bl|]; [|injection H as <-; reflexivity]. destruct (pset_size info id f) as [[size b]|e]; [|discriminate H]. cbn [bind] in H. destruct (read_pset (str id) size um b) as [[[d um'] b']|e]; [|discriminate H]. cbn [bind] in H. destruct (read_u64 b') as [[n b'']|e]; [|discriminate H]. cbn [bind] in H. destruct (read_single F4 n b'') as [[v b3]|e]; [|discriminate H]. cbn [bind] in H.
  destruct d; try discriminate H. injection H as <-. cbn [fst]. rewrite lookup_put. rewrite (proj2 (eqb_str_neq k (str id)) N). reflexivity.
Qed.
Lemma text_keep : forall info f om om' k, parse_text info f om = Ok om' -> k <> str "TEXT_0" -> lookup k om' = lookup k om.
Proof.
  intros info f om om' k H N. unfold parse_text in H. destruct (find_block "TEXT_0" info) as [[pos size]|]; [|injection H as <-; reflexivity]. destruct (read_utf8 (size - 16) (skipz pos f)) as [[s b]|e]; [|discriminate H]. injection H as <-. rewrite lookup_put. rewrite (proj2 (eqb_str_neq k (str "TEXT_0")) N). reflexivity.
Qed.
(** The parts of the reader that make up the metadata *)
Lemma original_parts : forall fit mean uniform bs sig, Forall blk_ok bs -> NoDup (map key_of bs) -> read_file fit mean uniform (file_of bs) = Ok sig ->
  exists om0 om1 um1 om2 um2 om3 um3 om4 um4, parse_header (table_of 0 bs) (file_of bs) = Ok (s_header sig) /\ parse_ylist (table_of 0 bs) (s_header sig) (file_of bs) [] = Ok om0 /\
  parse_all (table_of 0 bs) (file_of bs) (set_keys ++ ["WXDM_0"%string]) (om0, []) = Ok (om1, um1) /\ map_wxdm (om1, um1) = Ok (om2, um2) /\ parse_map (table_of 0 bs) (file_of bs) "MAP_0" (om2, um2) = Ok (om3, um3) /\ parse_map (table_of 0 bs) (file_of bs) "MAP_1" (om3, um3) = Ok (om4, um4) /\
  parse_text (table_of 0 bs) (file_of bs) om4 = Ok (s_original sig) /\ map_acquisition (s_original sig) = Ok (s_acquisition sig).
Proof.
  intros fit mean uniform bs sig OK ND H. unfold read_file in H. pose proof (C81_blocks bs OK ND) as B. unfold locate in B. rewrite B in H. cbn [bind] in H.
  destruct (parse_header _ _) as [h|e] eqn:E0; [|discriminate H]. cbn [bind] in H. destruct (parse_ylist _ _ _ _) as [om0|e] eqn:E1; [|discriminate H]. cbn [bind] in H. destruct (parse_all _ _ _ _) as [[om1 um1]|e] eqn:E2; [|discriminate H]. cbn [bind] in H. destruct (map_wxdm _) as [[om2 um2]|e] eqn:E3; [|discriminate H]. cbn [bind] in H.
  destruct (parse_map _ _ "MAP_0" _) as [[om3 um3]|e] eqn:E4; [|discriminate H]. cbn [bind] in H. destruct (parse_map _ _ "MAP_1" _) as [[om4 um4]|e] eqn:E5; [|discriminate H]. cbn [bind] in H. destruct (parse_text _ _ _) as [om5|e] eqn:E6; [|discriminate H]. cbn [bind] in H.
  destruct (parse_xlist _ _ _ _ _) as [[sg rv]|e]; [|discriminate H]. cbn [bind] in H. destruct (parse_orgn _ _ _) as [nv|e]; [|discriminate H]. cbn [bind] in H. destruct (parse_wmap _ _) as [w|e]; [|discriminate H]. cbn [bind] in H. destruct (nav_axes _ _ _) as [na|e]; [|discriminate H]. cbn [bind] in H. destruct (all_axes _ _) as [ax|e]; [|discriminate H]. cbn [bind] in H.
  destruct (parse_data _ _ _) as [da|e]; [|discriminate H]. cbn [bind] in H. destruct (reshape _ _ _ _ _ _) as [rs|e]; [|discriminate H]. cbn [bind] in H. destruct (map_acquisition om5) as [q|e] eqn:E7; [|discriminate H]. cbn [bind] in H. injection H as <-. cbn [s_header s_original s_acquisition].
  exists om0, om1, um1, om2, um2, om3, um3, om4, um4. repeat split; assumption.
Qed.
Lemma keys_apart : NoDup (map str (set_keys ++ ["WXDM_0"%string])).
Proof. cbn [map app set_keys]. repeat (constructor; [cbn [In]; intro K; repeat (destruct K as [K|K]; [vm_compute in K; discriminate K|]); destruct K|]). constructor. Qed.
Ltac apart := let K := fresh in intro K; vm_compute in K; discriminate K.
Section Whole.
  Variable fit : list Z -> number * number.
  Variable mean : list Z -> Z.
  Variable uniform : bool.
  Variable bs : list blk.
  Variable sig : signal.
  Hypothesis OK : Forall blk_ok bs.
  Hypothesis ND : NoDup (map key_of bs).
  Hypothesis READ : read_file fit mean uniform (file_of bs) = Ok sig.
  (** Every property set is under the name of its block *)
  Theorem C84_sets : forall id l, In id set_keys -> has bs id (pset_body l) -> set_ok l -> l <> [] -> lookup (str id) (s_original sig) = Some (Dict (dictionary (items l))).
  Proof.
    intros id l I HB SO NE. destruct (original_parts _ _ _ _ _ OK ND READ) as (om0 & om1 & um1 & om2 & um2 & om3 & um3 & om4 & um4 & _ & _ & E2 & E3 & E4 & E5 & E6 & _).
    assert (D : str id <> str "TEXT_0" /\ str id <> str "MAP_1" /\ str id <> str "MAP_0" /\ str id <> top) by (cbn [set_keys In] in I; repeat (destruct I as [<-|I]; [repeat split; apart|]); destruct I). destruct D as (D1 & D2 & D3 & D4).
    rewrite (text_keep _ _ _ _ _ E6 D1). 
    change om4 with (fst (om4, um4)). rewrite (map_keep _ _ _ _ _ _ _ E5 D2). change om3 with (fst (om3, um3)). rewrite (map_keep _ _ _ _ _ _ _ E4 D3). change om2 with (fst (om2, um2)). rewrite (wxdm_keep _ _ _ _ E3 D4).
    change om1 with (fst (om1, um1)). apply (all_found bs id l (set_keys ++ ["WXDM_0"%string]) om0 [] (om1, um1) OK ND HB SO NE); [apply in_or_app; left; exact I| |exact E2]. exact keys_apart.
  Qed.
  (** ... the one of measurements with its inner sets *)
  Theorem C84_measurement : forall l, has bs "WXDM_0" (pset_body l) -> set_ok l -> l <> [] -> exists subs, lookup (str "WXDM_0") (s_original sig) = Some (Dict (put (str "extra_matches") subs (dictionary (items l)))).
  Proof.
    intros l HB SO NE. destruct (original_parts _ _ _ _ _ OK ND READ) as (om0 & om1 & um1 & om2 & um2 & om3 & um3 & om4 & um4 & _ & _ & E2 & E3 & E4 & E5 & E6 & _).
    assert (L : lookup top (fst (om1, um1)) = Some (Dict (dictionary (items l)))) by (apply (all_found bs "WXDM_0" l (set_keys ++ ["WXDM_0"%string]) om0 [] (om1, um1) OK ND HB SO NE); [apply in_or_app; right; left; reflexivity|exact keys_apart|exact E2]).
    destruct (wxdm_found _ _ _ _ E3 L) as [subs S]. exists subs. rewrite (text_keep _ _ _ _ _ E6) by apart. change om4 with (fst (om4, um4)). rewrite (map_keep _ _ _ _ _ _ _ E5) by apart. change om3 with (fst (om3, um3)). rewrite (map_keep _ _ _ _ _ _ _ E4) by apart. exact S.
  Qed.
  (** ... maps of results, with their numbers *)
  Theorem C84_maps : forall id l ws, id = "MAP_0"%string \/ id = "MAP_1"%string -> has bs id (pset_body l ++ le 8 (zlen ws) ++ words 4 ws) -> set_ok l -> Forall (word_ok 32) ws -> zlen ws <> 1 -> zlen ws < 2 ^ 63 ->
    lookup (str id) (s_original sig) = Some (Dict (put (str "data") (Nums F4 ws) (put (str "npoints") (Num I8 (zlen ws)) (dictionary (items l))))).
  Proof.
    intros id l ws I HB SO W N1 NL. destruct (original_parts _ _ _ _ _ OK ND READ) as (om0 & om1 & um1 & om2 & um2 & om3 & um3 & om4 & um4 & _ & _ & _ & _ & E4 & E5 & E6 & _).
    destruct I as [-> | ->]; rewrite (text_keep _ _ _ _ _ E6) by apart; change om4 with (fst (om4, um4)).
    - rewrite (map_keep _ _ _ _ _ _ _ E5) by apart. rewrite (C84_map bs _ l ws om2 um2 OK ND HB SO W N1 NL) in E4. injection E4 as <- _. rewrite lookup_put, eqb_str_refl. reflexivity.
    - rewrite (C84_map bs _ l ws om3 um3 OK ND HB SO W N1 NL) in E5. injection E5 as <- _. cbn [fst]. rewrite lookup_put, eqb_str_refl. reflexivity.
  Qed.
  (** ... the comment *)
  Theorem C84_comment : forall s, (exists b, In b bs /\ key_of b = str "TEXT_0" /\ b_body b = text_bytes s) -> text_ok s -> lookup (str "TEXT_0") (s_original sig) = Some (Txt s).
  Proof.
    intros s HB T. destruct (original_parts _ _ _ _ _ OK ND READ) as (om0 & om1 & um1 & om2 & um2 & om3 & um3 & om4 & um4 & _ & _ & _ & _ & _ & _ & E6 & _).
    rewrite (C84_text bs s om4 OK ND HB T) in E6. injection E6 as <-. rewrite lookup_put, eqb_str_refl. reflexivity.
  Qed.
  (** ... and the second list of numbers *)
  Theorem C84_ylist : forall t u ys, has bs "YLST_0" (le 4 t ++ le 4 u ++ words 4 ys) -> word_ok 32 t -> word_ok 32 u -> Forall (word_ok 32) ys -> zlen ys = h_ylist (s_header sig) -> zlen ys <> 1 ->
    lookup (str "YLST_0") (s_original sig) = Some (Dict [(str "name", Txt (signal_name u)); (str "units", Txt (unit_text u)); (str "size", Num I8 (zlen ys)); (str "data", Nums F4 ys)]).
  Proof.
    intros t u ys HB Ht Hu W L N1. destruct (original_parts _ _ _ _ _ OK ND READ) as (om0 & om1 & um1 & om2 & um2 & om3 & um3 & om4 & um4 & _ & E1 & E2 & E3 & E4 & E5 & E6 & _).
    rewrite (text_keep _ _ _ _ _ E6) by apart. change om4 with (fst (om4, um4)). rewrite (map_keep _ _ _ _ _ _ _ E5) by apart. change om3 with (fst (om3, um3)). rewrite (map_keep _ _ _ _ _ _ _ E4) by apart. change om2 with (fst (om2, um2)). rewrite (wxdm_keep _ _ _ _ E3) by apart. change om1 with (fst (om1, um1)).
    rewrite (all_keep _ _ _ _ _ _ _ E2) by (cbn [map app set_keys In]; intro K; repeat (destruct K as [K|K]; [vm_compute in K; discriminate K|]); destruct K).
    unfold parse_ylist in E1. destruct (block_at bs _ _ OK ND HB) as (pos & size & r & F & S & _). rewrite F in E1. unfold parse_list in E1. rewrite S in E1. rewrite <- !app_assoc in E1. rewrite quad_front in E1 by exact Ht. cbn [bind snd] in E1. rewrite quad_front in E1 by exact Hu. cbn [bind] in E1. rewrite <- L in E1. unfold read_single in E1. change (kind_width F4) with 4 in E1. rewrite four_words in E1 by exact W.
    cbv beta iota zeta in E1. replace (zlen ys =? 1) with false in E1 by lia. cbn [bind fst] in E1. injection E1 as <-. cbn [put lookup]. rewrite eqb_str_refl. unfold kind_value. rewrite map_id. reflexivity.
  Qed.
  (** The acquisition comes from this metadata *)
  Theorem C84_from_metadata : map_acquisition (s_original sig) = Ok (s_acquisition sig).
  Proof. destruct (original_parts _ _ _ _ _ OK ND READ) as (om0 & om1 & um1 & om2 & um2 & om3 & um3 & om4 & um4 & _ & _ & _ & _ & _ & _ & _ & E). exact E. Qed.
End Whole.
(** A file with all of these blocks *)
Definition full_file : list blk :=
  let h := header_body 3 4 4 3 3 in
  block_of "WDF1" 1 (firstn 68 h ++ le 4 2 ++ skipn 72 h) :: tl map_file ++
  [block_of "YLST" 0 (le 4 1 ++ le 4 5 ++ words 4 [one32; two32]); block_of "WXIS" 0 (pset_body demo_set); block_of "WARP" 1 (pset_body [(4, Name (str "b")); (4, Number I2 9)]);
   block_of "WXDM" 0 (pset_body [(7, Name (str "Accumulations")); (12, Nested [(7, Number I4 3)])]); block_of "MAP " 0 (pset_body [(1, Name (str "Label")); (1, Text (str "A"))] ++ le 8 2 ++ words 4 [one32; four32]);
   block_of "MAP " 1 (pset_body [(1, Name (str "Label")); (1, Text (str "B"))] ++ le 8 2 ++ words 4 [two32; four32]); block_of "TEXT" 0 (text_bytes (str "a comment"))].
Example C84_full_blocks : Forall blk_ok full_file.
Proof. repeat (apply Forall_cons; [repeat split; try (cbn; lia); repeat constructor; cbn; lia|]). constructor. Qed.
Example C84_full_keys : NoDup (map key_of full_file).
Proof. vm_compute. repeat constructor; cbn [In]; intro K; repeat (destruct K as [K|K]; [discriminate K|]); destruct K. Qed.
Example C84_full_example : match read_file nofit nomean false (file_of full_file) with
  | Ok sig => map fst (s_original sig) = map str ["YLST_0"; "WXIS_0"; "WARP_1"; "WXDM_0"; "MAP_0"; "MAP_1"; "TEXT_0"]%string /\ lookup (str "TEXT_0") (s_original sig) = Some (Txt (str "a comment")) /\
      lookup (str "WARP_1") (s_original sig) = Some (Dict [(str "b", Num I2 9)]) /\ lookup (str "MAP_1") (s_original sig) = Some (Dict [(str "Label", Txt (str "B")); (str "npoints", Num I8 2); (str "data", Nums F4 [two32; four32])]) /\
      lookup (str "YLST_0") (s_original sig) = Some (Dict [(str "name", Txt (str "Wavelength")); (str "units", Txt [181; 109]); (str "size", Num I8 2); (str "data", Nums F4 [one32; two32])]) /\
      lookup (str "WXDM_0") (s_original sig) = Some (Dict [(str "extra_matches", Dict [(str "sub0", Dict [(str "Accumulations", Num I4 3)])])])
  | Err _ => False end.
Proof. vm_compute. repeat split; reflexivity. Qed.

Print Assumptions C83_units.
Print Assumptions C83_names.
Print Assumptions C83_infinite.
Print Assumptions C83_nan.
Print Assumptions C83_double.
Print Assumptions C83_note.
Print Assumptions C84_sets.
Print Assumptions C84_measurement.
Print Assumptions C84_maps.
Print Assumptions C84_comment.
Print Assumptions C84_ylist.
Print Assumptions C84_from_metadata.
