(** Pictures in Bruker files: theorems of claim C135 about [BrkModel]. *)
From Coq Require Import QArith.
From Verif Require Import Base Bytes Text HierModel SfsModel BcfModel XmlModel BrkModel.
Local Open Scope Z_scope.

(** * What is meant *)
(** The first child with a tag; the first ClassInstance of a type *)
Definition first_such (P : xml -> Prop) (e c : xml) : Prop := exists a b, x_children e = a ++ c :: b /\ P c /\ Forall (fun y => ~ P y) a.
Definition tagged (t : pystr) (c : xml) : Prop := x_tag c = t.
Definition child (t : string) (e c : xml) : Prop := first_such (tagged (str t)) e c.
Definition no_child (t : string) (e : xml) : Prop := forall c, In c (x_children e) -> x_tag c <> str t.
Definition typed (t : string) (c : xml) : Prop := x_tag c = str "ClassInstance" /\ lookup (str "Type") (x_attrs c) = Some (str t).
Definition nameless (c : xml) : Prop := lookup (str "Name") (x_attrs c) = None \/ lookup (str "Name") (x_attrs c) = Some [].
(** Numbers stored in little endian order, [n] bytes each *)
Definition stored (n : nat) (raw l : list Z) : Prop := exists parts, raw = List.concat parts /\ Forall2 (fun b x => List.length b = n /\ le_val b = x) parts l.
Definition item_size (t : pystr) (n : nat) : Prop :=
  t = str "1" /\ n = 1%nat \/ t = str "2" /\ n = 2%nat \/ t = str "4" /\ n = 4%nat \/ t = str "8" /\ n = 8%nat.
Definition black (l : list Z) : Prop := Forall (fun x => x = 0) l.
Definition spacing (k : string) (sem : dict) (c : scale) : Prop := match lookup (str k) sem with Some v => c = SGiven v | None => c = SOne end.
Definition units (sem : dict) (u : pystr) : Prop := (lookup (str "DX") sem = None /\ u = str "pix") \/ (lookup (str "DX") sem <> None /\ u = [181; 109]).
Definition title_of (img : xml) (t : option pystr) : Prop :=
  (no_child "Description" img /\ t = None) \/ (exists d, child "Description" img d /\ x_text d <> [] /\ t = Some (x_text d)) \/
  (exists d, child "Description" img d /\ x_text d = [] /\ t = Some (str "None")).
(** What one plane holds, and the picture made of it *)
Definition holds (E : env) (n : nat) (img : xml) (l : list Z) : Prop := exists d, child "Data" img d /\ x_text d <> [] /\ stored n (e_base64 E (x_text d)) l.
Definition shows (s : scope) (h w : Z) (img : xml) (l : list Z) (m : option (Q * Q * Q * Q)) (p : picture) : Prop :=
  p_data p = l /\ zlen l = h * w /\
  (exists sy sx u, p_axes p = [{| a_name := "height"; a_size := h; a_offset := None; a_scale := sy; a_units := u; a_nav := None |};
                               {| a_name := "width"; a_size := w; a_offset := None; a_scale := sx; a_units := u; a_nav := None |}] /\
     spacing "DY" (sc_sem s) sy /\ spacing "DX" (sc_sem s) sx /\ units (sc_sem s) u) /\
  p_mode p = sc_mode s /\ p_beam p = sc_hv s /\ p_mag p = lookup (str "Mag") (sc_sem s) /\ p_sample p = sc_name s /\ title_of img (p_title p) /\ p_marker p = m.
(** The pictures of the planes, in their order, without those that are black *)
Inductive kept (E : env) (s : scope) (h w : Z) (n : nat) (m : option (Q * Q * Q * Q)) : list xml -> list picture -> Prop :=
| kept_nil : kept E s h w n m [] []
| kept_black img imgs ps l : holds E n img l -> black l -> kept E s h w n m imgs ps -> kept E s h w n m (img :: imgs) ps
| kept_more img imgs p ps l : holds E n img l -> ~ black l -> shows s h w img l m p -> kept E s h w n m imgs ps -> kept E s h w n m (img :: imgs) (p :: ps).

(** * Finding *)
Lemma hd_filter : forall A (f : A -> bool) l, match hd_error (filter f l) with
  | Some c => exists a b, l = a ++ c :: b /\ f c = true /\ Forall (fun y => f y = false) a
  | None => Forall (fun y => f y = false) l end.
Proof.
  intros A f l. induction l as [|x l IH]; [constructor|]. cbn [filter]. destruct (f x) eqn:E.
  - cbn [hd_error]. exists [], l. repeat split; [exact E|constructor].
  - destruct (hd_error (filter f l)) as [c|]; [destruct IH as (a & b & -> & K & F); exists (x :: a), b; repeat split; [exact K|constructor; assumption]|constructor; assumption].
Qed.
Lemma find_one : forall s e, find [s] e = hd_error (filter (fits s) (x_children e)).
Proof. intros s e. unfold find. cbn [findall]. induction (filter (fits s) (x_children e)) as [|x l IH]; reflexivity. Qed.
Lemma fits_plain : forall t c, fits (t, []) c = true <-> tagged t c.
Proof. intros t c. unfold fits, tagged. cbn [fst snd forallb]. rewrite andb_true_r. apply eqb_str_spec. Qed.
Lemma fits_inst : forall t c, fits (inst t) c = true <-> typed t c.
Proof.
  intros t c. unfold fits, inst, typed. cbn [fst snd forallb]. rewrite andb_true_r, andb_true_iff, eqb_str_spec.
  destruct (lookup (str "Type") (x_attrs c)) as [v|]; [rewrite eqb_str_spec|]; intuition congruence.
Qed.
Lemma first_unique : forall P e c d, (forall x, P x \/ ~ P x) -> first_such P e c -> first_such P e d -> c = d.
Proof.
  intros P e c d _ (a & b & E & K & F) (a' & b' & E' & K' & F'). rewrite E in E'. clear E. revert a' E' F'. induction a as [|x a IH]; intros [|x' a'] E F'; cbn [app] in E.
  - congruence.
  - injection E as -> _. inversion F'; subst. contradiction.
  - injection E as <- _. inversion F; subst. contradiction.
  - injection E as -> E. inversion F; inversion F'; subst. apply (IH ltac:(assumption) a'); assumption.
Qed.
Lemma find_first : forall s (P : xml -> Prop) e, (forall c, fits s c = true <-> P c) -> match find [s] e with Some c => first_such P e c | None => forall c, In c (x_children e) -> ~ P c end.
Proof.
  intros s P e HP. rewrite find_one. pose proof (hd_filter _ (fits s) (x_children e)) as H. destruct (hd_error (filter (fits s) (x_children e))) as [c|].
  - destruct H as (a & b & E & K & F). exists a, b. repeat split; [exact E|apply HP; exact K|]. eapply Forall_impl; [|exact F]. cbn beta. intros y Y Z. apply HP in Z. congruence.
  - intros c I Z. apply HP in Z. rewrite Forall_forall in H. rewrite (H c I) in Z. discriminate.
Qed.
Lemma find_tag : forall t e, match find [(t, [])] e with Some c => first_such (tagged t) e c | None => forall c, In c (x_children e) -> ~ tagged t c end.
Proof. intros t e. apply find_first. intro c. apply fits_plain. Qed.
Lemma find_typed : forall t e, match find [inst t] e with Some c => first_such (typed t) e c | None => forall c, In c (x_children e) -> ~ typed t c end.
Proof. intros t e. apply find_first. intro c. apply fits_inst. Qed.
Lemma node_tag : forall t e c, node [(t, [])] e = Ok c -> first_such (tagged t) e c.
Proof. intros t e c H. unfold node in H. pose proof (find_tag t e) as K. destruct (find [(t, [])] e); [injection H as <-; exact K|discriminate]. Qed.
Lemma node_child : forall t e c, node [plain t] e = Ok c -> child t e c.
Proof. intros t e c H. apply node_tag. exact H. Qed.
Lemma first_not_none : forall P e c, first_such P e c -> ~ forall y, In y (x_children e) -> ~ P y.
Proof. intros P e c (a & b & E & K & _) H. apply (H c); [rewrite E; apply in_or_app; right; left; reflexivity|exact K]. Qed.
Lemma tag_node : forall t e c, first_such (tagged t) e c -> node [(t, [])] e = Ok c.
Proof.
  intros t e c H. unfold node. pose proof (find_tag t e) as K. destruct (find [(t, [])] e) as [d|]; [|exfalso; exact (first_not_none _ _ _ H K)].
  f_equal. apply (first_unique (tagged t) e); [|assumption..]. intro x. unfold tagged. destruct (eqb_str (x_tag x) t) eqn:Q; [left; apply eqb_str_spec; exact Q|right; apply eqb_str_neq; exact Q].
Qed.
Lemma child_node : forall t e c, child t e c -> node [plain t] e = Ok c.
Proof. intros t e c H. apply tag_node. exact H. Qed.

(** * Planes *)
Lemma groups_stored : forall n fuel raw k, (0 < n)%nat -> List.length raw = (k * n)%nat -> (k <= fuel)%nat -> stored n raw (groups fuel n raw).
Proof.
  intros n fuel. induction fuel as [|fuel IH]; intros raw k Hn L F.
  - assert (k = 0)%nat by lia. subst k. destruct raw; [|discriminate]. exists []. split; [reflexivity|constructor].
  - destruct raw as [|x raw]; [exists []; split; [reflexivity|constructor]|]. destruct k as [|k]; [discriminate|]. cbn [groups].
    assert (L1 : List.length (firstn n (x :: raw)) = n) by (rewrite firstn_length; lia).
    destruct (IH (skipn n (x :: raw)) k Hn) as (parts & E & K); [rewrite skipn_length; lia|lia|].
    exists (firstn n (x :: raw) :: parts). split; [cbn [List.concat]; rewrite <- E; symmetry; apply firstn_skipn|]. constructor; [split; [exact L1|reflexivity]|exact K].
Qed.
Lemma app_split : forall A (b b' c c' : list A), List.length b = List.length b' -> b ++ c = b' ++ c' -> b = b' /\ c = c'.
Proof. intros A b. induction b as [|x b IH]; intros [|y b'] c c' L E; try discriminate; cbn [app] in E; [split; [reflexivity|exact E]|]. injection E as -> E. injection L as L. destruct (IH b' c c' L E) as [-> ->]. split; reflexivity. Qed.
Lemma stored_unique : forall n raw l l', (0 < n)%nat -> stored n raw l -> stored n raw l' -> l = l'.
Proof.
  intros n raw l l' Hn (parts & E & F) (parts' & E' & F'). rewrite E in E'. clear E raw. revert parts' l' E' F'. induction F as [|b x parts l [Lb Vb] F IH]; intros parts' l' E F'.
  - destruct F' as [|b' x' p' t' [Lb' _] F']; [reflexivity|]. destruct b'; [cbn in Lb'; lia|discriminate].
  - destruct F' as [|b' x' p' t' [Lb' Vb'] F']; [destruct b; [cbn in Lb; lia|discriminate]|]. cbn [List.concat] in E.
    assert (EB : b = b' /\ List.concat parts = List.concat p').
    { apply app_split; [congruence|exact E]. }
    destruct EB as [-> EB]. f_equal; [congruence|]. apply (IH p'); assumption.
Qed.
Lemma buffer_spec : forall t raw l, frombuffer t raw = Ok l -> exists n, item_size t n /\ stored n raw l.
Proof.
  intros t raw l H. unfold frombuffer in H.
  destruct (eqb_str t (str "1")) eqn:E1; [|destruct (eqb_str t (str "2")) eqn:E2; [|destruct (eqb_str t (str "4")) eqn:E4; [|destruct (eqb_str t (str "8")) eqn:E8; [|discriminate]]]];
    cbn [bind] in H; match type of H with (if ?b then _ else _) = _ => destruct b eqn:EM; [|discriminate] end; injection H as <-;
    apply Z.eqb_eq in EM; unfold zlen in EM;
    [exists 1%nat|exists 2%nat|exists 4%nat|exists 8%nat]; (split; [unfold item_size|]);
    try (apply eqb_str_spec in E1); try (apply eqb_str_spec in E2); try (apply eqb_str_spec in E4); try (apply eqb_str_spec in E8); try tauto.
  - apply (groups_stored _ _ _ (List.length raw)); lia.
  - apply (groups_stored _ _ _ (Z.to_nat (Z.of_nat (List.length raw) / 2))); change (Z.to_nat 2) with 2%nat in *; pose proof (Z.div_mod (Z.of_nat (List.length raw)) 2 ltac:(lia)); lia.
  - apply (groups_stored _ _ _ (Z.to_nat (Z.of_nat (List.length raw) / 4))); change (Z.to_nat 4) with 4%nat in *; pose proof (Z.div_mod (Z.of_nat (List.length raw)) 4 ltac:(lia)); lia.
  - apply (groups_stored _ _ _ (Z.to_nat (Z.of_nat (List.length raw) / 8))); change (Z.to_nat 8) with 8%nat in *; pose proof (Z.div_mod (Z.of_nat (List.length raw)) 8 ltac:(lia)); lia.
Qed.
Lemma stored_len : forall n raw l, stored n raw l -> List.length raw = (List.length l * n)%nat.
Proof. intros n raw l (parts & -> & F). induction F as [|b x parts l [Lb _] F IH]; [reflexivity|]. cbn [List.concat List.length]. rewrite app_length, IH. lia. Qed.
Lemma buffer_ok : forall t n raw l, item_size t n -> stored n raw l -> frombuffer t raw = Ok l.
Proof.
  intros t n raw l I S. assert (Hn : (0 < n)%nat) by (unfold item_size in I; lia). pose proof (stored_len _ _ _ S) as L.
  assert (K : exists l', frombuffer t raw = Ok l' /\ stored n raw l').
  { unfold frombuffer. assert (G : stored n raw (groups (List.length raw) n raw)) by (apply (groups_stored _ _ _ (List.length l)); [exact Hn|exact L|rewrite L; nia]).
    assert (M : zlen raw mod Z.of_nat n =? 0 = true) by (unfold zlen; rewrite L, Nat2Z.inj_mul, Z_mod_mult; reflexivity).
    assert (C : forall k : Z, Z.of_nat n = k -> (if zlen raw mod k =? 0 then Ok (groups (List.length raw) (Z.to_nat k) raw) else Err ValueError) = Ok (groups (List.length raw) n raw)) by (intros k <-; rewrite M, Nat2Z.id; reflexivity).
    exists (groups (List.length raw) n raw). split; [|exact G].
    destruct I as [[-> ->]|[[-> ->]|[[-> ->]|[-> ->]]]]; [exact (C 1 eq_refl)|exact (C 2 eq_refl)|exact (C 4 eq_refl)|exact (C 8 eq_refl)]. }
  destruct K as (l' & K1 & K2). rewrite K1. f_equal. exact (stored_unique n raw _ _ Hn K2 S).
Qed.
Lemma any_black : forall l, any l = false <-> black l.
Proof.
  intro l. unfold any, black. induction l as [|x l IH]; cbn [existsb]; [split; [constructor|reflexivity]|]. rewrite orb_false_iff, IH. split.
  - intros [A B]. constructor; [lia|exact B].
  - intro H. inversion H; subst. split; [reflexivity|assumption].
Qed.
Lemma sized_fun : forall t n m, item_size t n -> item_size t m -> n = m.
Proof. intros t n m [[-> ->]|[[-> ->]|[[-> ->]|[-> ->]]]] [[A ->]|[[A ->]|[[A ->]|[A ->]]]]; try reflexivity; discriminate A. Qed.
Lemma units_spec : forall s, units (sc_sem s) (units_of s).
Proof. intro s. unfold units, units_of. destruct (lookup (str "DX") (sc_sem s)); [right; split; [discriminate|reflexivity]|left; split; reflexivity]. Qed.
Lemma spacing_spec : forall k s, spacing k (sc_sem s) (res_of k s).
Proof. intros k s. unfold spacing, res_of. destruct (lookup (str k) (sc_sem s)); reflexivity. Qed.
Lemma plane_spec : forall E s h w t n m img ps, item_size t n -> plane E s h w t m img = Ok ps ->
  exists l, holds E n img l /\ (black l /\ ps = [] \/ ~ black l /\ exists p, ps = [p] /\ shows s h w img l m p /\ 0 <= h /\ 0 <= w /\ p_file p = None).
Proof.
  intros E s h w t n m img ps HS H. unfold plane in H. destruct (node [plain "Data"] img) as [d|] eqn:ED; [cbn [bind] in H|discriminate].
  destruct (x_text d) as [|c r] eqn:ET; [discriminate|]. cbn [bind] in H. destruct (frombuffer t (e_base64 E (c :: r))) as [l|] eqn:EB; [cbn [bind] in H|discriminate].
  exists l. apply buffer_spec in EB. destruct EB as (n' & S' & ST). rewrite (sized_fun _ _ _ S' HS) in ST. split.
  - exists d. split; [apply node_child; exact ED|]. rewrite ET. split; [discriminate|exact ST].
  - destruct (any l) eqn:EA.
    + right. split; [intro B; apply any_black in B; congruence|]. destruct ((0 <=? h) && (0 <=? w) && (zlen l =? h * w)) eqn:EF; [|discriminate]. injection H as <-. eexists. split; [reflexivity|].
      assert (EF' : 0 <= h /\ 0 <= w /\ zlen l = h * w) by lia. destruct EF' as (F1 & F2 & F3). split; [|repeat split; assumption]. unfold shows. cbn [p_data p_axes p_mode p_beam p_mag p_sample p_title p_marker].
      split; [reflexivity|]. split; [exact F3|]. split.
      { exists (res_of "DY" s), (res_of "DX" s), (units_of s). repeat split; try apply spacing_spec; apply units_spec. }
      do 4 (split; [reflexivity|]). split; [|reflexivity]. pose proof (find_tag (str "Description") img) as FD. change (find [(str "Description", [])] img) with (find [plain "Description"] img) in FD. destruct (find [plain "Description"] img) as [y|].
      * right. destruct (x_text y) as [|u us] eqn:EY; [right|left]; exists y; (split; [exact FD|]); rewrite EY; split; try discriminate; reflexivity.
      * left. split; [exact FD|reflexivity].
    + left. split; [apply any_black; exact EA|congruence].
Qed.
Lemma planes_spec : forall E s e h w t n m idx ps, item_size t n -> planes E s e h w t m idx = Ok ps ->
  exists imgs, Forall2 (fun i img => first_such (tagged (str "Plane" ++ str_int i)) e img) idx imgs /\ kept E s h w n m imgs ps.
Proof.
  intros E s e h w t n m idx. induction idx as [|i idx IH]; intros ps HS H; cbn [planes] in H; [injection H as <-; exists []; split; constructor|].
  destruct (node [(str "Plane" ++ str_int i, [])] e) as [img|] eqn:EN; [cbn [bind] in H|discriminate]. destruct (plane E s h w t m img) as [a|] eqn:EP; [cbn [bind] in H|discriminate].
  destruct (planes E s e h w t m idx) as [b|] eqn:EQ; [cbn [bind] in H|discriminate]. injection H as <-. destruct (IH b HS eq_refl) as (imgs & F & K).
  exists (img :: imgs). split; [constructor; [apply node_tag; exact EN|exact F]|]. destruct (plane_spec _ _ _ _ _ _ _ _ _ HS EP) as (l & HH & [[B ->]|[B (p & -> & SH & _)]]).
  - eapply kept_black; eassumption.
  - eapply kept_more; eassumption.
Qed.

(** What a node of a picture gives: sizes from its numbers, and the planes that are not black *)
Theorem C135_pictures : forall E s e im, parse_image E s e false = Ok im ->
  exists w h z c n k imgs, child "Width" e w /\ parse_int (x_text w) = Ok (im_width im) /\ child "Height" e h /\ parse_int (x_text h) = Ok (im_height im) /\
    child "ItemSize" e z /\ child "PlaneCount" e c /\ parse_int (x_text c) = Ok n /\ (item_size (x_text z) k \/ n <= 0) /\
    Forall2 (fun i img => first_such (tagged (str "Plane" ++ str_int i)) e img) (zseq 0 (Z.to_nat n)) imgs /\
    kept E s (im_height im) (im_width im) k None imgs (im_pictures im).
Proof.
  intros E s e im H. unfold parse_image in H. cbn [bind] in H.
  destruct (node [plain "Width"] e) as [w|] eqn:EW; [cbn [bind] in H|discriminate]. unfold int_of in H. destruct (x_text w) as [|w1 w2] eqn:TW; [discriminate|]. destruct (parse_int (w1 :: w2)) as [wz|] eqn:PW; [cbn [bind] in H|discriminate].
  destruct (node [plain "Height"] e) as [h|] eqn:EH; [cbn [bind] in H|discriminate]. destruct (x_text h) as [|h1 h2] eqn:TH; [discriminate|]. destruct (parse_int (h1 :: h2)) as [hz|] eqn:PH; [cbn [bind] in H|discriminate].
  destruct (node [plain "ItemSize"] e) as [z|] eqn:EZ; [cbn [bind] in H|discriminate]. destruct (x_text z) as [|z1 z2] eqn:TZ; [discriminate|]. cbn [bind] in H.
  destruct (node [plain "PlaneCount"] e) as [c|] eqn:EC; [cbn [bind] in H|discriminate]. destruct (x_text c) as [|c1 c2] eqn:TC; [discriminate|]. destruct (parse_int (c1 :: c2)) as [n|] eqn:PC; [cbn [bind] in H|discriminate].
  destruct (planes E s e hz wz (z1 :: z2) None (zseq 0 (Z.to_nat n))) as [l|] eqn:EL; [cbn [bind] in H|discriminate]. injection H as <-. cbn [im_width im_height im_pictures].
  assert (K : (exists k, item_size (z1 :: z2) k) \/ n <= 0).
  { destruct (Z_le_gt_dec n 0) as [L|L]; [right; exact L|]. left. destruct (Z.to_nat n) as [|m] eqn:EM; [lia|]. cbn [zseq planes] in EL.
    destruct (node [(str "Plane" ++ str_int 0, [])] e) as [img|]; [cbn [bind] in EL|discriminate]. unfold plane in EL. destruct (node [plain "Data"] img) as [d|]; [cbn [bind] in EL|discriminate].
    destruct (x_text d) as [|d1 d2]; [discriminate|]. cbn [bind] in EL. destruct (frombuffer (z1 :: z2) (e_base64 E (d1 :: d2))) as [x|] eqn:FB; [|discriminate]. apply buffer_spec in FB. destruct FB as (k & B & _). exists k. exact B. }
  destruct K as [[k K]|K].
  - destruct (planes_spec _ _ _ _ _ _ _ _ _ _ K EL) as (imgs & F & G). exists w, h, z, c, n, k, imgs. rewrite TW, TH, TZ, TC. repeat split; try assumption; try (apply node_child; assumption). left; exact K.
  - assert (Z.to_nat n = 0)%nat by lia. replace (Z.to_nat n) with 0%nat in * by lia. cbn [zseq planes] in EL. injection EL as <-. exists w, h, z, c, n, 0%nat, []. replace (Z.to_nat n) with 0%nat by lia. rewrite TW, TH, TZ, TC. repeat split; try assumption; try (apply node_child; assumption); try solve [constructor]. right; exact K.
Qed.
(** Which pictures a file gives: those of the last node of pictures that has no name, then those of the overview in files of version 2 *)
Theorem C135_file : forall E file names top sel i ds c ins l, bcf_reader E file names top sel i ds c ins = Ok l -> sel = Some (str "image") ->
  exists root av h, first_such (typed "TRTSpectrumDatabase") top root /\ hyper_header E top av ins = Ok h /\
    (exists a n b, filter (fits (inst "TRTImageData")) (x_children root) = a ++ n :: b /\ nameless n /\ Forall (fun y => ~ nameless y) b /\ parse_image E (h_scope h) n false = Ok (h_image h)) /\
    (h_version h <> 2 -> h_overview h = None) /\
    l = map (fun p => Picture (with_file file p)) (im_pictures (h_image h) ++ match h_overview h with Some o => im_pictures o | None => [] end).
Proof.
  intros E file names top sel i ds c ins l H ->. unfold bcf_reader in H. destruct (indexes_of names) as [av|] eqn:EA; [cbn [bind] in H|discriminate]. destruct (minimum av); [cbn [bind] in H|discriminate].
  destruct (hyper_header E top av ins) as [h|] eqn:EH; [cbn [bind] in H|discriminate]. rewrite eqb_str_refl in H. injection H as <-.
  pose proof EH as K. unfold hyper_header in K. destruct (node [inst "TRTSpectrumDatabase"] top) as [root|] eqn:ER; [cbn [bind] in K|discriminate]. exists root, av, h.
  split. { pose proof (find_typed "TRTSpectrumDatabase" top) as FT. unfold node in ER. destruct (find [inst "TRTSpectrumDatabase"] top); [injection ER as <-; exact FT|discriminate]. }
  split; [exact EH|].
  destruct (node [plain "Header"] root) as [hd|]; [cbn [bind] in K|discriminate]. destruct (iso E hd) as [dd|]; [cbn [bind] in K|discriminate]. destruct dd as [date|]; [cbn [bind] in K|discriminate].
  destruct (node [plain "FileVersion"] hd) as [vn|]; [cbn [bind] in K|discriminate]. match type of K with bind ?r _ = _ => destruct r as [version|]; [cbn [bind] in K|discriminate] end.
  match type of K with bind ?r _ = _ => destruct r as [s|]; [cbn [bind] in K|discriminate] end. match type of K with bind ?r _ = _ => destruct r as [[im ov]|] eqn:EI; [cbn [bind] in K|discriminate] end.
  repeat match type of K with bind ?r _ = _ => destruct r; [cbn [bind] in K|discriminate] end. injection K as <-. cbn [h_scope h_image h_overview h_version].
  unfold images in EI. assert (FA : findall [inst "TRTImageData"] root = filter (fits (inst "TRTImageData")) (x_children root)). { cbn [findall]. induction (filter (fits (inst "TRTImageData")) (x_children root)) as [|x r IH]; [reflexivity|]. cbn [flat_map app]. f_equal. exact IH. }
  rewrite FA in EI. destruct (last_unnamed (filter (fits (inst "TRTImageData")) (x_children root))) as [n|] eqn:EN; [cbn [bind] in EI|discriminate].
  destruct (parse_image E s n false) as [im'|] eqn:EP; [cbn [bind] in EI|discriminate].
  assert (LU : forall l n, last_unnamed l = Some n -> exists a b, l = a ++ n :: b /\ nameless n /\ Forall (fun y => ~ nameless y) b).
  { clear. assert (U : forall e, unnamed e = true <-> nameless e). { intro e. unfold unnamed, nameless. destruct (lookup (str "Name") (x_attrs e)) as [[|]|]; intuition congruence. }
    assert (N : forall l, last_unnamed l = None -> Forall (fun y => ~ nameless y) l). { induction l as [|x l IH]; intro H; [constructor|]. cbn [last_unnamed] in H. destruct (last_unnamed l); [discriminate|]. destruct (unnamed x) eqn:Q; [discriminate|]. constructor; [intro Z; apply U in Z; congruence|apply IH; reflexivity]. }
    induction l as [|x l IH]; intros n H; [discriminate|]. cbn [last_unnamed] in H. destruct (last_unnamed l) as [m|] eqn:Q.
    - injection H as <-. destruct (IH m eq_refl) as (a & b & -> & A & B). exists (x :: a), b. repeat split; assumption.
    - destruct (unnamed x) eqn:QU; [|discriminate]. injection H as <-. exists [], l. repeat split; [apply U; exact QU|apply N; exact Q]. }
  destruct (LU _ _ EN) as (u1 & u2 & EAB & NN & NB).
  destruct (version =? 2) eqn:EV.
  - destruct (findall overview_path root) as [|on rest]; [injection EI as <- <-|destruct (parse_image E s on true) as [o|]; [cbn [bind] in EI; injection EI as <- <-|discriminate]];
      (split; [exists u1, n, u2; repeat split; assumption|]; split; [intro; lia|reflexivity]).
  - injection EI as <- <-. split; [exists u1, n, u2; repeat split; assumption|]. split; reflexivity.
Qed.
(** A plane that is not black and does not fill the picture is an error *)
Theorem C135_misfit : forall E s h w t n m img l, item_size t n -> holds E n img l -> ~ black l -> zlen l <> h * w -> plane E s h w t m img = Err ValueError.
Proof.
  intros E s h w t n m img l HS (d & CD & TD & ST) HB HL. unfold plane. rewrite (child_node _ _ _ CD). cbn [bind]. destruct (x_text d) as [|c r] eqn:ET; [congruence|]. cbn [bind].
  rewrite (buffer_ok _ _ _ _ HS ST). cbn [bind]. destruct (any l) eqn:EA; [|apply any_black in EA; contradiction]. replace (zlen l =? h * w) with false by lia. rewrite andb_false_r. reflexivity.
Qed.
(** A good plane is read *)
Theorem C135_plane : forall E s h w t n m img l, item_size t n -> holds E n img l -> 0 <= h -> 0 <= w -> zlen l = h * w ->
  exists ps, plane E s h w t m img = Ok ps /\ (black l -> ps = []) /\ (~ black l -> exists p, ps = [p] /\ shows s h w img l m p).
Proof.
  intros E s h w t n m img l HS HH H0 W0 HL. assert (K : exists ps, plane E s h w t m img = Ok ps).
  { destruct HH as (d & CD & TD & ST). unfold plane. rewrite (child_node _ _ _ CD). cbn [bind]. destruct (x_text d) as [|c r] eqn:ET; [congruence|]. cbn [bind].
    rewrite (buffer_ok _ _ _ _ HS ST). cbn [bind]. destruct (any l); [|eexists; reflexivity]. replace ((0 <=? h) && (0 <=? w) && (zlen l =? h * w)) with true by lia. eexists; reflexivity. }
  destruct K as (ps & K). exists ps. split; [exact K|]. destruct (plane_spec _ _ _ _ _ _ _ _ _ HS K) as (l' & HH' & D).
  assert (l' = l). { destruct HH as (d & CD & _ & ST), HH' as (d' & CD' & _ & ST'). apply child_node in CD. apply child_node in CD'. rewrite CD in CD'. injection CD' as <-. apply (stored_unique n (e_base64 E (x_text d))); [unfold item_size in HS; lia|assumption..]. }
  subst l'. split; intro B; destruct D as [[B' ->]|[B' (p & -> & SH & _)]]; try contradiction; [reflexivity|]. exists p. split; [reflexivity|exact SH].
Qed.
