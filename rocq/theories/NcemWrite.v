(** Writing an EMD (Berkeley) file and reading it (C112). *)
From Coq Require Import QArith.
From Verif Require Import Base Text HierModel Dict DistModel RowMajor RplModel RplProps SfsModel ImgModel NcemModel NcemProps.
Local Open Scope Z_scope.

Lemma split_join3 : forall a b c, ~ In 47 a -> ~ In 47 b -> ~ In 47 c -> split_char 47 (a ++ [47] ++ b ++ [47] ++ c) = [a; b; c].
Proof. intros a b c A B C. change (a ++ [47] ++ b ++ [47] ++ c) with (join_char 47 [a; b; c]). apply split_join; [discriminate|]. repeat (constructor; [assumption|]). constructor. Qed.
Lemma digits_no : forall k c, 0 <= k -> is_digit c = false -> ~ In c (str_int k).
Proof. intros k c K C I. unfold str_int in I. replace (k <? 0) with false in I by lia. pose proof (dec_digits k K) as F. rewrite Forall_forall in F. rewrite (F _ I) in C. discriminate C. Qed.
Lemma dim_path_inj : forall g a b, dim_path g a = dim_path g b -> a = b.
Proof.
  intros g a b H. unfold dim_path in H. apply app_inv_head in H. apply app_inv_head in H. apply app_inv_head in H. pose proof (parse_int_str_int a) as A. rewrite H, parse_int_str_int in A. congruence.
Qed.
Lemma lookup_absent : forall A k (l : list (pystr * A)), ~ In k (map fst l) -> lookup k l = None.
Proof. intros A k l. induction l as [|[x v] l IH]; intro H; [reflexivity|]. cbn [lookup]. cbn [map fst In] in H. destruct (eqb_str k x) eqn:E; [apply eqb_str_spec in E; subst; tauto|]. apply IH. tauto. Qed.

(** * The written units *)
Lemma until_join : forall c u rest, ~ In 93 (c :: u) -> ~ In 10 (c :: u) -> until_close (join_chars (c :: u) ++ 93 :: rest) = Some (join_chars (c :: u), rest).
Proof.
  intros c u. revert c. induction u as [|d u IH]; intros c rest A B.
  - cbn [join_chars app until_close]. replace (c =? 93) with false by (cbn [In] in A; lia). replace (c =? 10) with false by (cbn [In] in B; lia). reflexivity.
  - change (join_chars (c :: d :: u)) with (c :: 95 :: join_chars (d :: u)). cbn [app until_close]. replace (c =? 93) with false by (cbn [In] in A; lia). replace (c =? 10) with false by (cbn [In] in B; lia). change (95 =? 93) with false. change (95 =? 10) with false. cbv iota. rewrite IH; [reflexivity| |]; cbn [In] in *; tauto.
Qed.
Lemma no_underscore_join : forall u, ~ In 95 u -> no_underscore (join_chars u) = u.
Proof.
  induction u as [|c u IH]; intro H; [reflexivity|]. assert (C : (c =? 95) = false) by (cbn [In] in H; lia). destruct u as [|d u].
  - cbn [join_chars no_underscore filter]. rewrite C. reflexivity.
  - change (join_chars (c :: d :: u)) with (c :: 95 :: join_chars (d :: u)). unfold no_underscore. cbn [filter]. rewrite C. change (95 =? 95) with true. cbn [negb]. f_equal. apply IH. cbn [In] in *. tauto.
Qed.
Definition units_ok (u : pystr) : Prop := u <> [] /\ ~ In 93 u /\ ~ In 95 u /\ ~ In 10 u.
Lemma findall_written : forall u n, units_ok u -> findall (S (S n)) (91 :: join_chars u ++ [93]) = [join_chars u].
Proof.
  intros u n (NE & A & _ & B). destruct u as [|c u]; [congruence|]. cbn [findall]. change (91 =? 91) with true. cbv iota.
  assert (C10 : (c =? 10) = false) by (cbn [In] in B; lia).
  destruct u as [|d u].
  - cbn [join_chars app]. rewrite C10. cbn [until_close]. change (93 =? 93) with true. cbv iota. destruct n; reflexivity.
  - change (join_chars (c :: d :: u) ++ [93]) with (c :: 95 :: (join_chars (d :: u) ++ [93])). cbv iota. rewrite C10. cbn [until_close]. change (95 =? 93) with false. change (95 =? 10) with false. cbv iota. rewrite until_join; [|cbn [In] in *; tauto|cbn [In] in *; tauto]. destruct n; reflexivity.
Qed.
Definition short (pint : pystr -> option pystr) (u : pystr) : pystr := match pint u with Some v => v | None => u end.
Lemma units_written : forall pint u, match u with None => True | Some u => units_ok u end -> parse_units pint (written_units u) = short pint match u with None => [] | Some u => u end.
Proof.
  intros pint [u|] H; [|reflexivity]. unfold written_units. change (str "[" ++ join_chars u ++ str "]") with (91 :: join_chars u ++ [93]). unfold parse_units.
  replace (eqb_str (91 :: join_chars u ++ [93]) (str "A")) with false by reflexivity. replace (eqb_str (91 :: join_chars u ++ [93]) (str "A^-1")) with false by reflexivity. cbn [orb]. cbn [List.length]. rewrite findall_written by exact H. cbn [map join]. rewrite no_underscore_join by apply H. reflexivity.
Qed.

(** * The written file *)
Definition named (t : to_write) : pystr := match t_title t with [] => str "__unnamed__" | s => s end.
Definition plain_title (s : pystr) : Prop := ~ In 47 s /\ contains (str "_depth") s = false.
Lemma named_ok : forall t, plain_title (t_title t) -> ~ In 47 (named t) /\ contains (str "_depth") (named t) = false.
Proof. intros t [A B]. unfold named. destruct (t_title t); [|split; assumption]. split; [vm_compute; intuition discriminate|reflexivity]. Qed.
Section Written.
  Variable pint : pystr -> option pystr.
  Variable t : to_write.
  Hypothesis title : plain_title (t_title t).
  Hypothesis sized : List.length (t_axes t) = List.length (a_shape (t_data t)).
  Let n := List.length (a_shape (t_data t)).
  Let g := str "signals/" ++ named t.
  Let dims := map (fun p => written_dim g (snd p) (fst p)) (combine (t_axes t) (rev (zseq 1 n))).
  Let stored := {| d_array := transpose (t_data t); d_values := None; d_name := None; d_units := None |}.
  Let items := map (fun g => (g, Group false (match lookup g (t_om t) with Some a => a | None => [] end))) info_groups ++ [(str "signals", Group true []); (g, Group true (t_signal t)); (g ++ slash ++ str "data", Dataset stored)] ++ dims.
  Let f := {| f_major := Some (str "0"); f_minor := Some (str "2"); f_items := items |}.
  Lemma written : write_ncem t = Ok f.
  Proof. unfold write_ncem. rewrite sized. rewrite Nat.ltb_irrefl. rewrite <- sized at 1. rewrite firstn_all. reflexivity. Qed.
  Lemma keys_dims : map fst dims = map (dim_path g) (rev (zseq 1 n)).
  Proof.
    unfold dims. rewrite map_map. transitivity (map (dim_path g) (map snd (combine (t_axes t) (rev (zseq 1 n))))); [rewrite map_map; reflexivity|]. f_equal.
    assert (L : List.length (t_axes t) = List.length (rev (zseq 1 n))) by (rewrite rev_length, zseq_length; exact sized). revert L. generalize (rev (zseq 1 n)) as ks. generalize (t_axes t) as l. induction l as [|a l IH]; intros [|k ks] L; try discriminate L; [reflexivity|]. cbn [combine map snd]. rewrite IH; [reflexivity|]. cbn [List.length] in L. lia.
  Qed.
  Lemma get_group : get f g = Some (Group true (t_signal t)).
  Proof.
    unfold get, f. cbn [f_items]. unfold items. rewrite !lookup_app. replace (lookup g (map _ info_groups)) with (@None object) by reflexivity. cbn [lookup]. replace (eqb_str g (str "signals")) with false by reflexivity. rewrite eqb_str_refl. reflexivity.
  Qed.
  Lemma get_data : get f (g ++ slash ++ str "data") = Some (Dataset stored).
  Proof.
    unfold get, f. cbn [f_items]. unfold items. rewrite !lookup_app. replace (lookup (g ++ slash ++ str "data") (map _ info_groups)) with (@None object) by reflexivity. cbn [lookup]. replace (eqb_str (g ++ slash ++ str "data") (str "signals")) with false by reflexivity.
    replace (eqb_str (g ++ slash ++ str "data") g) with false; [rewrite eqb_str_refl; reflexivity|]. symmetry. apply eqb_str_neq. intro E. apply (f_equal (@List.length Z)) in E. rewrite app_length in E. cbn in E. lia.
  Qed.
  Lemma get_dim : forall k, get f (dim_path g k) = lookup (dim_path g k) dims.
  Proof.
    intro k. unfold get, f. cbn [f_items]. unfold items. rewrite !lookup_app. replace (lookup (dim_path g k) (map _ info_groups)) with (@None object) by reflexivity. cbn [lookup]. replace (eqb_str (dim_path g k) (str "signals")) with false by reflexivity.
    replace (eqb_str (dim_path g k) g) with false; [|symmetry; apply eqb_str_neq; intro E; apply (f_equal (@List.length Z)) in E; unfold dim_path in E; rewrite app_length in E; cbn in E; lia].
    replace (eqb_str (dim_path g k) (g ++ slash ++ str "data")) with false; [reflexivity|]. symmetry. apply eqb_str_neq. intro E. unfold dim_path in E. apply app_inv_head in E. discriminate E.
  Qed.
  Lemma get_dim_at : forall m a, nth_error (t_axes t) (n - 1 - m) = Some a -> (m < n)%nat -> get f (dim_path g (1 + Z.of_nat m)) = Some (snd (written_dim g (1 + Z.of_nat m) a)).
  Proof.
    intros m a A M. rewrite get_dim. apply lookup_in.
    - rewrite keys_dims. apply FinFun.Injective_map_NoDup; [intros x y; apply dim_path_inj|]. apply NoDup_rev. apply NoDup_zseq.
    - unfold dims. apply in_map_iff. exists (a, 1 + Z.of_nat m). split; [reflexivity|]. apply (nth_error_In _ (n - 1 - m)). apply nth_error_combine'; [exact A|]. rewrite nth_error_rev by (rewrite zseq_length; lia). rewrite zseq_length, nth_error_zseq by lia. f_equal. lia.
  Qed.
  Lemma get_dim0 : get f (dim_path g 0) = None.
  Proof. rewrite get_dim. apply lookup_absent. rewrite keys_dims. intro I. apply in_map_iff in I. destruct I as (k & E & I). apply dim_path_inj in E. apply in_rev in I. apply in_zseq in I. lia. Qed.
  Lemma no_slash : ~ In 47 (named t).
  Proof. apply named_ok. exact title. Qed.
  Lemma parts_in : forall x, ~ In 47 x -> parts (g ++ slash ++ x) = [str "signals"; named t; x].
  Proof. intros x X. unfold parts, g. change ((str "signals/" ++ named t) ++ slash ++ x) with (str "signals" ++ [47] ++ (named t ++ [47] ++ x)). apply split_join3; [vm_compute; intuition discriminate|apply no_slash|exact X]. Qed.
  Lemma not_simulated : is_prismatic f = false.
  Proof.
    unfold is_prismatic, has_key. apply not_true_iff_false. intro H. apply existsb_exists in H. destruct H as ([p o] & I & E). unfold f in I. cbn [f_items] in I. unfold items in I. rewrite !in_app_iff in I. destruct I as [I|[I|I]].
    - cbn in I. destruct I as [I|[I|[I|[I|[]]]]]; injection I as <- <-; discriminate E.
    - cbn [In] in I. destruct I as [I|[I|[I|[]]]]; injection I as <- <-; discriminate E.
    - unfold dims in I. apply in_map_iff in I. destruct I as ([a k] & I & _). injection I as <- <-. discriminate E.
  Qed.
  Lemma dims_not_found : forall l, (forall p, In p l -> 0 <= snd p) -> find_paths f (map (fun p => written_dim g (snd p) (fst p)) l) = Ok [].
  Proof.
    induction l as [|[a k] l IH]; intro P; [reflexivity|]. cbn [map snd fst]. unfold written_dim at 1. cbn [find_paths]. replace (basename (dim_path g k)) with (str "dim" ++ str_int k).
    - replace (existsb (fun p => startswith p (str "dim" ++ str_int k)) supported) with false by reflexivity. apply IH. intros p I. apply P. right. exact I.
    - symmetry. unfold basename, dim_path. rewrite parts_in; [reflexivity|]. intro I. apply in_app_or in I. destruct I as [I|I]; [revert I; vm_compute; intuition discriminate|]. revert I. apply digits_no; [exact (P (a, k) (or_introl eq_refl))|reflexivity].
  Qed.
  Lemma found : find_paths f items = Ok [g ++ slash ++ str "data"].
  Proof.
    assert (B : parts (g ++ slash ++ str "data") = [str "signals"; named t; str "data"]) by (apply parts_in; vm_compute; intuition discriminate).
    assert (E : find_paths f items = find_paths f ((g ++ slash ++ str "data", Dataset stored) :: dims)) by (unfold items, info_groups; cbn [map app]; reflexivity). rewrite E. cbn [find_paths].
    replace (basename (g ++ slash ++ str "data")) with (str "data") by (unfold basename; rewrite B; reflexivity).
    replace (dirname (g ++ slash ++ str "data")) with g by (unfold dirname; rewrite B; reflexivity).
    replace (existsb (fun p => startswith p (str "data")) supported) with true by reflexivity. rewrite get_group. cbn [bind]. unfold dims. rewrite dims_not_found; [reflexivity|]. intros [a k] I. apply in_combine_r in I. apply in_rev in I. apply in_zseq in I. cbn [snd]. lia.
  Qed.
  Lemma info : original_metadata f = Ok {| o_version := Some (str "0.2"); o_groups := map (fun x => (x, match lookup x (t_om t) with Some a => a | None => [] end)) info_groups; o_simulation := [] |}.
  Proof. unfold original_metadata. rewrite not_simulated. cbn [bind]. reflexivity. Qed.
  (** Elements, shape, axes, title, notes of the microscope, the sample, the user and comments *)
  Theorem C112_round_trip : Forall (fun a => match w_units a with None => True | Some u => units_ok u end) (t_axes t) ->
    exists file s, write_ncem t = Ok file /\ ncem_reader pint file All None = Ok [s] /\
      a_shape (s_data s) = a_shape (t_data t) /\ (forall i, a_at (s_data s) i = a_at (t_data t) i) /\
      (s_title s = match t_title t with [] => str "__unnamed__" | x => x end) /\
      o_version (s_om s) = Some (str "0.2") /\ (forall k, In k (map str ["microscope"; "sample"; "user"; "comments"]%string) -> lookup k (o_groups (s_om s)) = Some match lookup k (t_om t) with Some a => a | None => [] end) /\
      List.length (s_axes s) = List.length (t_axes t) /\
      forall j a, nth_error (t_axes t) j = Some a -> exists x, nth_error (s_axes s) j = Some x /\ x_index x = Z.of_nat j /\ nth_error (a_shape (t_data t)) j = Some (x_size x) /\
        x_name x = Some match w_name a with Some m => m | None => [] end /\ x_units x = Some (short pint match w_units a with Some u => u | None => [] end) /\
        x_offset x = w_offset a /\ exists q, x_scale x = Some q /\ (q == w_scale a)%Q.
  Proof.
    intro U. exists f.
    assert (B : parts (g ++ slash ++ str "data") = [str "signals"; named t; str "data"]) by (apply parts_in; vm_compute; intuition discriminate).
    assert (BN : basename (g ++ slash ++ str "data") = str "data") by (unfold basename; rewrite B; reflexivity).
    assert (DN : dirname (g ++ slash ++ str "data") = g) by (unfold dirname; rewrite B; reflexivity).
    assert (BG : basename g = named t). { unfold basename, parts, g. change (str "signals/" ++ named t) with (join_char 47 [str "signals"; named t]). rewrite split_join; [reflexivity|discriminate|]. constructor; [vm_compute; intuition discriminate|]. constructor; [apply no_slash|constructor]. }
    assert (LS : List.length (a_shape (d_array stored)) = n) by (unfold stored, transpose; cbn [d_array a_shape]; rewrite rev_length; reflexivity).
    destruct (C113_one pint f g (str "data") (named t) [] stored get_data true 1) as (a & axes & R & SH & AT & L & N).
    { split; [discriminate|]. intros [K|K]; [discriminate K|]. unfold from_zero in K. rewrite get_dim0 in K. congruence. }
    { right. split; [unfold from_zero; rewrite get_dim0; tauto|reflexivity]. }
    { rewrite LS. intros m M. destruct (nth_error (t_axes t) (n - 1 - m)) as [x|] eqn:E; [|apply nth_error_None in E; fold n in sized; lia]. pose proof (get_dim_at m x E M) as G. eexists. split; [exact G|]. discriminate. }
    rewrite LS in *.
    set (om := {| o_version := Some (str "0.2"); o_groups := map (fun x => (x, match lookup x (t_om t) with Some a => a | None => [] end)) info_groups; o_simulation := [] |}).
    assert (RD : exists ty, ncem_reader pint f All None = Ok [{| s_data := a; s_axes := axes; s_title := named t; s_type := ty; s_om := om |}]).
    { eexists. unfold ncem_reader. change (f_items f) with items. rewrite found. cbn [bind List.length read_paths]. rewrite not_simulated. cbn [andb filter map]. rewrite DN, BN, BG, info. cbn [bind o_simulation]. fold om. match goal with |- bind ?X _ = _ => replace X with (Ok (a, axes)) by (symmetry; exact R) end. cbn [bind fst snd filter]. replace (replace (str "_depth") [] (named t)) with (named t); [reflexivity|]. symmetry. unfold replace. apply replace_none; [lia|discriminate|]. apply (named_ok t title). }
    destruct RD as [ty RD]. eexists. split; [exact written|]. split; [exact RD|]. cbn [s_data s_axes s_title s_om].
    split; [rewrite SH; unfold stored, transpose; cbn [d_array a_shape]; apply rev_involutive|]. split; [intro i; rewrite AT; unfold stored, transpose; cbn [d_array a_at]; rewrite rev_involutive; reflexivity|]. split; [reflexivity|]. split; [reflexivity|]. split.
    { intros k K. unfold om. cbn [o_groups]. change (map str ["microscope"; "sample"; "user"; "comments"]%string) with info_groups in K. apply lookup_in; [|apply in_map_iff; exists k; split; [reflexivity|exact K]]. rewrite map_map. cbn [fst]. rewrite map_id. unfold info_groups. cbn [map]. repeat constructor; vm_compute; intuition discriminate. }
    split; [rewrite L; symmetry; exact sized|]. intros j w W. assert (J : (j < n)%nat) by (unfold n; rewrite <- sized; apply nth_error_Some; rewrite W; discriminate). destruct (N j J) as (x & dim & X & G & (I1 & I2 & I3 & I4 & I5 & I6)). exists x. split; [exact X|]. split; [exact I1|].
    rewrite (get_dim_at (n - 1 - j) w) in G; [|replace (n - 1 - (n - 1 - j))%nat with j by lia; exact W|lia]. injection G as <-. cbn [d_name d_units d_values option_map] in *.
    split. { rewrite I2. unfold stored, transpose. cbn [d_array a_shape]. rewrite rev_nth by (fold n; lia). fold n. replace (n - S (n - 1 - j))%nat with j by lia. apply nth_error_nth'. exact J. }
    split; [exact I4|]. split. { rewrite I5. f_equal. apply units_written. rewrite Forall_forall in U. apply U. apply (nth_error_In _ _ W). }
    cbn [calibrated] in I6. destruct I6 as (O & q & Q & M). split; [exact O|]. exists q. split; [exact Q|]. cbn [last] in M. change (inject_Z (zlen [(w_offset w + w_scale w)%Q])) with 1%Q in M. setoid_replace q with (q * 1)%Q by ring. rewrite M. ring.
  Qed.
End Written.
