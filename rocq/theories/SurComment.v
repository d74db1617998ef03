(** Property C77: comments in files. *)
From Coq Require Import QArith.
From Verif Require Import Base Text Bytes HierModel RowMajor SfsModel SfsProps BcfUnpack SurFloat SurModel SurFile SurSignal SurMetaModel SurMeta.
Local Open Scope Z_scope.

Lemma not_blank : forall c, is_space c = false -> ~ In c blanks.
Proof. intros c H I. apply blank_in in I. unfold blank in I. unfold is_space in H. lia. Qed.
Lemma last_app : forall (a b : list Z) d, b <> [] -> last (a ++ b) d = last b d.
Proof. intros a b d H. destruct (exists_last H) as (b' & x & ->). rewrite app_assoc, !last_last. reflexivity. Qed.
Section Comments.
  Variable A : Type.
  Variable show : A -> pystr.
  Variable eval : pystr -> A.
  Variable raw : pystr -> A.
  Variable repr : list (pystr * tree A) -> pystr.
  Definition cut (l l' : pystr) : Prop :=
    (exists b, l = l' ++ b /\ Forall (fun c => In c blanks) b) /\ l' <> [] /\ ~ In (last l' 0) blanks /\ no_break l' /\ good l' /\ hd 0 l' = 36 /\ forall st, parse_line A eval raw st l' = parse_line A eval raw st l.
  Lemma cut_title : forall t, no_break t -> trimmed t -> cut (title_line t) (title_line t).
  Proof.
    intros t Hb Ht. split; [exists []; split; [symmetry; apply app_nil_r|constructor]|]. split; [discriminate|]. split.
    - unfold title_line. destruct t as [|c t]; [vm_compute; intuition discriminate|]. rewrite last_app by discriminate. apply not_blank. exact (proj2 Ht).
    - split; [repeat (constructor; [reflexivity|]); exact Hb|]. split; [apply good_title|]. split; [reflexivity|reflexivity].
  Qed.
  Lemma cut_entry : forall e, entry_ok A show eval raw e -> exists l', cut (entry_line A show e) l'.
  Proof.
    intros e He. pose proof (value_parsed A show eval raw e He) as (T1 & T2 & T3 & _). pose proof He as ((K1 & K2 & K3) & _). destruct (value_text A show e) as [|c v] eqn:Ev.
    - exists (36 :: e_key e ++ [32; 61]). split; [exists [32]; split; [rewrite entry_shape, Ev; cbn [app]; rewrite <- app_assoc; reflexivity|repeat constructor]|]. split; [discriminate|]. split.
      + change (36 :: e_key e ++ [32; 61]) with ((36 :: e_key e) ++ [32; 61]). rewrite last_app by discriminate. vm_compute. intuition discriminate.
      + split; [constructor; [reflexivity|]; unfold no_break in *; rewrite Forall_app; split; [exact K1|repeat constructor]|]. split; [apply good_entry; right; left; reflexivity|]. split; [reflexivity|].
        intro st. rewrite <- (space_parsed A show eval raw e st He), Ev. rewrite ?app_nil_r. reflexivity.
    - exists (entry_line A show e). split; [exists []; split; [symmetry; apply app_nil_r|constructor]|]. split; [discriminate|]. split.
      + rewrite entry_shape, Ev. change (36 :: e_key e ++ [32; 61] ++ [32] ++ c :: v) with ((36 :: e_key e) ++ [32; 61; 32] ++ c :: v). rewrite app_assoc, last_app by discriminate. apply not_blank. exact (proj2 T1).
      + split; [|split; [rewrite entry_shape; apply good_entry; right; left; reflexivity|split; reflexivity]]. rewrite entry_shape, Ev. constructor; [reflexivity|]. unfold no_break in *. rewrite Forall_app. split; [exact K1|]. repeat (constructor; [reflexivity|]). exact T3.
  Qed.
  Lemma last_line : forall secs, secs <> [] -> Forall (section_ok A show eval raw) secs -> exists ls l l', flat_map (section_lines A show) secs = ls ++ [l] /\ cut l l'.
  Proof.
    intros secs Hne H. destruct (exists_last Hne) as (secs' & [t es] & ->). rewrite Forall_app in H. destruct H as [_ H]. apply Forall_inv in H. destruct H as (H1 & H2 & _ & H4 & _). cbn [fst snd] in *. rewrite flat_map_app. cbn [flat_map]. rewrite app_nil_r. unfold section_lines at 2. cbn [fst snd].
    destruct es as [|e0 es0] eqn:Ees; [exists (flat_map (section_lines A show) secs'), (title_line t), (title_line t); split; [reflexivity|apply cut_title; assumption]|]. rewrite <- Ees in *. assert (Hes : es <> []) by (subst; discriminate). clear Ees. destruct (exists_last Hes) as (es' & e & ->). rewrite Forall_app in H4. destruct H4 as [_ H4]. apply Forall_inv in H4.
    destruct (cut_entry e H4) as [l' C]. exists (flat_map (section_lines A show) secs' ++ title_line t :: map (entry_line A show) es'), (entry_line A show e), l'. split; [|exact C]. rewrite map_app, <- app_assoc. reflexivity.
  Qed.
  Lemma text_head : forall secs, secs <> [] -> hd 0 (text_of (flat_map (section_lines A show) secs)) = 36.
  Proof. intros [|[t es] secs] H; [congruence|]. reflexivity. Qed.
  (** The comment is stripped when it is read; its sections are the same *)
  Lemma trimmed_comment : forall secs, sections_ok A show eval raw secs -> parsed A eval raw (trim (text_of (flat_map (section_lines A show) secs))) = Some (dict secs).
  Proof.
    intros secs Hok. pose proof Hok as (Hne & Hs & _). destruct (last_line secs Hne Hs) as (ls & l & l' & El & C). destruct C as ((b & Eb & Hb) & C2 & C3 & C4 & C5 & C6 & C7). pose proof (text_head secs Hne) as Hh. pose proof (sections_breaks A show eval raw secs Hs) as Hbr. pose proof (lines_good A show secs) as Hg. rewrite El in *.
    assert (Et : trim (text_of (ls ++ [l])) = text_of ls ++ l').
    { apply trim_stripped. exists [], (b ++ [10]). split; [|split; [constructor|split]].
      - unfold text_of. rewrite map_app, concat_app. cbn [map List.concat app]. rewrite Eb, <- !app_assoc. reflexivity.
      - rewrite Forall_app. split; [exact Hb|]. constructor; [|constructor]. right. right. left. reflexivity.
      - right. split; [|rewrite last_app by exact C2; exact C3]. assert (E : hd 0 (text_of ls ++ l') = 36). { destruct ls as [|x ls]; [exact C6|]. unfold text_of in *. cbn [map List.concat app] in *. destruct x as [|c x]; [cbn in Hh; discriminate|exact Hh]. } rewrite E. vm_compute. intuition discriminate. }
    rewrite Et. assert (Es : splitlines (text_of ls ++ l') = ls ++ [l']) by (rewrite splitlines_text by (rewrite Forall_app in Hbr; exact (proj1 Hbr)); rewrite splitlines_last by assumption; reflexivity).
    apply (parsed_ok A show eval raw secs _ Hok); rewrite Es.
    - destruct ls; discriminate.
    - rewrite Forall_app in Hg |- *. split; [exact (proj1 Hg)|constructor; [exact C5|constructor]].
    - rewrite El, !fold_left_app. cbn [fold_left]. apply C7.
  Qed.
  (** Comments of the objects in a file *)
  Lemma work_comment : forall bad zip o p comment d t c, build_workdict bad zip o p comment d t = Ok c -> c_comment c = comment.
  Proof.
    intros bad zip o p comment d t c H. unfold build_workdict in H. destruct (norm_data bad (special o) d) as [[[[[[b zm] zx] sc] of] ints]|]; [|discriminate]. cbn [bind] in H. destruct (if compressed o then _ else _) as [data|]; [|discriminate]. cbn [bind] in H. destruct (negb (latin1 comment)); [discriminate|]. inversion H. reflexivity.
  Qed.
  Lemma contents_comments : forall bad zip o p dts comment cs, build_contents bad zip o p comment dts = Ok cs -> map c_comment cs = match dts with [] => [] | _ :: r => comment :: map (fun _ => []) r end.
  Proof.
    intros bad zip o p. induction dts as [|[d t] dts IH]; intros comment cs H; cbn [build_contents] in H; [inversion H; reflexivity|]. destruct (build_workdict bad zip o p comment d t) as [c|] eqn:E; [|discriminate]. cbn [bind] in H. destruct (build_contents bad zip o p [] dts) as [cs'|] eqn:E'; [|discriminate]. cbn [bind] in H. inversion H; subst. cbn [map].
    rewrite (work_comment _ _ _ _ _ _ _ _ E), (IH _ _ E'). destruct dts; reflexivity.
  Qed.
  (** A surface of integers with a comment: the sections are found in the original metadata, and written the next time *)
  Theorem C77_file : forall bad zip unzip o secs comment y x t l, zlib_ok zip unzip -> sections_ok A show eval raw secs -> comment_of A show repr (nodes A secs) = Ok comment -> options_ok o comment ->
    axis_ok 16 y -> axis_ok 16 x -> a_nav y = false -> a_nav x = false -> Forall (in_type t) l -> zlen l = a_size y * a_size x -> zlen l < 2 ^ 28 ->
    exists f obs omd, write_sur bad zip o comment {| s_axes := [y; x]; s_data := Ints t l |} = Ok f /\ read_sur unzip f = Ok obs /\
    original_metadata A eval raw 1 1 (map o_comment obs) = Ok omd /\ comment_dict A (Auto A) omd = Ok (nodes A secs).
  Proof.
    intros bad zip unzip o secs comment y x t l Hz Hok Hc Ho Hy Hx Ny Nx Hr Hl Hn. rewrite (comment_text A show eval raw repr secs Hok) in Hc. apply (f_equal (fun r => match r with Ok c => c | Err _ => [] end)) in Hc. cbn iota in Hc.
    pose proof Hx as (_ & _ & Sx & _). pose proof Hy as (_ & _ & Sy & _). set (ty := match t with TBool => 3 | _ => 2 end). set (p := one ty (Some x) (Some y) None (Ints t l)).
    assert (Hs : split_signal {| s_axes := [y; x]; s_data := Ints t l |} = Ok p) by (unfold split_signal; cbn [s_axes s_data filter]; rewrite Ny, Nx; cbn [negb]; unfold p, ty; destruct t; reflexivity).
    assert (Hty : In ty obj_types) by (unfold ty; destruct t; vm_compute; tauto). assert (Ew : wsize p ty = 0) by (unfold ty; destruct t; reflexivity).
    assert (Hp : split_ok p) by (split; [exact Hx|]; split; [exact Hy|]; split; [exact I|]; split; [cbn; lia|]; split; [cbn; lia|]; cbn [p one p_x p_y size axis_or]; lia).
    assert (Hi : Forall (item_ok bad o p) [(Ints t l, ty)]) by (constructor; [|constructor]; apply int_item; [apply nonempty; rewrite Hl; clear - Sx Sy; nia|exact Hr|exact Hn|rewrite Ew; change (size (p_x p)) with (a_size x); change (size (p_y p)) with (a_size y); lia|exact Hty]).
    destruct (contents_read bad zip unzip o p _ comment Hz Ho Hp Hi) as (cs & obs & B & K & _ & S & N). pose proof (contents_comments _ _ _ _ _ _ _ B) as Hcs. cbn [map] in Hcs.
    destruct cs as [|c [|c' cs]]; try discriminate Hcs. inversion K as [|? ob ? obs' K1 K2]; subst. inversion K2; subst. pose proof (Forall_inv N) as [N3 N8].
    destruct (C73_objects unzip [c] [ob] (c_fields c) eq_refl S) as (f & W & Rd); [rewrite N3, N8; reflexivity|exact K|].
    assert (Eo : o_comment ob = trim (c_comment c)) by (destruct K1 as (_ & _ & _ & _ & K1 & _); symmetry; apply trim_stripped; exact K1). cbn [map] in Hcs. assert (Ec : c_comment c = text_of (flat_map (section_lines A show) secs)) by congruence.
    destruct (C77_again A show eval raw secs (o_comment ob) Hok) as (omd & M1 & M2); [rewrite Eo, Ec; apply trimmed_comment; exact Hok|].
    exists f, [ob], omd. split; [unfold write_sur; rewrite Hs; cbn [bind]; change (combine (p_data p) (p_types p)) with [(Ints t l, ty)]; rewrite B; exact W|]. split; [exact Rd|]. split; [exact M1|exact M2].
  Qed.
End Comments.
Example C77_file_example :
  match comment_of atom show_atom no_repr (nodes atom ex_sections) with
  | Ok comment =>
      match write_sur 0 same (opts false true) comment {| s_axes := [ax (str "y") 1 false; ax (str "x") 2 false]; s_data := Ints TU8 [3; 4] |} with
      | Ok f => match read_sur undo f with
                | Ok obs => match original_metadata atom eval_atom T 1 1 (map o_comment obs) with Ok omd => comment_dict atom (Auto atom) omd = Ok (nodes atom ex_sections) | Err _ => False end
                | Err _ => False
                end
      | Err _ => False
      end
  | Err _ => False
  end.
Proof. vm_compute. reflexivity. Qed.
Print Assumptions C77_file.
Print Assumptions C77_file_example.
