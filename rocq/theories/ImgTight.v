(** Further properties of images and MRCZ files (C101, C102, C103). *)
From Coq Require Import QArith.
From Verif Require Import Base Text HierModel ImgModel ImgProps.
Local Open Scope Z_scope.

(** Fewer than three channels *)
Theorem C101_few : forall a h w c more, a_shape a = h :: w :: c :: more -> h <> 1 -> w <> 1 -> c <> 1 -> c < 3 -> read_data a = Err IndexError.
Proof.
  intros a h w c more S H W C L. unfold read_data, squeeze. cbn [a_shape]. rewrite S. unfold squeezed. cbn [filter]. replace (h =? 1) with false by lia. replace (w =? 1) with false by lia. replace (c =? 1) with false by lia.
  cbn [negb]. replace (c <? 3) with true by lia. reflexivity.
Qed.
Example C101_few_demo : exists a, a_shape a = [4; 5; 2] /\ read_data a = Err IndexError.
Proof. exists {| a_type := OtherType; a_shape := [4; 5; 2]; a_at := fun _ => 0 |}. split; reflexivity. Qed.
(** Keywords other than the aspect also ask for a figure *)
Theorem C102_keywords : forall pint axes d a b, image_axes axes a b ->
  exists w h, image_writer pint true false NoSize (Some {| k_aspect := NoAspect; k_more := true |}) axes d = Ok (Figure w h None) /\ (w == inject_Z (w_size b))%Q /\ (h == inject_Z (w_size a))%Q.
Proof.
  intros pint axes d a b X. unfold image_writer. cbn [given some_kwds k_more k_aspect orb]. rewrite (two_axes_read _ _ _ X). cbn [bind fst snd figure_size ratio k_aspect negb]. do 2 eexists. split; [reflexivity|]. split; apply Qmult_1_r.
Qed.
Example C102_keywords_demo : exists axes a b, image_axes axes a b /\ w_size a = 3.
Proof.
  exists [{| w_size := 3; w_scale := 1; w_units := None; w_navigate := false |}; {| w_size := 5; w_scale := 1; w_units := None; w_navigate := false |}].
  do 2 eexists. split; [left; reflexivity|reflexivity].
Qed.
(** The entries that do not reach the metadata of a signal, and all others which do *)
Theorem C103_entries : forall f nz ny nx sz sy sx s, m_shape f = [nz; ny; nx] -> m_pixelsize f = [sz; sy; sx] -> mrcz_reader (str "c") f = Ok s ->
  forall k, lookup k (n_metadata s) =
    if existsb (fun t => eqb_str k (str t)) ["compressor"; "MRCtype"; "C3"; "dimensions"; "dtype"; "extendedBytes"; "gain"; "maxImage"; "minImage"; "meanImage"; "metaId"; "packedBytes"; "pixelsize"; "pixelunits"; "voltage"]%string then None
    else lookup k (m_header f).
Proof.
  intros f nz ny nx sz sy sx s S P H k. rewrite (reader_three _ _ _ _ _ _ _ S P) in H. destruct (pop_all pop_from_header (m_header f)) as [m|] eqn:PA; cbn [bind] in H; [|discriminate]. injection H as <-. cbn [n_metadata].
  assert (F : forall j (d : list (pystr * entry)), lookup k (filter (fun kv => negb (eqb_str j (fst kv))) d) = if eqb_str k j then None else lookup k d).
  { intro j. induction d as [|[k' v] d IH]; cbn [filter lookup fst]; [destruct (eqb_str k j); reflexivity|]. destruct (eqb_str j k') eqn:J; cbn [negb lookup]; rewrite IH; destruct (eqb_str k j) eqn:K; try reflexivity.
    - apply eqb_str_spec in J. subst. rewrite K. reflexivity.
    - destruct (eqb_str k k') eqn:K'; [|reflexivity]. apply eqb_str_spec in K, K'. subst. rewrite eqb_str_refl in J. discriminate. }
  assert (G : forall ks (d m : list (pystr * entry)), pop_all ks d = Ok m -> lookup k m = if existsb (eqb_str k) ks then None else lookup k d).
  { induction ks as [|j ks IH]; intros d m' Q; cbn [pop_all existsb] in *; [injection Q as <-; reflexivity|]. unfold pop at 1 in Q. destruct (lookup j d) as [v|]; cbn [bind] in Q; [|discriminate]. rewrite (IH _ _ Q), F. destruct (eqb_str k j); cbn [orb]; [|reflexivity]. destruct (existsb (eqb_str k) ks); reflexivity. }
  rewrite (G _ _ _ PA). reflexivity.
Qed.
Example C103_entries_demo : exists f s, m_shape f = [1; 2; 3] /\ m_pixelsize f = [1; 1; 1]%Q /\ mrcz_reader (str "c") f = Ok s /\ n_metadata s = [(str "strides", Other 0)].
Proof.
  exists {| m_shape := [1; 2; 3]; m_pixelsize := [1; 1; 1]%Q; m_pixelunits := None; m_header := (str "strides", Other 0) :: map (fun k => (k, Other 1)) pop_from_header |}. eexists.
  split; [reflexivity|]. split; [reflexivity|]. split; [vm_compute; reflexivity|]. reflexivity.
Qed.
Print Assumptions C101_few.
Print Assumptions C102_keywords.
Print Assumptions C103_entries.
