(** Property C79: maps of EDAX files. *)
From Coq Require Import QArith.
From Verif Require Import Base Text Bytes SfsModel SfsProps BcfUnpack HierModel RowMajor SurFloat EdaxModel EdaxHeader.
Local Open Scope Z_scope.

(** * Specification *)
(** The header of a map *)
Record map_header := { nx : Z; ny : Z; nz : Z; bytes_per : Z; start : Z; spectra : Z }.
Definition header_of (big : bool) (f : list Z) : map_header :=
  {| spectra := integer big 4 f 20; nx := integer big 4 f 24; ny := word big 4 f 28; nz := word big 4 f 32; bytes_per := word big 4 f 36; start := word big 4 f 40 |}.
Definition points (h : map_header) : Z := ny h * nx h * nz h.
(** A complete map *)
Definition complete (h : map_header) (f : list Z) : Prop :=
  1068 <= zlen f /\ (bytes_per h = 1 \/ bytes_per h = 2 \/ bytes_per h = 4) /\ 0 <= nx h /\ 0 <= ny h /\ 0 <= nz h /\ 0 <= start h /\ start h + points h * bytes_per h <= zlen f.
(** The other files: missing, or with a complete header *)
Definition spc_ok (big all : bool) (o : option (list Z)) : Prop :=
  match o with Some b => 20736 <= zlen b /\ header_size all (new_version big b) <= zlen b /\ Forall atomic (header_elements big b) | None => True end.
Definition ipr_size (big : bool) (b : list Z) : Z := if 334 <=? integer big 2 b 0 then 264 else 252.
Definition ipr_ok (big : bool) (o : option (list Z)) : Prop := match o with Some b => ipr_size big b <= zlen b | None => True end.
Definition map_energy (big : bool) (n : Z) (o : option (list Z)) : axis :=
  match o with
  | Some b => {| a_name := "Energy"%string; a_size := n; a_index := -1; a_scale := Number (integer big 4 b 384 # 1000); a_offset := Word (word big 4 b 448); a_units := Some "keV"%string; a_navigate := false |}
  | None => {| a_name := "Energy"%string; a_size := n; a_index := -1; a_scale := Number 1; a_offset := Number 1; a_units := None; a_navigate := false |}
  end.
Definition position_axis (big : bool) (name : string) (n i p : Z) (o : option (list Z)) : axis :=
  {| a_name := name; a_size := n; a_index := i; a_scale := match o with Some b => Word (word big 4 b p) | None => Number 1 end; a_offset := Number 0;
     a_units := match o with Some _ => Some "um"%string | None => None end; a_navigate := true |}.
Definition meta_of (big : bool) (o : option (list Z)) (m : option spc_meta) : Prop :=
  match o, m with Some b, Some m => meta_ok big b m | None, None => True | _, _ => False end.

(** * Headers *)
Section Header.
  Variables (big : bool) (f : list Z).
  Hypothesis H : 1068 <= zlen f.
  Lemma spd_got : forall name p fl, locate (str name) 0 spd_layout = Some (p, fl) -> get name (read_struct big spd_layout f) = Ok (values big (f_kind fl) (f_count fl) f p).
  Proof.
    intros name p fl L. unfold read_struct. replace (size_of spd_layout) with 1068 by (vm_compute; reflexivity). replace (zlen f <? 1068) with false by lia. unfold get.
    destruct (lookup_fields big spd_layout f 0 (str name) p fl) as [P [_ C]]; [apply all_positive; vm_compute; reflexivity|lia|exact L|].
    replace (skipz 0 f) with f in C by (rewrite skipz_skipn; reflexivity). rewrite C. rewrite read_values by lia. reflexivity.
  Qed.
  Ltac got := match goal with |- get ?name _ = _ => let r := eval vm_compute in (locate (str name) 0 spd_layout) in
     match r with Some (?p, ?fl) => rewrite (spd_got name p fl) by (vm_compute; reflexivity) end end; unfold values; cbn [f_kind f_count map]; rewrite ?one_word; reflexivity.
  Lemma spd_spectra : get "nSpectra" (read_struct big spd_layout f) = Ok [spectra (header_of big f)]. Proof. got. Qed.
  Lemma spd_nx : get "nPoints" (read_struct big spd_layout f) = Ok [nx (header_of big f)]. Proof. got. Qed.
  Lemma spd_ny : get "nLines" (read_struct big spd_layout f) = Ok [ny (header_of big f)]. Proof. got. Qed.
  Lemma spd_nz : get "nChannels" (read_struct big spd_layout f) = Ok [nz (header_of big f)]. Proof. got. Qed.
  Lemma spd_bytes : get "countBytes" (read_struct big spd_layout f) = Ok [bytes_per (header_of big f)]. Proof. got. Qed.
  Lemma spd_start : get "dataOffset" (read_struct big spd_layout f) = Ok [start (header_of big f)]. Proof. got. Qed.
  Lemma spd_name : get "fName" (read_struct big spd_layout f) = Ok (map (signed 1) (words_from big 1 f 48 120)). Proof. got. Qed.
End Header.
Lemma ipr_read : forall big b, ipr_size big b <= zlen b -> exists h, ipr_header big b = Ok h /\ get "mppX" h = Ok [word big 4 b 64] /\ get "mppY" h = Ok [word big 4 b 68].
Proof.
  intros big b H. unfold ipr_header. assert (H2 : 252 <= zlen b) by (unfold ipr_size in H; destruct (334 <=? _); lia). replace (zlen b <? 2) with false by lia.
  assert (EF : firstz 2 b = slice (Z.to_nat 0) 2 b) by (rewrite firstz_firstn; reflexivity). rewrite EF. fold (word big 2 b 0). fold (integer big 2 b 0). unfold ipr_size in H.
  set (l := if 334 <=? integer big 2 b 0 then ipr_layout ++ ipr_new else ipr_layout). cbv zeta. exists (read_fields big l b). split.
  - unfold read_struct. replace (zlen b <? size_of l) with false; [reflexivity|]. unfold l. destruct (334 <=? _); [replace (size_of (ipr_layout ++ ipr_new)) with 264 by (vm_compute; reflexivity)|replace (size_of ipr_layout) with 252 by (vm_compute; reflexivity)]; lia.
  - assert (G : forall name p fl, locate (str name) 0 l = Some (p, fl) -> get name (read_fields big l b) = Ok (values big (f_kind fl) (f_count fl) b p)).
    { intros name p fl L. unfold get. destruct (lookup_fields big l b 0 (str name) p fl) as [P [_ C]]; [unfold l; destruct (334 <=? _); apply all_positive; vm_compute; reflexivity|lia|exact L|].
      replace (skipz 0 b) with b in C by (rewrite skipz_skipn; reflexivity). rewrite C. rewrite read_values by lia. reflexivity. }
    split.
    + rewrite (G "mppX"%string 64 (fld "mppX" Flt 1)) by (unfold l; destruct (334 <=? _); vm_compute; reflexivity). unfold values, fld. cbn [f_kind f_count]. rewrite one_word. reflexivity.
    + rewrite (G "mppY"%string 68 (fld "mppY" Flt 1)) by (unfold l; destruct (334 <=? _); vm_compute; reflexivity). unfold values, fld. cbn [f_kind f_count]. rewrite one_word. reflexivity.
Qed.
Lemma word_range : forall big w f p, bytes f -> 0 <= word big w f p.
Proof.
  intros big w f p H. unfold word, dec_int. assert (B : bytes (slice (Z.to_nat p) w f)).
  { unfold slice. apply Forall_forall. intros x Hx. assert (I : In x f); [|exact (proj1 (Forall_forall _ _) H x I)]. rewrite <- (firstn_skipn (Z.to_nat p) f). apply in_or_app. right. rewrite <- (firstn_skipn w). apply in_or_app. left. exact Hx. }
  destruct big; [unfold be_val; assert (B' : bytes (rev (slice (Z.to_nat p) w f))) by (apply Forall_rev; exact B); pose proof (le_val_range _ B'); lia|pose proof (le_val_range _ B); lia].
Qed.

(** * Data *)
Lemma data_read : forall lazy big f h, complete h f -> lazy = true \/ big = false \/ bytes_per h = 1 ->
  map_data lazy big (bytes_per h) (start h) [ny h; nx h; nz h] f = Ok (words_from big (Z.to_nat (bytes_per h)) f (start h) (points h)).
Proof.
  intros lazy big f h (H1 & HW & Hx & Hy & Hz & Hs & He) HB. unfold map_data. replace (prodZ [ny h; nx h; nz h]) with (points h) by (unfold prodZ, points; cbn [fold_right]; lia).
  assert (P : 0 <= points h) by (unfold points; nia). set (n := points h) in *. clearbody n. assert (EW : bytes_per h = Z.of_nat (Z.to_nat (bytes_per h))) by lia. set (w := Z.to_nat (bytes_per h)) in *. rewrite EW in *. 
  assert (W : (0 < w)%nat) by lia. destruct lazy; [apply memmap_words; lia|]. rewrite fromfile_words by lia. replace (Z.min n (Z.max 0 (zlen f - start h) / Z.of_nat w)) with n by (assert (n <= Z.max 0 (zlen f - start h) / Z.of_nat w) by (apply Z.div_le_lower_bound; lia); lia).
  cbn [bind]. rewrite zlen_words by exact P. rewrite Z.eqb_refl. f_equal. destruct big; [|reflexivity]. destruct HB as [HB|[HB|HB]]; try discriminate HB. assert (w = 1%nat) by lia. unfold words_from. apply map_ext. intro i. unfold word, dec_int, be_val. rewrite H.
  set (s := slice _ 1 f). assert (L : (List.length s <= 1)%nat) by (unfold s, slice; rewrite firstn_length; lia). destruct s as [|a [|]]; [reflexivity|reflexivity|cbn in L; lia].
Qed.
Lemma count_ok : forall n, n = 1 \/ n = 2 \/ n = 4 -> count_bytes n = Ok n.
Proof. intros n [-> |[-> | ->]]; reflexivity. Qed.

Theorem C79_map : forall float fs lazy big all spc ipr csv filename f ipr_path, let h := header_of big f in
  let spc_path := match spc with Some s => s | None => spc_name filename end in
  lower (tl (snd (splitext filename))) <> str "lsd" -> complete h f -> lazy = true \/ big = false \/ bytes_per h = 1 ->
  match ipr with Some s => Ok s | None => ipr_name filename (bytes_text (map (signed 1) (words_from big 1 f 48 120))) end = Ok ipr_path ->
  spc_ok big all (bytes_file fs spc_path) -> ipr_ok big (bytes_file fs ipr_path) ->
  exists m, meta_of big (bytes_file fs spc_path) m /\
    si_reader float fs lazy big all spc ipr csv filename f = Ok {| s_shape := [ny h; nx h; nz h]; s_data := words_from big (Z.to_nat (bytes_per h)) f (start h) (points h);
      s_axes := [position_axis big "y" (ny h) 0 68 (bytes_file fs ipr_path); position_axis big "x" (nx h) 1 64 (bytes_file fs ipr_path); map_energy big (nz h) (bytes_file fs spc_path)];
      s_title := "EDS Spectrum Image"%string; s_meta := m |}.
Proof.
  intros float fs lazy big all spc ipr csv filename f ipr_path h spc_path HE HC HB HI HS HP. pose proof HC as (H1 & HW & Hx & _). unfold si_reader.
  destruct (eqb_str (lower (tl (snd (splitext filename)))) (str "lsd")) eqn:EX; [apply eqb_str_spec in EX; contradiction|]. cbv zeta.
  rewrite (number_get _ _ _ _ (spd_start big f H1)), (number_get _ _ _ _ (spd_nx big f H1)), (number_get _ _ _ _ (spd_ny big f H1)), (number_get _ _ _ _ (spd_nz big f H1)), (number_get _ _ _ _ (spd_spectra big f H1)), (number_get _ _ _ _ (spd_bytes big f H1)). cbn [bind]. fold h.
  rewrite (count_ok _ HW). cbn [bind]. replace (nx h <? 0) with false by lia. rewrite (data_read lazy big f h HC HB). cbn [bind]. rewrite (spd_name big f H1). cbn [bind]. fold spc_path.
  assert (ES : exists m, meta_of big (bytes_file fs spc_path) m /\
    match bytes_file fs spc_path with Some b => let! sh := spc_header big all b in let! m := spc_metadata sh in Ok (Some (sh, m)) | None => Ok None end =
    Ok (match bytes_file fs spc_path, m with Some b, Some m => Some (read_fields big (spc_layout all (hundredths (word big 4 b 0))) b, m) | _, _ => None end)).
  { destruct (bytes_file fs spc_path) as [b|]; [|exists None; split; [exact I|reflexivity]]. destruct HS as (S0 & S1 & S2). destruct (meta_read big all b S0 S1 S2) as [m [Em Hm]]. exists (Some m). split; [exact Hm|]. rewrite (header_ok big all b S0 S1). cbn [bind]. rewrite Em. reflexivity. }
  destruct ES as [m [Hm ES]]. exists m. split; [exact Hm|]. rewrite ES. cbn [bind].
  assert (EE : energy_axis (nz h) (-1) (option_map fst (match bytes_file fs spc_path, m with Some b, Some m => Some (read_fields big (spc_layout all (hundredths (word big 4 b 0))) b, m) | _, _ => None end)) = Ok (map_energy big (nz h) (bytes_file fs spc_path))).
  { destruct (bytes_file fs spc_path) as [b|]; [|reflexivity]. destruct m as [m|]; [|destruct Hm]. destruct HS as (S0 & S1 & S2). cbn [option_map fst energy_axis]. rewrite (number_get _ _ _ _ (get_ev big all b S0 S1)). cbn [bind]. rewrite (number_get _ _ _ _ (get_energy big all b S0 S1)). reflexivity. }
  rewrite EE. cbn [bind]. rewrite HI. cbn [bind].
  assert (EM : option_map snd (match bytes_file fs spc_path, m with Some b, Some m => Some (read_fields big (spc_layout all (hundredths (word big 4 b 0))) b, m) | _, _ => None end) = m).
  { destruct (bytes_file fs spc_path), m; try reflexivity; destruct Hm. }
  rewrite EM. destruct (bytes_file fs ipr_path) as [b|]; [|reflexivity]. destruct (ipr_read big b HP) as [ih [E1 [E2 E3]]]. rewrite E1. cbn [bind]. rewrite (number_get _ _ _ _ E2), (number_get _ _ _ _ E3). reflexivity.
Qed.
(** Point (y, x, c) of the map *)
Theorem C79_index : forall big w f p (y x c nx_ ny_ nz_ : Z), 0 <= y < ny_ -> 0 <= x < nx_ -> 0 <= c < nz_ ->
  nth (Z.to_nat ((y * nx_ + x) * nz_ + c)) (words_from big w f p (ny_ * nx_ * nz_)) 0 = word big w f (p + Z.of_nat w * ((y * nx_ + x) * nz_ + c)).
Proof.
  intros big w f p y x c nx_ ny_ nz_ Hy Hx Hc. assert (A : 0 <= (y * nx_ + x) * nz_ + c < ny_ * nx_ * nz_).
  { assert (y * nx_ + x + 1 <= ny_ * nx_) by nia. assert ((y * nx_ + x + 1) * nz_ <= ny_ * nx_ * nz_) by nia. assert (0 <= y * nx_ + x) by nia. set (k := y * nx_ + x) in *. set (m := ny_ * nx_) in *. clearbody k m. split; nia. }
  set (i := (y * nx_ + x) * nz_ + c) in *. set (n := ny_ * nx_ * nz_) in *. clearbody i n. unfold words_from.
  rewrite (nth_indep _ 0 (word big w f (p + Z.of_nat w * 0))) by (rewrite map_length, zseq_length; lia). rewrite (map_nth (fun i => word big w f (p + Z.of_nat w * i))). rewrite nth_zseq by lia. rewrite Z2Nat.id, Z.add_0_l by lia. reflexivity.
Qed.
(** Reading at once or later: the same, unless numbers of several bytes are big-endian *)
Theorem C79_lazy : forall float fs big all spc ipr csv filename f, let h := header_of big f in complete h f -> big = false \/ bytes_per h = 1 ->
  si_reader float fs true big all spc ipr csv filename f = si_reader float fs false big all spc ipr csv filename f.
Proof.
  intros float fs big all spc ipr csv filename f h HC HB. pose proof HC as (H1 & HW & Hx & _). unfold si_reader. cbv zeta.
  rewrite (number_get _ _ _ _ (spd_start big f H1)), (number_get _ _ _ _ (spd_nx big f H1)), (number_get _ _ _ _ (spd_ny big f H1)), (number_get _ _ _ _ (spd_nz big f H1)), (number_get _ _ _ _ (spd_spectra big f H1)), (number_get _ _ _ _ (spd_bytes big f H1)). cbn [bind]. fold h.
  rewrite (count_ok _ HW). cbn [bind]. rewrite (data_read true big f h HC (or_introl eq_refl)), (data_read false big f h HC (or_intror HB)). reflexivity.
Qed.
(** The data end too early *)
Theorem C79_cut : forall float fs lazy big all spc ipr csv filename f, let h := header_of big f in
  1068 <= zlen f -> bytes_per h = 1 \/ bytes_per h = 2 \/ bytes_per h = 4 -> 0 <= nx h -> 0 <= ny h -> 0 <= nz h -> 0 <= start h -> 0 < points h -> zlen f < start h + points h * bytes_per h ->
  si_reader float fs lazy big all spc ipr csv filename f = Err ValueError.
Proof.
  intros float fs lazy big all spc ipr csv filename f h H1 HW Hx Hy Hz Hs P He. unfold si_reader. cbv zeta.
  rewrite (number_get _ _ _ _ (spd_start big f H1)), (number_get _ _ _ _ (spd_nx big f H1)), (number_get _ _ _ _ (spd_ny big f H1)), (number_get _ _ _ _ (spd_nz big f H1)), (number_get _ _ _ _ (spd_spectra big f H1)), (number_get _ _ _ _ (spd_bytes big f H1)). cbn [bind]. fold h.
  rewrite (count_ok _ HW). cbn [bind]. replace (nx h <? 0) with false by lia. unfold map_data. replace (prodZ [ny h; nx h; nz h]) with (points h) by (unfold prodZ, points; cbn [fold_right]; lia).
  assert (EW : bytes_per h = Z.of_nat (Z.to_nat (bytes_per h))) by lia. destruct lazy.
  - unfold memmap. replace ((start h <? 0) || (points h <? 0)) with false by lia. replace (zlen f <? start h + points h * bytes_per h) with true by (symmetry; apply Z.ltb_lt; lia). reflexivity.
  - rewrite EW at 1. rewrite fromfile_words by lia. rewrite <- EW. cbn [bind]. assert (D : Z.max 0 (zlen f - start h) / bytes_per h < points h) by (apply Z.div_lt_upper_bound; [lia|]; nia).
    assert (Q : 0 <= Z.max 0 (zlen f - start h) / bytes_per h) by (apply Z.div_pos; lia). rewrite zlen_words by lia. replace (Z.min (points h) _ =? points h) with false by lia. reflexivity.
Qed.

(** * An example, and the byte order *)
Definition no_files : files := {| bytes_file := fun _ => None; text_file := fun _ => None |}.
Definition demo_map (big : bool) : list Z :=
  repeat 0 20 ++ enc big 4 6 ++ enc big 4 3 ++ enc big 4 2 ++ enc big 4 2 ++ enc big 4 2 ++ enc big 4 1068 ++ repeat 0 4 ++ [109; 46; 98; 109; 112] ++ repeat 0 1015 ++ flat_map (enc big 2) (zseq 500 12).
Definition demo_files : files :=
  {| bytes_file := fun s => if eqb_str s (str "d/m.ipr") then Some (repeat 0 64 ++ le 4 77 ++ le 4 88 ++ repeat 0 180) else if eqb_str s (str "d/a.spc") then Some demo_spc else None; text_file := fun _ => None |}.
Example C79_example : complete (header_of false (demo_map false)) (demo_map false) /\
  exists s, si_reader (fun _ => Err ValueError) demo_files false false false None None None (str "d/a.spd") (demo_map false) = Ok s /\
    s_shape s = [2; 3; 2] /\ s_data s = zseq 500 12 /\ map a_scale (s_axes s) = [Word 88; Word 77; Number (10 # 1000)] /\ map a_size (s_axes s) = [2; 3; 2] /\
    map a_units (s_axes s) = [Some "um"; Some "um"; Some "keV"]%string.
Proof.
  split; [repeat split; try (vm_compute; discriminate); right; left; reflexivity|].
  eexists. split; [vm_compute; reflexivity|]. repeat split.
Qed.
(** Big-endian maps: read later, the numbers are right; read at once, their bytes are swapped *)
Theorem C79_big_refuted : let f := demo_map true in let r lazy := si_reader (fun _ => Err ValueError) no_files lazy true false None None None (str "a.spd") f in
  complete (header_of true f) f /\ exists s t, r true = Ok s /\ s_data s = zseq 500 12 /\ r false = Ok t /\ s_data t = map (fun x => x mod 256 * 256 + x / 256) (zseq 500 12).
Proof.
  cbv zeta. split; [repeat split; try (vm_compute; discriminate); right; left; reflexivity|].
  do 2 eexists. split; [vm_compute; reflexivity|]. split; [reflexivity|]. split; vm_compute; reflexivity.
Qed.
(** Numbers of other sizes are refused *)
Theorem C79_bytes : forall n, (exists w, count_bytes n = Ok w) <-> n = 1 \/ n = 2 \/ n = 4.
Proof. intro n. unfold count_bytes. split; [|intros [-> |[-> | ->]]; eexists; reflexivity]. intros [w E]. destruct ((n =? 1) || (n =? 2) || (n =? 4)) eqn:B; [lia|discriminate E]. Qed.
Print Assumptions C79_map.
Print Assumptions C79_index.
Print Assumptions C79_lazy.
Print Assumptions C79_cut.
Print Assumptions C79_bytes.
Print Assumptions C79_big_refuted.
