(** Properties C78 to C80 again: names of elements, files and extensions of EDAX files. *)
From Coq Require Import QArith.
From Verif Require Import Base Text Bytes Utf8 SfsModel SfsProps BcfUnpack HierModel RowMajor SurFloat SurQuantity EdaxModel EdaxHeader EdaxMap EdaxLine.
Local Open Scope Z_scope.

(** The symbols in the order of the atomic numbers, as in the table of the package *)
Definition symbols : list pystr := split_char 32 (str
  "H He Li Be B C N O F Ne Na Mg Al Si P S Cl Ar K Ca Sc Ti V Cr Mn Fe Co Ni Cu Zn Ga Ge As Se Br Kr Rb Sr Y Zr Nb Mo Tc Ru Rh Pd Ag Cd In Sn Sb Te I Xe Cs Ba La Ce Pr Nd Pm Sm Eu Gd Tb Dy Ho Er Tm Yb Lu Hf Ta W Re Os Ir Pt Au Hg Tl Pb Bi Po At Rn Fr Ra Ac Th Pa U Np Pu Am Cm Bk Cf Es Fm Md No Lr Rf Db Sg Bh Hs Mt Ds Rg Cp Uut Uuq Uup Uuh Uus Uuo Uue").
Theorem C78_element_table : forall z, element_name z = if (1 <=? z) then match nth_error symbols (Z.to_nat (z - 1)) with Some s => Ok s | None => Err KeyError end else Err KeyError.
Proof.
  intro z. assert (K : forall l (i : Z) z, 0 < i -> (forall j p, nth_error l j = Some p -> fst p = i + Z.of_nat j) ->
    match find (fun p : Z * string => fst p =? z) l with Some p => Ok (str (snd p)) | None => Err KeyError end = if (i <=? z) then match nth_error (map (fun p => str (snd p)) l) (Z.to_nat (z - i)) with Some s => Ok s | None => Err KeyError end else Err KeyError).
  { clear z. induction l as [|[a s] l IH]; intros i z Hi H.
    - cbn [find map]. destruct (i <=? z); [|reflexivity]. destruct (Z.to_nat (z - i)); reflexivity.
    - pose proof (H 0%nat (a, s) eq_refl) as A. cbn in A. replace a with i by lia. cbn [find fst]. destruct (i =? z) eqn:E.
      + replace z with i by lia. replace (i <=? i) with true by lia. rewrite Z.sub_diag. reflexivity.
      + rewrite (IH (i + 1) z) by (try lia; intros j p Hj; pose proof (H (S j) p Hj); lia). destruct (i <=? z) eqn:L; [|replace (i + 1 <=? z) with false by lia; reflexivity]. replace (i + 1 <=? z) with true by lia. replace (Z.to_nat (z - i)) with (S (Z.to_nat (z - (i + 1)))) by lia. reflexivity. }
  unfold element_name. rewrite (K elements 1 z ltac:(lia)).
  - replace (map (fun p : Z * string => str (snd p)) elements) with symbols by (vm_compute; reflexivity). reflexivity.
  - assert (M : map fst elements = zseq 1 119) by (vm_compute; reflexivity). intros j p Hj. assert (N : nth_error (map fst elements) j = Some (fst p)) by (rewrite nth_error_map, Hj; reflexivity). rewrite M in N. assert (L : (j < 119)%nat) by (rewrite <- (zseq_length 119 1); apply nth_error_Some; rewrite N; discriminate).
    rewrite (nth_error_nth' _ 0) in N by (rewrite zseq_length; exact L). rewrite nth_zseq in N by exact L. apply (f_equal (fun o => match o with Some x => x | None => 0 end)) in N. cbv beta iota in N. lia.
Qed.
Example C78_element_example : element_name 26 = Ok (str "Fe") /\ element_name 112 = Ok (str "Cp") /\ element_name 120 = Err KeyError /\ element_name 0 = Err KeyError.
Proof. repeat split. Qed.

(** The name in the header: zeros at its end are not part of it *)
Lemma drop_repeat : forall n l, drop_zeros (repeat 0 n ++ l) = drop_zeros l.
Proof. induction n as [|n IH]; intro l; [reflexivity|]. cbn [repeat app drop_zeros]. apply IH. Qed.
Lemma zeros_rev : forall n, rev (map (fun x => x mod 256) (repeat 0 n)) = repeat 0 n.
Proof. induction n as [|n IH]; [reflexivity|]. cbn [repeat map rev]. rewrite IH. clear IH. change (0 mod 256) with 0. induction n as [|n IH]; [reflexivity|]. cbn [repeat app]. rewrite IH. reflexivity. Qed.
Theorem C79_name_bytes : forall s c n, c mod 256 <> 0 -> bytes_text ((s ++ [c]) ++ repeat 0 n) = map (fun x => x mod 256) (s ++ [c]).
Proof.
  intros s c n H. unfold bytes_text. rewrite map_app, rev_app_distr. replace (rev (map (fun x => x mod 256) (repeat 0 n))) with (repeat 0 n) by (symmetry; apply zeros_rev).
  rewrite drop_repeat. rewrite map_app, rev_app_distr. cbn [map rev app]. set (d := c mod 256) in *. assert (E : drop_zeros (d :: rev (map (fun x => x mod 256) s)) = d :: rev (map (fun x => x mod 256) s)) by (destruct d; [contradiction|reflexivity|reflexivity]). rewrite E. cbn [rev]. rewrite rev_involutive. reflexivity.
Qed.
Example C79_name_bytes_example : bytes_text [0; 97; 46; 105; 0; 0] = [0; 97; 46; 105].
Proof. reflexivity. Qed.
(** The .ipr file is next to the map, and has the name of the header with another extension *)
Theorem C79_ipr_name : forall d root ext name ext', plain root ext -> plain name ext' -> directory d -> Forall (fun c => 0 <= c < 128) name ->
  ipr_name (d ++ 47 :: root ++ 46 :: ext) (name ++ 46 :: ext') = Ok (d ++ 47 :: name ++ str ".ipr") /\
  forall e, ipr_name (d ++ 47 :: root ++ 46 :: ext) (e ++ 47 :: name ++ 46 :: ext') = Ok (d ++ 47 :: name ++ str ".ipr").
Proof.
  intros d root ext name ext' H H' HD A. unfold ipr_name. pose proof (plain_name root ext H) as N. pose proof (plain_name name ext' H') as N'. assert (U : utf8_decode name = Ok name) by (clear - A; induction A as [|c n Hc A IH]; [reflexivity|]; cbn [utf8_decode]; replace (c <? 128) with true by lia; rewrite IH; reflexivity).
  assert (J : path_join d (name ++ str ".ipr") = d ++ 47 :: name ++ str ".ipr") by (apply join_dir; [exact HD|apply first_no; [exact (proj1 H')|exact (plain_nonempty _ _ H')]]).
  split; [|intro e]; rewrite ?(basename_plain _ N'), ?(basename_dir e _ N'); rewrite dirname_dir by assumption; rewrite splitext_plain by exact H'; cbn [fst]; rewrite U; cbn [bind]; rewrite J; reflexivity.
Qed.
Example C79_ipr_name_example : plain (str "map") (str "spd") /\ plain (str "map1_Img") (str "bmp") /\ directory (str "/data") /\ Forall (fun c => 0 <= c < 128) (str "map1_Img") /\
  ipr_name (str "/data/map.spd") (str "map1_Img.bmp") = Ok (str "/data/map1_Img.ipr").
Proof.
  assert (P : forall r e, forallb (fun c => negb (c =? 47)) r && forallb (fun c => negb (c =? 47) && negb (c =? 46)) e && existsb (fun c => negb (c =? 46)) r = true -> plain r e).
  { intros r e H. apply andb_prop in H. destruct H as [H X]. apply andb_prop in H. destruct H as [R E]. rewrite forallb_forall in R, E. apply existsb_exists in X. destruct X as (c & I & C). repeat split.
    - intro K. specialize (R _ K). discriminate R.
    - intro K. specialize (E _ K). discriminate E.
    - intro K. specialize (E _ K). discriminate E.
    - exists c. split; [exact I|]. intros ->. discriminate C. }
  split; [apply P; reflexivity|]. split; [apply P; reflexivity|]. split; [exists (str "/dat"), 97; split; [reflexivity|lia]|]. split; [repeat constructor; lia|reflexivity].
Qed.

(** A .csv file of less than 14 lines *)
Theorem C80_csv_cut : forall float lines, (List.length lines < 14)%nat -> read_csv float lines = Err StopIteration.
Proof.
  intros float lines H. unfold read_csv. assert (K : forall n d l, (List.length l < n)%nat -> csv_header n d l = Err StopIteration) by (clear; induction n as [|n IH]; intros d l H; [lia|]; destruct l as [|x l]; [reflexivity|]; cbn [csv_header]; apply IH; cbn [List.length] in H; lia). rewrite K by exact H. reflexivity.
Qed.
Example C80_csv_cut_example : read_csv demo_float (firstn 13 demo_csv) = Err StopIteration /\ List.length (firstn 13 demo_csv) = 13%nat.
Proof. split; reflexivity. Qed.
(** A negative number of spectra leaves out that many at the end, as slices do *)
Theorem C80_negative : forall n k rest data, n < 0 -> k <> 1 -> Forall (fun x => x <> 1) rest -> rest <> [] ->
  first_spectra n (k :: rest) data = Ok (Z.max 0 (k + n) :: rest, firstz (Z.max 0 (k + n) * prodZ rest) data).
Proof.
  intros n k rest data N K R E. unfold first_spectra. cbn [filter]. replace (k =? 1) with false by lia. cbn [negb]. assert (F : filter (fun k => negb (k =? 1)) rest = rest) by (clear - R; induction R as [|x l Hx R IH]; [reflexivity|]; cbn [filter]; replace (x =? 1) with false by lia; cbn [negb]; rewrite IH; reflexivity). rewrite F. destruct rest as [|r rest]; [contradiction|]. replace (n <? 0) with true by lia. reflexivity.
Qed.
Example C80_negative_example : first_spectra (-1) [3; 2] [1; 2; 3; 4; 5; 6] = Ok ([2; 2], [1; 2; 3; 4]).
Proof. reflexivity. Qed.

(** The extension decides, in upper or lower case *)
Theorem C80_dispatch : forall float fs lazy big all spc ipr csv dir root ext f, plain root ext -> let filename := dir ++ 47 :: root ++ 46 :: ext in bytes_file fs filename = Some f ->
  edax_reader float fs lazy big all spc ipr csv filename =
  (if eqb_str (lower ext) (str "spd") || eqb_str (lower ext) (str "lsd") then si_reader float fs lazy big all spc ipr csv filename f
   else if eqb_str (lower ext) (str "spc") then spc_reader lazy big all f else Err ValueError).
Proof. intros float fs lazy big all spc ipr csv dir root ext f H filename F. unfold edax_reader. rewrite F. unfold filename. rewrite splitext_dir by exact H. reflexivity. Qed.
Theorem C80_missing : forall float fs lazy big all spc ipr csv filename, bytes_file fs filename = None -> edax_reader float fs lazy big all spc ipr csv filename = Err IOError.
Proof. intros float fs lazy big all spc ipr csv filename F. unfold edax_reader. rewrite F. reflexivity. Qed.
Definition one_file (name : pystr) (f : list Z) : files := {| bytes_file := fun s => if eqb_str s name then Some f else None; text_file := fun _ => None |}.
Example C80_dispatch_example : exists s t u,
  edax_reader demo_float (one_file (str "d/a.SPD") (demo_map false)) false false false None None None (str "d/a.SPD") = Ok s /\ s_title s = "EDS Spectrum Image"%string /\
  edax_reader demo_float (one_file (str "d/a.lsd") demo_scan) false false false None None None (str "d/a.lsd") = Ok t /\ s_title t = "EDS Line Scan"%string /\
  edax_reader demo_float (one_file (str "d/a.Spc") demo_spc) false false true None None None (str "d/a.Spc") = Ok u /\ s_title u = "EDS Spectrum"%string /\
  edax_reader demo_float (one_file (str "d/a.txt") demo_spc) false false true None None None (str "d/a.txt") = Err ValueError.
Proof. do 3 eexists. split; [vm_compute; reflexivity|]. split; [reflexivity|]. split; [vm_compute; reflexivity|]. split; [reflexivity|]. split; [vm_compute; reflexivity|]. split; reflexivity. Qed.
(** A file of which only the short header is there can be read only with the short header *)
Example C80_short_header : exists s, edax_reader demo_float (one_file (str "d/a.spc") (firstz 20740 demo_spc)) false false false None None None (str "d/a.spc") = Ok s /\ s_shape s = [0] /\
  edax_reader demo_float (one_file (str "d/a.spc") (firstz 20740 demo_spc)) false false true None None None (str "d/a.spc") = Err TypeError.
Proof. eexists. split; [vm_compute; reflexivity|]. split; vm_compute; reflexivity. Qed.
Print Assumptions C78_element_table.
Print Assumptions C79_name_bytes.
Print Assumptions C79_ipr_name.
Print Assumptions C80_csv_cut.
Print Assumptions C80_negative.
Print Assumptions C80_dispatch.
Print Assumptions C80_missing.
