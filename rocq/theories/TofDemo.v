(** Examples, and claims about Tofwerk files that are false. *)
From Coq Require Import QArith Sorting.Sorted Permutation.
From Verif Require Import Base Text HierModel HierProps HierProof DistModel DistProps RowMajor SfsModel ProtoFile TofModel TofProps TofPeaks TofFile.
Local Open Scope Z_scope.

Definition pk (label : string) (mass low high : Q) : peak := {| p_label := str label; p_mass := mass; p_low := low; p_high := high |}.
Definition demo_peaks : list peak := [pk "nominal1" 1 (1 # 2) (3 # 2); pk "Ga" 7 (13 # 2) (15 # 2); pk "nominal3" 3 (5 # 2) (7 # 2); pk "C" 5 (9 # 2) (11 # 2); pk "O" 6 (23 # 4) (25 # 4)].
Definition demo_masses : list Q := [- 1; - (1 # 2); 1; 0; 2; 3; 4; 5; 6; 7]%Q.
Definition demo_data : array := {| a_shape := [3; 2; 2; 5]; a_at := fun i => match i with [w; s; x; k] => 1000 * w + 100 * s + 10 * x + k | _ => 0 end |}.
Definition demo_events : events := {| e_shape := (3, 2, 2); e_at := fun w s x => if (w =? 1) && (s =? 1) && (x =? 0) then [4; 5; 10; 10; 11; 14; 16; 18; 18; 19; 25; -3] else [] |}.
Definition im (ny n v : Z) : picture := {| i_shape := (ny, n); i_at := fun y x => 100 * v + 10 * y + x |}.
Definition demo_images : list (pystr * picture) := [(str "Image0003", im 2 2 3); (str "Image0000", im 2 2 0); (str "Image0001", im 3 3 1); (str "Image0002", im 2 2 2)].
Definition demo_ini : pystr := str "Ch1Record=1 Ch2Record=1 Ch3Record=0 Chx Ch4Record=x".
Definition demo (data : option array) : tof := {| t_groups := (true, true, true); t_version := true; t_writes := Some 3; t_segments := Some 2; t_waveforms := None; t_ini := demo_ini;
  t_sample := Some 2%Q; t_clock := Some 1%Q; t_view := Some (1 # 100)%Q; t_masses := Some demo_masses; t_sum := Some [9; 8; 7; 6; 5; 4; 3; 2; 1; 0];
  t_peaks := Some demo_peaks; t_data := data; t_events := Some demo_events; t_images := Some demo_images |}.
(** What is in a signal *)
Definition listed (a : array) : list Z := map (a_at a) (box_indices (a_shape a)).
Definition shown (s : signal) : string * list Z * list (list Q) * list Z :=
  (kind_name (s_kind s), map x_size (s_axes s), map (fun a => match x_values a with Some l => map Qred l | None => [] end) (s_axes s), match s_data s with Spectrum l => l | Elements a => listed a | Ragged _ => [] end).
Definition show (r : res (list signal)) : res (list (string * list Z * list (list Q) * list Z)) := let! l := r in Ok (map shown l).

(** * C115 *)
Example C115_channels_demo : active_channels demo_ini = 2.
Proof. destruct (records_total (S (List.length demo_ini)) demo_ini ltac:(lia)) as [l R]. rewrite (C115_channels _ l R). rewrite <- (channels_records _ _ R (S (List.length demo_ini)) ltac:(lia)). vm_compute. reflexivity. Qed.
Example C115_ratio_demo : clock_ratio (demo None) = 2 /\ (2 - 1 * (1 # 2) <= inject_Z 2 * 1 <= 2 + 1 * (1 # 2))%Q.
Proof. split; [reflexivity|]. exact (C115_ratio (demo None) 1 2 eq_refl eq_refl ltac:(reflexivity)). Qed.
Lemma demo_apart : apart demo_peaks /\ proper demo_peaks.
Proof.
  split.
  - intros i j I J N. cbn [demo_peaks List.length] in I, J. do 5 (destruct i as [|i]; [do 5 (destruct j as [|j]; [first [congruence|left; reflexivity|right; reflexivity]|]); lia|]). lia.
  - repeat constructor; cbn; discriminate.
Qed.
Example C115_counts_demo : forall numba, row_counts numba demo_masses (zlen demo_masses) 2 demo_peaks [[]; [4; 5; 10; 10; 11; 14; 16; 18; 18; 19; 25; -3]] = Ok [[0; 0; 0; 0; 0]; [2; 3; 3; 1; 1]] /\ apart demo_peaks /\ proper demo_peaks /\ (2 <> 0).
Proof. intro numba. split; [destruct numba; vm_compute; reflexivity|]. split; [apply demo_apart|]. split; [apply demo_apart|lia]. Qed.
Example C115_events_demo : forall numba, show (let! a := from_events numba (demo None) demo_peaks 1 3 in Ok [{| s_kind := Nominal; s_data := Elements a; s_axes := []; s_table := None |}]) =
  Ok [("nominal_peak_data"%string, [], [], [0; 0; 0; 0; 0; 0; 0; 0; 0; 0; 1; 1; 1; 0; 0; 0; 0; 0; 0; 0; 0; 0; 0; 0; 0; 0; 0; 0; 0; 0; 0; 0; 0; 0; 0; 0; 0; 0; 0; 0])].
Proof. intros []; vm_compute; reflexivity. Qed.
(** With windows that overlap an event in a window is not counted for it *)
Theorem C115_overlap_refuted : exists masses peaks, ~ forall numba row r x evs k, row_counts numba masses (zlen masses) 1 peaks row = Ok r -> nth_error row x = Some evs -> (k < List.length peaks)%nat ->
  number_of (fun e => exists m, mass_of masses 1 e m /\ (p_low (peak_at peaks k) <= m <= p_high (peak_at peaks k))%Q) evs (nth k (nth x r []) 0).
Proof.
  exists [4%Q], [pk "A" 3 1 5; pk "B" (5 # 2) 2 3]. intro H. specialize (H true [[0]] [[0; 0]] O [0] O eq_refl eq_refl ltac:(cbn; lia)). destruct H as (f & F & C). cbn [nth countZ] in C. assert (T : f 0 = true). { apply F. exists 4%Q. split; [split; [reflexivity || (split; [lia|reflexivity])|reflexivity]|]. split; vm_compute; discriminate. } rewrite T in C. lia.
Qed.
(** The period of the clock more than twice that of the samples: an error with the compiled path only *)
Theorem C115_clock_refuted : forall masses samples peaks row, List.concat row <> [] -> row_counts true masses samples 0 peaks row = Err ZeroDivisionError /\ exists r, row_counts false masses samples 0 peaks row = Ok r.
Proof.
  intros masses samples peaks row N. split; [|eexists; reflexivity]. unfold row_counts, flatten. cbv beta iota zeta. replace (Nat.eqb (List.length (List.concat row)) 0) with false; [reflexivity|]. destruct (List.concat row); [congruence|reflexivity].
Qed.
Example C115_clock_demo : clock_ratio {| t_groups := (true, true, true); t_version := true; t_writes := None; t_segments := None; t_waveforms := None; t_ini := []; t_sample := Some 1%Q; t_clock := Some 2%Q; t_view := None; t_masses := None; t_sum := None; t_peaks := None; t_data := None; t_events := None; t_images := None |} = 0.
Proof. reflexivity. Qed.
(** Counts are divided, and the rest is lost: the sum of the counts need not be that of the events *)
Theorem C115_division_refuted : exists t peaks a, from_events true t peaks 0 1 = Ok a /\ t_events t = Some {| e_shape := (1, 1, 1); e_at := fun _ _ _ => [0] |} /\ row_counts true [1%Q] 1 1 peaks [[0]] = Ok [[1]] /\ a_at a [0; 0; 0; 0] = 0.
Proof.
  exists {| t_groups := (true, true, true); t_version := true; t_writes := Some 1; t_segments := Some 1; t_waveforms := Some 2; t_ini := []; t_sample := None; t_clock := None; t_view := None; t_masses := Some [1%Q]; t_sum := None; t_peaks := None; t_data := None; t_events := Some {| e_shape := (1, 1, 1); e_at := fun _ _ _ => [0] |}; t_images := None |}, [pk "A" 1 0 2].
  eexists. split; [reflexivity|]. repeat split; vm_compute; reflexivity.
Qed.

(** * C116 *)
Example C116_nominal_demo : show (make true (demo (Some demo_data)) 1 2 None 2 2 Nominal) = Ok [("nominal_peak_data"%string, [1; 2; 2; 2], [[]; []; []; [1; 3]%Q], [1000; 1002; 1010; 1012; 1100; 1102; 1110; 1112])].
Proof. vm_compute. reflexivity. Qed.
Example C116_additional_demo : show (make true (demo (Some demo_data)) 1 2 None 2 2 Additional) = Ok [("additional_peak_data"%string, [1; 2; 2; 3], [[]; []; []; [5; 6; 7]%Q], [1003; 1004; 1001; 1013; 1014; 1011; 1103; 1104; 1101; 1113; 1114; 1111])].
Proof. vm_compute. reflexivity. Qed.
Example C116_range_demo : show (make true (demo (Some demo_data)) 2 3 (Some (11 # 2, 10)%Q) 2 2 Additional) = Ok [("additional_peak_data"%string, [1; 2; 2; 2], [[]; []; []; [6; 7]%Q], [2004; 2001; 2014; 2011; 2104; 2101; 2114; 2111])].
Proof. vm_compute. reflexivity. Qed.
Example C116_hypotheses_demo : t_data (demo (Some demo_data)) = Some demo_data /\ a_shape demo_data = [3; 2; 2; 5] /\ zlen (table (demo (Some demo_data))) <= 5 /\ e_shape demo_events = (3, 2, 2) /\ clock_ratio (demo None) <> 0.
Proof. repeat split; try reflexivity; vm_compute; congruence. Qed.
Example C116_events_demo : show (make false (demo None) 1 2 None 2 2 Additional) = Ok [("additional_peak_data"%string, [1; 2; 2; 3], [[]; []; []; [5; 6; 7]%Q], [0; 0; 0; 0; 0; 0; 0; 0; 1; 0; 0; 0])].
Proof. vm_compute. reflexivity. Qed.
(** The table of peaks in the metadata is not in the order of the axis *)
Theorem C116_table_refuted : exists t s l, make true t 0 3 None 2 2 Additional = Ok [s] /\ s_table s = Some l /\ ~ In (Some (map p_mass l)) (map x_values (s_axes s)).
Proof.
  exists (demo (Some demo_data)). do 2 eexists. split; [vm_compute; reflexivity|]. split; [reflexivity|]. vm_compute. intros [H|[H|[H|[H|[]]]]]; discriminate H.
Qed.
(** ... nor limited to the range of masses *)
Theorem C116_table_range_refuted : exists t s l p, make true t 0 3 (Some (2, 4)%Q) 2 2 Nominal = Ok [s] /\ s_table s = Some l /\ In p l /\ ~ ranged (Some (2, 4)%Q) p.
Proof.
  exists (demo (Some demo_data)). do 2 eexists. exists (pk "nominal1" 1 (1 # 2) (3 # 2)). split; [vm_compute; reflexivity|]. split; [reflexivity|]. split; [left; reflexivity|]. intros [H _]. vm_compute in H. congruence.
Qed.

(** * C117 *)
Example C117_sum_demo : grows_from demo_masses 3 /\ show (make true (demo None) 0 3 None 2 2 Sum) = Ok [("sum_spectrum"%string, [7], [[0; 2; 3; 4; 5; 6; 7]%Q], [6; 5; 4; 3; 2; 1; 0])].
Proof.
  split; [|vm_compute; reflexivity]. exists 2%nat. split; [left; exists 1%Q; split; [reflexivity|]; split; [vm_compute; discriminate|]; intros [|[|j]] p J H; [injection H as <-; reflexivity|injection H as <-; reflexivity|lia]|]. split; [cbn; lia|]. split; [|intros p q P Q; injection P as <-; injection Q as <-; reflexivity]. intros j p q J P Q. assert (j = 2%nat) by lia. subst. injection P as <-. injection Q as <-. vm_compute. discriminate.
Qed.
(** Later masses that do not grow stay in the axis *)
Theorem C117_dip_refuted : exists t s ms, make true t 0 1 None 1 1 Sum = Ok [s] /\ s_axes s = [mass_axis ms] /\ exists i a b, nth_error ms i = Some a /\ nth_error ms (S i) = Some b /\ (b < a)%Q.
Proof.
  exists {| t_groups := (true, true, true); t_version := true; t_writes := Some 1; t_segments := Some 1; t_waveforms := None; t_ini := []; t_sample := None; t_clock := None; t_view := None; t_masses := Some [0; 1; 1 # 2; 2]%Q; t_sum := Some [1; 2; 3; 4]; t_peaks := None; t_data := None; t_events := None; t_images := None |}.
  eexists. exists [0; 1; 1 # 2; 2]%Q. split; [vm_compute; reflexivity|]. split; [reflexivity|]. exists 1%nat. do 2 eexists. split; [reflexivity|]. split; [reflexivity|]. reflexivity.
Qed.
Example C117_events_demo : exists s e, make true (demo None) 1 3 None 2 2 EventList = Ok [s] /\ s_data s = Ragged e /\ e_shape e = (2, 2, 2) /\ e_at e 0 1 0 = [4; 5; 10; 10; 11; 14; 16; 18; 18; 19; 25; -3].
Proof. destruct (C117_events true (demo None) 1 3 None 2 2 demo_events 3 eq_refl eq_refl ltac:(lia)) as (s & e & M & _ & D & S & _ & A). exists s, e. split; [exact M|]. split; [exact D|]. split; [exact S|]. rewrite A. reflexivity. Qed.
Example C117_images_demo : show (make true (demo None) 1 3 None 2 2 Fib) = Ok [("fib_images"%string, [2; 2; 2], [[]; []; []], [200; 201; 210; 211; 300; 301; 310; 311])] /\ demo_images <> [].
Proof. split; [vm_compute; reflexivity|discriminate]. Qed.
(** Images of other shapes are left out before the range of depths is taken: the images of another depth are read *)
Theorem C117_depth_refuted : exists t images p a, t_images t = Some images /\ nth_error (sort_items images) 1 = Some p /\ i_shape (snd p) = (3, 3) /\
  make true t 2 3 None 2 2 Fib = Ok [a] /\ (forall q, nth_error (sort_items images) 2 = Some q -> match s_data a with Elements d => listed d <> map (fun yx => i_at (snd q) (fst yx) (snd yx)) [(0, 0); (0, 1); (1, 0); (1, 1)] | _ => True end).
Proof.
  exists (demo None), demo_images. do 2 eexists. split; [reflexivity|]. split; [vm_compute; reflexivity|]. split; [reflexivity|]. split; [vm_compute; reflexivity|]. intros q H. vm_compute in H. injection H as <-. vm_compute. discriminate.
Qed.
Example C117_reader_demo : (let! l := tof_reader true (demo (Some demo_data)) [str "fib_images"; str "sum_spectrum"; str "fib_images"] None (Some (0, 2)) in Ok (map s_kind l)) = Ok [Sum; Fib].
Proof. vm_compute. reflexivity. Qed.
Example C117_all_demo : (let! l := tof_reader true (demo None) [str "all"] None None in Ok (map s_kind l)) = Ok [Sum; Nominal; Additional; EventList; Fib] /\ available (demo None) = Ok (map str ["sum_spectrum"; "nominal_peak_data"; "additional_peak_data"; "event_list"; "fib_images"]%string).
Proof. split; vm_compute; reflexivity. Qed.
Example C117_selection_demo : tofdaq (demo None) /\ Forall known [str "sum_spectrum"] /\ width (demo None) 2 /\ depth_ok (demo None) (Some (1, 3)) 1 3 /\ mz_ok (Some (1, 2)%Q) /\ (forall k, wanted [str "sum_spectrum"] k -> ~ possible (demo None) k -> In (str "all") [str "sum_spectrum"]).
Proof.
  split; [split; reflexivity|]. split; [constructor; [right; exists Sum; reflexivity|constructor]|]. split; [reflexivity|]. split; [cbn; unfold writes; cbn; lia|]. split; [reflexivity|]. intros k [[W|[]]|[W|[]]] N; [discriminate W|]. destruct k; try discriminate W. destruct N. exact I.
Qed.
Example C117_refused_demo : tof_reader true (demo None) [str "sum"] None None = Err ValueError /\ tof_reader true (demo None) [str "all"] None (Some (2, 5)) = Err ValueError /\ tof_reader true (demo None) [str "all"] (Some (2, 2)%Q) None = Err ValueError.
Proof. repeat split; vm_compute; reflexivity. Qed.
Print Assumptions C115_channels.
Print Assumptions C115_ratio.
Print Assumptions C115_counts.
Print Assumptions C115_paths.
Print Assumptions C115_apart.
Print Assumptions C115_events.
Print Assumptions C115_overlap_refuted.
Print Assumptions C115_clock_refuted.
Print Assumptions C115_division_refuted.
Print Assumptions C116_nominal.
Print Assumptions C116_nominal_events.
Print Assumptions C116_additional.
Print Assumptions C116_additional_events.
Print Assumptions C116_table_refuted.
Print Assumptions C116_table_range_refuted.
Print Assumptions C117_sum.
Print Assumptions C117_dip_refuted.
Print Assumptions C117_events.
Print Assumptions C117_images.
Print Assumptions C117_depth_refuted.
Print Assumptions C117_selection.
Print Assumptions C117_kinds.
Print Assumptions C117_available.
Print Assumptions C117_refused.
