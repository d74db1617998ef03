(** Further theorems about [TofModel]: the clock, the size of pixels and the axes of every signal (claims C115 to C117). *)
From Coq Require Import QArith Qabs.
From Verif Require Import Base Text HierModel SfsModel DateModel DateProps TofModel.
Local Open Scope Z_scope.

(** Samples in one step of the clock: the nearest number; one when the clock is unknown or zero *)
Definition samples (t : tof) : Q := match t_sample t with Some s => s | None => 1%Q end.
Theorem C115_clock : forall t, ((t_clock t = None \/ exists c, t_clock t = Some c /\ (c == 0)%Q) -> clock_ratio t = 1) /\
  (forall c, t_clock t = Some c -> ~ (c == 0)%Q -> (Qabs (samples t / c - inject_Z (clock_ratio t)) <= 1 # 2)%Q).
Proof.
  intro t. unfold clock_ratio. split.
  - intros [->|(c & -> & Z)]; [reflexivity|]. apply Qeq_bool_iff in Z. rewrite Z. reflexivity.
  - intros c -> N. destruct (Qeq_bool c 0) eqn:Q0; [apply Qeq_bool_iff in Q0; contradiction|]. fold (samples t). destruct (samples t / c)%Q as [a b]. unfold round_q. cbn [Qnum Qden].
    pose proof (rhe_err a (Zpos b) ltac:(lia)) as H. set (n := round_half_even a (Zpos b)) in *. clearbody n.
    unfold Qabs, Qminus, Qplus, Qopp, inject_Z, Qle. cbn. lia.
Qed.
(** The size of a pixel in micrometres *)
Theorem C116_pixel : forall t n, (forall v, t_view t = Some v -> n <> 0 -> exists p, pixel_size t n = Some p /\ (p * inject_Z n == 1000 * v)%Q) /\ ((t_view t = None \/ n = 0) -> pixel_size t n = None).
Proof.
  intros t n. unfold pixel_size. split.
  - intros v -> N. replace (n =? 0) with false by lia. eexists. split; [reflexivity|]. field. intro K. unfold Qeq in K. cbn in K. lia.
  - intros [->| ->]; [reflexivity|]. destruct (t_view t); reflexivity.
Qed.
(** The axes of every signal *)
Definition depth_like (a : axis) : Prop := x_name a = "depth"%string /\ x_values a = None /\ x_scale a = Some 1%Q /\ x_units a = Some (str "slice") /\ x_navigate a = true.
Definition place_like (k : kind) (a : axis) : Prop := (x_name a = "y"%string \/ x_name a = "x"%string) /\ x_values a = None /\ (x_navigate a = true <-> k <> Fib) /\
  (x_scale a = None -> x_units a = None) /\ (x_scale a <> None -> x_units a = Some [181; 109]).
Definition mass_like (a : axis) : Prop := x_name a = "m/z"%string /\ x_values a <> None /\ x_scale a = None /\ x_units a = Some (str "Da") /\ x_navigate a = false.
Definition axis_like (k : kind) (a : axis) : Prop := depth_like a \/ place_like k a \/ mass_like a.
Definition axes_like (k : kind) (l : list string) : Prop := l = match k with Sum => ["m/z"] | Nominal | Additional => ["depth"; "y"; "x"; "m/z"] | EventList | Fib => ["depth"; "y"; "x"] end%string.
Lemma place_ok : forall k name n px nav, (name = "y" \/ name = "x")%string -> (nav = true <-> k <> Fib) -> axis_like k (place_axis name n px nav).
Proof. intros k name n px nav N V. right. left. unfold place_like, place_axis. cbn. repeat split; try tauto; destruct px; congruence. Qed.
Lemma depth_ok : forall k n, axis_like k (depth_axis n).
Proof. intros. left. repeat split. Qed.
Lemma mass_ok : forall k m, axis_like k (mass_axis m).
Proof. intros. right. right. repeat split. discriminate. Qed.
Theorem C116_axes : forall numba t start stop mz nsegs nx k l, make numba t start stop mz nsegs nx k = Ok l ->
  Forall (fun s => s_kind s = k /\ axes_like k (map x_name (s_axes s)) /\ Forall (axis_like k) (s_axes s)) l.
Proof.
  intros numba t start stop mz nsegs nx k l H. assert (NF : k <> Fib -> (true = true <-> k <> Fib)) by tauto. destruct k; cbn [make] in H.
  - unfold sum_signal in H. destruct (t_sum t), (t_masses t); cbn [bind] in H; try discriminate. destruct (first_valid l1); cbn [bind] in H; [|discriminate]. injection H as <-. constructor; [|constructor]. cbn [s_kind s_axes]. split; [reflexivity|]. split; [reflexivity|]. constructor; [apply mass_ok|constructor].
  - unfold nominal_signal in H. match type of H with match ?x with [] => _ | _ :: _ => _ end = _ => destruct x; [injection H as <-; constructor|] end. match type of H with bind ?r _ = _ => destruct r; [cbn [bind] in H|discriminate] end. injection H as <-.
    constructor; [|constructor]. cbn [s_kind s_axes]. split; [reflexivity|]. split; [reflexivity|]. unfold peaks_axes, peak_axes. repeat apply Forall_cons; try apply Forall_nil; [apply depth_ok|apply place_ok; [tauto|apply NF; discriminate]|apply place_ok; [tauto|apply NF; discriminate]|apply mass_ok].
  - unfold additional_signal in H. match type of H with match ?x with [] => _ | _ :: _ => _ end = _ => destruct x; [injection H as <-; constructor|] end. match type of H with bind ?r _ = _ => destruct r; [cbn [bind] in H|discriminate] end. injection H as <-.
    constructor; [|constructor]. cbn [s_kind s_axes]. split; [reflexivity|]. split; [reflexivity|]. unfold peaks_axes, peak_axes. repeat apply Forall_cons; try apply Forall_nil; [apply depth_ok|apply place_ok; [tauto|apply NF; discriminate]|apply place_ok; [tauto|apply NF; discriminate]|apply mass_ok].
  - unfold event_signal in H. destruct (t_events t) as [ev|]; [|discriminate]. destruct (e_shape ev) as [[nw ns] n]. match type of H with (if ?b then _ else _) = _ => destruct b; [|discriminate] end. injection H as <-.
    constructor; [|constructor]. cbn [s_kind s_axes]. split; [reflexivity|]. split; [reflexivity|]. repeat apply Forall_cons; try apply Forall_nil; [apply depth_ok|apply place_ok; [tauto|apply NF; discriminate]|apply place_ok; [tauto|apply NF; discriminate]].
  - unfold images_signal in H. destruct (t_images t) as [im|]; [|discriminate]. match type of H with match ?x with Some _ => _ | None => _ end = _ => destruct x as [[ny n]|]; [|discriminate] end. match type of H with match ?x with [] => _ | _ :: _ => _ end = _ => destruct x; [discriminate|] end. injection H as <-.
    constructor; [|constructor]. cbn [s_kind s_axes]. split; [reflexivity|]. split; [reflexivity|]. repeat apply Forall_cons; try apply Forall_nil; [apply depth_ok|apply place_ok; [tauto|split; [discriminate|congruence]]|apply place_ok; [tauto|split; [discriminate|congruence]]].
Qed.
Example C116_axes_demo : exists t, t_view t = Some (1 # 2)%Q /\ t_clock t = Some (3 # 10)%Q /\ t_sample t = Some 1%Q /\ clock_ratio t = 3 /\ pixel_size t 4 = Some ((1 # 2) * 1000 / inject_Z 4)%Q /\
  exists l, make true t 0 1 None 1 2 EventList = Ok l /\ List.length l = 1%nat.
Proof.
  exists {| t_groups := (true, true, true); t_version := true; t_writes := Some 1; t_segments := Some 1; t_waveforms := None; t_ini := []; t_view := Some (1 # 2)%Q; t_clock := Some (3 # 10)%Q; t_sample := Some 1%Q;
            t_peaks := None; t_data := None; t_events := Some {| e_shape := (1, 1, 2); e_at := fun _ _ _ => [7] |}; t_masses := None; t_sum := None; t_images := None |}.
  do 5 (split; [vm_compute; reflexivity|]). eexists. split; [reflexivity|]. reflexivity.
Qed.

Print Assumptions C115_clock.
Print Assumptions C116_pixel.
Print Assumptions C116_axes.
