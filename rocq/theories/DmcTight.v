(** A further property of Delmic files (C110). *)
From Verif Require Import Base Text HierModel DmcModel.
Local Open Scope Z_scope.
(** The title is the stored one, a stand-in when it cannot be decoded; without one an acquisition is not read *)
Theorem C110_title : forall utc g s, read_acquisition utc g = Ok s -> exists t, g_title g = Some t /\ s_title s = match t with Ok t => t | Err _ => str "__unnamed__" end.
Proof.
  intros utc g s H. unfold read_acquisition in H. match type of H with bind ?r _ = _ => destruct r as [[labels a]|]; cbn [bind] in H; [|discriminate] end.
  cbv zeta in H. repeat (match type of H with bind ?r _ = _ => lazymatch r with context [g_title] => fail | _ => destruct r; cbn [bind] in H; [|discriminate] end end).
  destruct (g_title g) as [[t|e]|]; cbn [bind] in H; [exists (Ok t)|exists (Err e)|discriminate]; injection H as <-; split; reflexivity.
Qed.

From Coq Require Import QArith.
From Verif Require Import DmcFile.
Example c110_title : match xse with (_, Some g) => match read_acquisition xutc g with Ok s => Some (s_title s, g_title g) | Err _ => None end | _ => None end <> None.
Proof. vm_compute. discriminate. Qed.
Print Assumptions C110_title.
