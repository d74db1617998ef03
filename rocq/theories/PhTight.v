(** Further properties of Phenom files (C106, C107). *)
From Coq Require Import QArith.
From Verif Require Import Base Bytes Text HierModel PhModel.
Local Open Scope Z_scope.

(** Nothing but nothing can be read at the end of a file *)
Theorem C106_end : forall n, read n [] = if n =? 0 then Ok ([], []) else Err OtherError.
Proof. reflexivity. Qed.
Theorem C106_end_numbers : read_uint32 [] = Err OtherError /\ read_string [] = Err OtherError.
Proof. split; reflexivity. Qed.
(** A text whose bytes are all missing is an error, unlike one with some of its bytes *)
Theorem C106_end_text : forall n, 0 < n < 2 ^ 8 -> read_string [n; 0; 0; 0] = Err OtherError.
Proof.
  intros n H. unfold read_string, read_uint32, exactly, pbind. cbn [read]. change (Z.to_nat (Z.of_nat 4)) with 4%nat. cbn [firstn skipn List.length Nat.eqb ret].
  replace (le_val [n; 0; 0; 0]) with n by (cbn; lia). cbn [read]. replace (n =? 0) with false by lia. reflexivity.
Qed.
(** A map without rows or columns *)
Theorem C107_empty_map : forall float om offset dispersion height width bins l title g, height = 0 \/ width = 0 -> map_signal float om offset dispersion height width bins l title <> Ok g.
Proof.
  intros float om offset dispersion height width bins l title g E H. unfold map_signal in H. repeat (match type of H with bind ?r _ = _ => destruct r; cbn [bind] in H; [|discriminate] end). cbv zeta in H. destruct (get_unit _) as [sc px].
  replace ((height =? 0) || (width =? 0)) with true in H by lia. discriminate.
Qed.
Example c106_end : read 3 [] = Err OtherError /\ read_string [5; 0; 0; 0] = Err OtherError /\ read_string [0; 0; 0; 0] = Ok ([], []).
Proof. split; [|split]; vm_compute; reflexivity. Qed.
Definition xmap : dict := [(str "acquisition", Dict [(str "scan", Dict [(str "fieldSize", Num 1); (str "scanScale", Txt (str "1"))])])].
Example c107_empty_map : map_signal (fun _ => Ok 1%Q) xmap 0 0 0 3 5 [] [] = Err ZeroDivisionError /\ is_ok (map_signal (fun _ => Ok 1%Q) xmap 0 0 2 3 5 [] []) = true.
Proof. split; vm_compute; reflexivity. Qed.
Print Assumptions C106_end.
Print Assumptions C106_end_numbers.
Print Assumptions C106_end_text.
Print Assumptions C107_empty_map.
