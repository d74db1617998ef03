(** Properties C85 and C86: blanks, words and names of Quadstar files. *)
From Verif Require Import Base Text Bytes SfsModel RenModel QuadModel.
Local Open Scope Z_scope.

(** White space of Latin-1 *)
Definition blanks : list Z := [9; 10; 11; 12; 13; 28; 29; 30; 31; 32; 133; 160].
Theorem C85_blank : forall c, blank c = true <-> In c blanks.
Proof. intro c. unfold blank, blanks. cbn [In]. lia. Qed.
(** Words at negative offsets are counted from the end, and do not run over it *)
Theorem C85_word : forall w b k, 0 < w -> 0 < k ->
  (w <= k <= zlen b -> unpack w b (- k) = Ok (le_val (firstn (Z.to_nat w) (skipn (Z.to_nat (zlen b - k)) b)))) /\ (k < w \/ zlen b < k -> unpack w b (- k) = Err StructError).
Proof.
  intros w b k W K. unfold unpack. replace (- k <? 0) with true by lia. split; intro H.
  - replace ((0 <? - k + w) || (- k + zlen b <? 0)) with false by lia. unfold slice_at, slice. replace (- k + zlen b) with (zlen b - k) by lia. reflexivity.
  - replace ((0 <? - k + w) || (- k + zlen b <? 0)) with true by lia. reflexivity.
Qed.
(** All items of a rest: it must be of whole items *)
Theorem C85_rest : forall w b p, 0 < w -> 0 <= p <= zlen b -> ((w | zlen b - p) -> exists l, frombuffer w (-1) b p = Ok l /\ zlen l * w = zlen b - p /\ List.concat l = skipn (Z.to_nat p) b) /\ (~ (w | zlen b - p) -> frombuffer w (-1) b p = Err ValueError).
Proof.
  intros w b p W P. unfold frombuffer. replace ((p <? 0) || (zlen b <? p)) with false by lia. cbn [Z.ltb]. split; intro H.
  - change (-1 <? 0) with true. cbv iota. apply Z.mod_divide in H; [|lia]. rewrite H. cbn [Z.eqb]. eexists. split; [reflexivity|]. assert (E : zlen b - p = w * ((zlen b - p) / w)) by (rewrite (Z.div_mod (zlen b - p) w) at 1 by lia; lia). set (q := (zlen b - p) / w) in *. clearbody q. assert (Q0 : 0 <= q) by nia. assert (L : List.length (skipn (Z.to_nat p) b) = (Z.to_nat q * Z.to_nat w)%nat) by (apply Nat2Z.inj; rewrite Nat2Z.inj_mul, !Z2Nat.id by lia; rewrite skipn_length; unfold zlen in *; lia).
    rewrite skipz_skipn. split; [unfold zlen; rewrite records_length; rewrite Z2Nat.id by lia; unfold zlen in E; rewrite E; ring|]. rewrite records_flat by (rewrite L; apply le_n). rewrite <- L. apply firstn_all.
  - change (-1 <? 0) with true. cbv iota. destruct (Z.eqb_spec ((zlen b - p) mod w) 0) as [E|E]; [|reflexivity]. exfalso. apply H. apply Z.mod_divide; [lia|exact E].
Qed.
(** Names of SBC files end in .sbc, in letters of both cases *)
Definition letter (a b c : Z) : Prop := c = a \/ c = b.
Lemma lower_is : forall c a b, b = a - 32 -> 97 <= a <= 122 -> (lower c = a <-> letter a b c).
Proof. intros c a b B A. unfold lower, letter. destruct ((65 <=? c) && (c <=? 90)) eqn:E; lia. Qed.
Lemma rev_cons : forall (l : pystr) x r, rev l = x :: r -> l = rev r ++ [x].
Proof. intros l x r H. rewrite <- (rev_involutive l), H. reflexivity. Qed.
Theorem C86_name : forall name, endswith (str ".sbc") (map lower name) = true <-> exists a x y z, name = a ++ [46; x; y; z] /\ letter 115 83 x /\ letter 98 66 y /\ letter 99 67 z.
Proof.
  intro name. unfold endswith. rewrite <- map_rev. change (rev (str ".sbc")) with [99; 98; 115; 46]. split.
  - intro H. destruct (rev name) as [|z [|y [|x [|d r]]]] eqn:E; cbn [map startswith] in H; rewrite ?andb_false_r in H; try discriminate H. apply andb_prop in H. destruct H as [Hz H]. apply andb_prop in H. destruct H as [Hy H]. apply andb_prop in H. destruct H as [Hx H]. apply andb_prop in H. destruct H as [Hd _]. exists (rev r), x, y, z.
    split; [|split; [|split]].
    + rewrite <- (rev_involutive name), E. cbn [rev]. rewrite <- !app_assoc. cbn [app]. do 2 f_equal. unfold lower in Hd. destruct ((65 <=? d) && (d <=? 90)) eqn:G; lia.
    + apply lower_is; lia.
    + apply lower_is; lia.
    + apply lower_is; lia.
  - intros (a & x & y & z & -> & X & Y & Z). rewrite rev_app_distr. cbn [rev app map startswith]. apply lower_is in X; [|lia|lia]. apply lower_is in Y; [|lia|lia]. apply lower_is in Z; [|lia|lia]. rewrite X, Y, Z. reflexivity.
Qed.
Example C86_names : endswith (str ".sbc") (map lower (str "Run.SbC")) = true /\ endswith (str ".sbc") (map lower (str "Run.sac")) = false /\ endswith (str ".sbc") (map lower (str "sbc")) = false.
Proof. vm_compute. repeat split. Qed.
Example C85_words : unpack 2 [1; 2; 3; 4] (-4) = Ok 513 /\ unpack 2 [1; 2; 3; 4] (-1) = Err StructError /\ frombuffer 2 (-1) [1; 2; 3; 4; 5] 1 = Ok [[2; 3]; [4; 5]] /\ frombuffer 2 (-1) [1; 2; 3; 4; 5] 0 = Err ValueError /\ text_field [32; 160; 65; 66; 28; 0] 0 6 = [65; 66].
Proof. vm_compute. repeat split. Qed.

Print Assumptions C85_blank.
Print Assumptions C85_word.
Print Assumptions C85_rest.
Print Assumptions C86_name.
