(** Strict UTF-8 as in CPython's str.encode() and bytes.decode(); nothing here mirrors
    code in /repo.  Strings are lists of code points, bytes are 0..255. *)
From Verif Require Import Base Text Bytes.

(** Code points that can be encoded: no surrogates. *)
Definition scalar (c : Z) : bool := (0 <=? c) && (c <? 1114112) && negb ((55296 <=? c) && (c <? 57344)).

Definition utf8_char (c : Z) : list Z :=
  if c <? 128 then [c]
  else if c <? 2048 then [192 + c / 64; 128 + c mod 64]
  else if c <? 65536 then [224 + c / 4096; 128 + c / 64 mod 64; 128 + c mod 64]
  else [240 + c / 262144; 128 + c / 4096 mod 64; 128 + c / 64 mod 64; 128 + c mod 64].

Definition utf8_encode (s : pystr) : res (list Z) :=
  if forallb scalar s then Ok (flat_map utf8_char s) else Err UnicodeError.

Definition cont (b : Z) : bool := (128 <=? b) && (b <? 192).
Definition emit (c lo : Z) (r : res pystr) : res pystr :=
  if scalar c && (lo <=? c) then (let! t := r in Ok (c :: t)) else Err UnicodeError.

Fixpoint utf8_decode (l : list Z) : res pystr :=
  match l with
  | [] => Ok []
  | a :: l1 =>
      if a <? 128 then (let! t := utf8_decode l1 in Ok (a :: t))
      else match l1 with
      | [] => Err UnicodeError
      | b :: l2 =>
          if negb ((194 <=? a) && cont b) then Err UnicodeError
          else if a <? 224 then emit (64 * (a - 192) + (b - 128)) 128 (utf8_decode l2)
          else match l2 with
          | [] => Err UnicodeError
          | c :: l3 =>
              if negb (cont c) then Err UnicodeError
              else if a <? 240 then emit (4096 * (a - 224) + 64 * (b - 128) + (c - 128)) 2048 (utf8_decode l3)
              else match l3 with
              | [] => Err UnicodeError
              | d :: l4 =>
                  if negb (cont d && (a <? 245)) then Err UnicodeError
                  else emit (262144 * (a - 240) + 4096 * (b - 128) + 64 * (c - 128) + (d - 128)) 65536 (utf8_decode l4)
              end
          end
      end
  end.

Lemma utf8_char_decode : forall c l, scalar c = true ->
  utf8_decode (utf8_char c ++ l) = (let! t := utf8_decode l in Ok (c :: t)).
Proof.
  intros c l H. assert (S := H). unfold scalar in H. unfold utf8_char.
  destruct (c <? 128) eqn:E1; [|destruct (c <? 2048) eqn:E2; [|destruct (c <? 65536) eqn:E3]]; cbn [app utf8_decode].
  - rewrite E1. reflexivity.
  - replace (192 + c / 64 <? 128) with false by lia.
    replace (negb ((194 <=? 192 + c / 64) && cont (128 + c mod 64))) with false by (unfold cont; lia).
    replace (192 + c / 64 <? 224) with true by lia.
    replace (64 * (192 + c / 64 - 192) + (128 + c mod 64 - 128)) with c by lia.
    unfold emit. rewrite S. replace (128 <=? c) with true by lia. reflexivity.
  - replace (224 + c / 4096 <? 128) with false by lia.
    replace (negb ((194 <=? 224 + c / 4096) && cont (128 + c / 64 mod 64))) with false by (unfold cont; lia).
    replace (224 + c / 4096 <? 224) with false by lia.
    replace (negb (cont (128 + c mod 64))) with false by (unfold cont; lia).
    replace (224 + c / 4096 <? 240) with true by lia.
    replace (4096 * (224 + c / 4096 - 224) + 64 * (128 + c / 64 mod 64 - 128) + (128 + c mod 64 - 128)) with c by lia.
    unfold emit. rewrite S. replace (2048 <=? c) with true by lia. reflexivity.
  - replace (240 + c / 262144 <? 128) with false by lia.
    replace (negb ((194 <=? 240 + c / 262144) && cont (128 + c / 4096 mod 64))) with false by (unfold cont; lia).
    replace (240 + c / 262144 <? 224) with false by lia.
    replace (negb (cont (128 + c / 64 mod 64))) with false by (unfold cont; lia).
    replace (240 + c / 262144 <? 240) with false by lia.
    replace (negb (cont (128 + c mod 64) && (240 + c / 262144 <? 245))) with false by (unfold cont; lia).
    replace (262144 * (240 + c / 262144 - 240) + 4096 * (128 + c / 4096 mod 64 - 128) + 64 * (128 + c / 64 mod 64 - 128) + (128 + c mod 64 - 128)) with c by lia.
    unfold emit. rewrite S. replace (65536 <=? c) with true by lia. reflexivity.
Qed.

Lemma utf8_round_trip : forall s b, utf8_encode s = Ok b -> utf8_decode b = Ok s.
Proof.
  intros s b. unfold utf8_encode. destruct (forallb scalar s) eqn:F; [|discriminate]. intro H. injection H as <-.
  induction s as [|c s IH]; [reflexivity|]. cbn [forallb flat_map] in F |- *. apply andb_prop in F. destruct F as [F1 F2].
  rewrite utf8_char_decode by exact F1. rewrite IH by exact F2. reflexivity.
Qed.

Definition ascii (s : pystr) : Prop := Forall (fun c => 0 <= c < 128) s.
Lemma utf8_ascii : forall s, ascii s -> utf8_encode s = Ok s.
Proof.
  intros s H. unfold utf8_encode.
  assert (F : forallb scalar s = true).
  { apply forallb_forall. intros c Hc. unfold ascii in H. rewrite Forall_forall in H. specialize (H c Hc). unfold scalar. lia. }
  rewrite F. f_equal. clear F. induction H as [|c s Hc _ IH]; [reflexivity|].
  cbn [flat_map]. rewrite IH. unfold utf8_char. replace (c <? 128) with true by lia. reflexivity.
Qed.
Lemma utf8_ascii_decode : forall s, ascii s -> utf8_decode s = Ok s.
Proof. intros s H. apply utf8_round_trip. apply utf8_ascii. exact H. Qed.

Lemma utf8_bytes : forall s b, utf8_encode s = Ok b -> bytes b.
Proof.
  intros s b. unfold utf8_encode. destruct (forallb scalar s) eqn:F; [|discriminate]. intro H. injection H as <-.
  induction s as [|c s IH]; [constructor|]. cbn [forallb flat_map] in F |- *. apply andb_prop in F. destruct F as [F1 F2].
  apply Forall_app. split; [|apply IH; exact F2]. unfold scalar in F1. unfold utf8_char.
  destruct (c <? 128) eqn:E1; [|destruct (c <? 2048) eqn:E2; [|destruct (c <? 65536) eqn:E3]];
    repeat constructor; unfold is_byte; lia.
Qed.

Example utf8_ex : utf8_encode [104; 233; 8364; 128512] = Ok [104; 195; 169; 226; 130; 172; 240; 159; 152; 128].
Proof. reflexivity. Qed.
Example utf8_bad : utf8_decode [195] = Err UnicodeError.
Proof. reflexivity. Qed.
