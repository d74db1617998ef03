(** Specification for the metadata storage properties: which dictionaries can be stored
    faithfully, and equality of Python values.  Independent of the storage model. *)
From Coq Require Import Permutation.
From Verif Require Import Base Text HierModel.

(** Equality of Python values: dictionaries are equal when they have equal values under
    the same keys, in any order. *)
Inductive veq : value -> value -> Prop :=
| veq_refl : forall v, veq v v
| veq_list : forall l l', Forall2 veq l l' -> veq (VList l) (VList l')
| veq_tuple : forall l l', Forall2 veq l l' -> veq (VTuple l) (VTuple l')
| veq_dict : forall d d' e,
    Forall2 (fun p q => fst p = fst q /\ veq (snd p) (snd q)) d d' -> Permutation d' e ->
    veq (VDict d) (VDict e).

(** Prefixes with a meaning of their own. *)
Definition reserved : list pystr :=
  map str ["_sig_"; "_list_"; "_tuple_"; "_bs_"; "_datetime_date"; "_datetime_time";
           "_ragged_shapes_"; "_hspy_AxesManager_"]%string.

(** A key that looks like "12_...". *)
Definition count_like (k : pystr) : Prop :=
  exists ds r, k = ds ++ 95 :: r /\ ds <> [] /\ Forall (fun c => is_digit c = true) ds.

Definition good_key (k : pystr) : Prop :=
  (forall p, In p reserved -> forall r, k <> p ++ r) /\ ~ In 47 k /\ ~ count_like k.

Definition is_scalar (v : value) : Prop :=
  match v with VBool _ | VInt _ | VFloat _ | VStr _ | VBytes _ => True | _ => False end.

(** Lists of one kind of scalar. *)
Definition homogeneous (l : list value) : Prop :=
  l <> [] /\
  (Forall (fun v => exists b, v = VBool b) l \/
   Forall (fun v => exists z, v = VInt z /\ - 2 ^ 63 <= z < 2 ^ 63) l \/
   Forall (fun v => exists f, v = VFloat f) l \/
   Forall (fun v => exists s, v = VStr s /\ ~ In 0 s) l).

Inductive storable : value -> Prop :=
| s_none : storable VNone
| s_bool : forall b, storable (VBool b)
| s_int : forall z, - 2 ^ 63 <= z < 2 ^ 64 -> storable (VInt z)
| s_float : forall f, storable (VFloat f)
| s_str : forall s, ~ In 0 s -> s <> str "_None_" -> storable (VStr s)
| s_bytes : forall b, In 0 b -> storable (VBytes b)
| s_arr : forall a, storable (VArr a)
| s_list_nil : storable (VList [])
| s_tuple_nil : storable (VTuple [])
| s_list_scalars : forall l, homogeneous l -> storable (VList l)
| s_tuple_scalars : forall l, homogeneous l -> storable (VTuple l)
| s_list : forall l, ~ Forall is_scalar l -> (List.length l <= 10)%nat -> Forall storable l -> storable (VList l)
| s_tuple : forall l, ~ Forall is_scalar l -> (List.length l <= 10)%nat -> Forall storable l -> storable (VTuple l)
| s_dict : forall d, NoDup (map fst d) -> Forall (fun p => good_key (fst p)) d ->
    Forall (fun p => storable (snd p)) d -> storable (VDict d).
