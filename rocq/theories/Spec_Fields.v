(* Specification vocabulary for field types and assignment to fields. *)
From Coq Require Import String ZArith List Bool.
From Verif Require Import Py PyFloat IbmFloat Spec_Ibm Packing Spec_Packing Formats FieldTypes.
Import ListNotations.
Open Scope Z_scope.

(* the numbers of a SEG Y integer type: those of a signed integer of its size,
   for the non-negative types only from zero *)
Definition type_range (t : int_type) (v : Z) : Prop :=
  match t with
  | IT_INT32 => - 2 ^ 31 <= v < 2 ^ 31 | IT_NNINT32 => 0 <= v < 2 ^ 31
  | IT_INT16 => - 2 ^ 15 <= v < 2 ^ 15 | IT_NNINT16 => 0 <= v < 2 ^ 15
  | IT_INT8 => - 2 ^ 7 <= v < 2 ^ 7 | IT_NNINT8 => 0 <= v < 2 ^ 7
  end.

(* A field type declared without bounds of its own, with bounds its C type has,
   or with an enumeration. *)
Inductive declared : ftype -> Prop :=
| declared_plain name t : declared (int_field name t None None)
| declared_bounds name t lo hi : in_ctype (ctype_for t) lo -> in_ctype (ctype_for t) hi -> declared (int_field name t (Some lo) (Some hi))
| declared_enum name t members ft : enum_field name t members = Ok ft -> declared ft.

(* a number that exists in Python: a float or IBM float as the machine has them *)
Definition number_ok (v : real) : Prop :=
  match v with RInt _ => True | RFloat f => float_wf f | RIbm w => word_ok w end.
(* k is the number v without its fraction *)
Definition toward_zero (v : real) (k : Z) : Prop :=
  match v with
  | RInt n => k = n
  | RFloat f => finite f /\ k = Z.quot (units f) unit
  | RIbm w => k = Z.quot (ibm_units w) unit
  end.
(* v is the integer k *)
Definition is_integer (v : real) (k : Z) : Prop :=
  match v with
  | RInt n => k = n
  | RFloat f => finite f /\ units f = k * unit
  | RIbm w => ibm_units w = k * unit
  end.
