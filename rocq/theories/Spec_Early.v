(* Words for C76 and C77. *)
From Coq Require Import String ZArith List.
From Verif Require Import Py Packing Spec_Packing.
Import ListNotations.
Open Scope Z_scope.

(* the offset of the field that comes first *)
Definition first_offset (c : fmt) (m : Z) : Prop :=
  (exists f, is_field c f /\ fd_offset f = m) /\ forall f, is_field c f -> m <= fd_offset f.

(* the class has an attribute of this name: a field, or something else such as a method *)
Definition recognised (c : fmt) (n : string) : Prop := (exists f, is_field c f /\ fd_name f = n) \/ In n (fmt_attrs c).
(* if it is a field, it accepts the value *)
Definition value_ok (c : fmt) (n : string) (v : Z) : Prop := forall f, is_field c f -> fd_name f = n -> accepts (fd_type f) v.
