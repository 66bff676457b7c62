(* Specification vocabulary for the format strings of compile_struct. *)
From Coq Require Import String ZArith List.
From Verif Require Import Py Packing Spec_Packing.
Import ListNotations.
Open Scope Z_scope.

(* the length a header has that starts at start: the one given, or up to the end
   of the last field *)
Definition format_length (c : fmt) (start : Z) (length : option Z) (n : Z) : Prop :=
  match length with
  | Some m => n = m
  | None => (exists f, is_field c f /\ n = fd_offset f - start + field_size f) /\
            forall f, is_field c f -> fd_offset f - start + field_size f <= n
  end.

(* The value at index k of those unpacked is the one stored for each field the
   k-th entry of the allocations names; each entry names fields, and each field
   is named by one. *)
Definition usage (c : fmt) (start : Z) (e : endian) (alloc : list (list string)) (buf : list Z) (vs : list Z) : Prop :=
  List.length vs = List.length alloc /\
  (forall k names v, nth_error alloc k = Some names -> nth_error vs k = Some v ->
     names <> [] /\ forall n, In n names -> exists f, is_field c f /\ fd_name f = n /\
       in_ctype (ft_ctype (fd_type f)) v /\ stored_at e buf (fd_offset f - start) (field_size f) v) /\
  (forall f, is_field c f -> exists k names, nth_error alloc k = Some names /\ In (fd_name f) names /\
     forall k' names', nth_error alloc k' = Some names' -> In (fd_name f) names' -> k' = k).

(* a byte of the header no field covers *)
Definition in_gap (c : fmt) (start : Z) (i : Z) : Prop :=
  forall f, is_field c f -> ~ (fd_offset f - start <= i < fd_offset f - start + field_size f).
