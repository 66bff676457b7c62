(* Model of the declaration of field types and of assignment to fields
   (field_types.py, header.py:296-302) and of the custom header of
   examples/custom_header.py.  Not modelled: field types over the float sample
   types, the `size` argument of IntFieldMeta, field types derived from others,
   and assigned values that are not numbers. *)
From Coq Require Import String ZArith List Bool.
From Verif Require Import Py PyFloat IbmFloat Packing Formats.
Import ListNotations.
Local Open Scope string_scope.
Open Scope list_scope.
Open Scope Z_scope.

(* the integer members of SegYType
   [datatypes.py:28-34] *)
Inductive int_type : Set := IT_INT32 | IT_NNINT32 | IT_INT16 | IT_NNINT16 | IT_INT8 | IT_NNINT8.

(* SEG_Y_TYPE_TO_CTYPE
   [datatypes.py:52-58] *)
Definition ctype_for (t : int_type) : ctype :=
  match t with
  | IT_INT32 => C_i | IT_NNINT32 => C_I
  | IT_INT16 => C_h | IT_NNINT16 => C_H
  | IT_INT8 => C_b | IT_NNINT8 => C_B
  end.

(* LIMITS
   [datatypes.py:109-118] *)
Definition limits (t : int_type) : Z * Z :=
  match t with
  | IT_INT32 => (-2147483648, 2147483647) | IT_NNINT32 => (0, 2147483647)
  | IT_INT16 => (-32768, 32767) | IT_NNINT16 => (0, 32767)
  | IT_INT8 => (-128, 127) | IT_NNINT8 => (0, 127)
  end.

(* class name(int, metaclass=IntFieldMeta, seg_y_type=t, min_value=lo,
   max_value=hi)
   [field_types.py:18-42] *)
Definition int_field (name : string) (t : int_type) (lo hi : option Z) : ftype :=
  mk_ftype name (ctype_for t)
    (match lo with Some v => v | None => fst (limits t) end)
    (match hi with Some v => v | None => snd (limits t) end) None.

(* class name(metaclass=IntEnumFieldMeta, enum=members, seg_y_type=t)
   [field_types.py:84-93] *)
Definition enum_field (name : string) (t : int_type) (members : list Z) : res ftype :=
  if existsb (fun v => (v <? fst (limits t)) || (snd (limits t) <? v)) members then Err ValueError
  else Ok (mk_ftype name (ctype_for t) (fst (limits t)) (snd (limits t)) (Some members)).

(* int.__new__(cls, value) of a number
   [field_types.py:10, 81] *)
Definition int_of (v : real) : res Z :=
  match v with
  | RInt n => Ok n
  | RFloat f => f_int f
  | RIbm w => ibm_trunc w
  end.

(* value_type(value)
   [field_types.py:9-15, 80-82] *)
Definition value_new (t : ftype) (v : real) : res Z := do n <- int_of v ;; ft_new t n.

(* setattr(header, name, value) of a number, for the name of a field (any other
   name gets an ordinary attribute, which is not modelled here); ValueError is
   reraised as ValueError
   [header.py:296-302] *)
Definition hdr_assign (h : header) (n : string) (v : real) : res header :=
  match class_field (h_cls h) n with
  | Some f => do k <- value_new (fd_type f) v ;; Ok (mk_header (h_cls h) (assoc_set n k (h_vals h)) (h_extra h))
  | None => Ok h
  end.

(* [examples/custom_header.py:36-42] *)
Definition UInt16 : ftype := int_field "UInt16" IT_NNINT16 (Some 0) (Some 65535).

(* A class derived from a header class that defines (or redefines) fields.
   [header.py:106-139] *)
Definition derive (name : string) (own : list fieldd) (base : fmt) : fmt :=
  mk_fmt (fmt_levels base ++ [(name, own)]) (fmt_start base) (fmt_length base) (fmt_attrs base).

(* [examples/custom_header.py:47-54] *)
Definition CustomBinaryReelHeader : fmt :=
  derive "CustomBinaryReelHeader" [mk_field "num_samples" UInt16 3221 0] BinaryReelHeader.
