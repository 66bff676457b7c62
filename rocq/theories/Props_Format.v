(* The struct format compiled from a header format class, and packers that are
   pickled (C123). *)
From Coq Require Import String Ascii ZArith List Bool Lia.
From Verif Require Import Py Packing Formats Spec_Packing FormatFacts FormatString Spec_Format FormatStringFacts.
Import ListNotations.
Local Open Scope string_scope.
Open Scope list_scope.
Open Scope Z_scope.

(* The two results of compile_struct, used as its documentation says: the
   format is one the struct module takes, for buffers of the length of the
   header, and the allocations say which fields each value unpacked is for.
   (Fields that start before start_offset are the subject of C76.) *)
Theorem C123_usage : forall c start length e s alloc, class_ok c -> (forall f, is_field c f -> start <= fd_offset f) ->
  compile_format c start length e = Ok (s, alloc) ->
  exists st len, make_structure s = Ok st /\ st_format st = s /\ format_length c start length len /\ st_size st = len /\
    forall buf, all_bytes buf ->
      (zlen buf = len -> exists vs, st_unpack st buf = Ok vs /\ usage c start e alloc buf vs) /\
      (zlen buf <> len -> st_unpack st buf = Err StructError).
Proof. exact format_usage. Qed.
Print Assumptions C123_usage.

(* Values packed with it are stored where the fields are, and the bytes between
   the fields are zero; struct.error is raised for a wrong number of values or
   one that is outside the range of the type. *)
Theorem C123_pack : forall c start length e s alloc, class_ok c -> (forall f, is_field c f -> start <= fd_offset f) ->
  compile_format c start length e = Ok (s, alloc) ->
  exists st len, make_structure s = Ok st /\ format_length c start length len /\
    forall vs,
      (exists buf, st_pack st vs = Ok buf /\ zlen buf = len /\ all_bytes buf /\ usage c start e alloc buf vs /\
         forall i, 0 <= i < len -> in_gap c start i -> byte_at buf i = 0) \/
      (st_pack st vs = Err StructError /\
         (List.length vs <> List.length alloc \/
          exists k names n f v, nth_error alloc k = Some names /\ In n names /\ is_field c f /\ fd_name f = n /\ nth_error vs k = Some v /\ ~ in_ctype (ft_ctype (fd_type f)) v)).
Proof. exact format_pack. Qed.
Print Assumptions C123_pack.

(* A packer with a Struct made from the format string packs and unpacks as the
   model of the other properties does. *)
Theorem C123_packer : forall c e,
  (forall y, make_pobject c e = Err y <-> make_header_packer c e = Err y) /\
  (forall o, make_pobject c e = Ok o -> exists p, make_header_packer c e = Ok p /\
     (forall h, po_pack o h = pk_pack p h) /\ (forall b, po_unpack o b = pk_unpack p b)).
Proof.
  intros c e. split; [intros y; apply pobject_err|]. intros o M. destruct (pobject_agrees c e o M) as (p & A & _ & _ & B). exists p. split; [exact A|exact B].
Qed.
Print Assumptions C123_packer.

(* A packer that is pickled and unpickled by the same version is the same
   packer; another version raises TypeError. *)
Theorem C123_pickle : forall c e o v v', make_pobject c e = Ok o ->
  (v = v' -> po_setstate v' (po_getstate v o) = Ok o) /\ (v <> v' -> po_setstate v' (po_getstate v o) = Err TypeError).
Proof. exact pobject_pickles. Qed.
Print Assumptions C123_pickle.

(* two fields that share their bytes, a gap and a rest *)
Example C123_example :
  compile_format shared 1 (Some 12) Little = Ok (list_ascii_of_string "<hxxixxxx", [["x"; "y"]; ["z"]]) /\
  (exists st, make_structure (list_ascii_of_string "<hxxixxxx") = Ok st /\ st_size st = 12 /\
     st_unpack st [2; 1; 9; 9; 255; 255; 255; 255; 9; 9; 9; 9] = Ok [258; -1] /\ st_unpack st [1] = Err StructError /\
     st_pack st [258; -2] = Ok [2; 1; 0; 0; 254; 255; 255; 255; 0; 0; 0; 0] /\ st_pack st [32768; 0] = Err StructError) /\
  (exists st, make_structure (list_ascii_of_string "< h 2x i 4x") = Ok st /\ st_size st = 12) /\
  make_structure (list_ascii_of_string "<h4") = Err StructError.
Proof.
  split; [reflexivity|]. split; [eexists; split; [reflexivity|]; vm_compute; repeat split; reflexivity|].
  split; [eexists; split; [reflexivity|]; reflexivity|reflexivity].
Qed.
Example C123_example_shipped : forall c e, In c shipped -> (exists o, make_pobject c e = Ok o) /\ class_ok c /\ starts_ok c.
Proof.
  intros c e H. split; [|split; apply (shipped_ok c H)]. apply pobject_exists. now apply shipped_packer.
Qed.
