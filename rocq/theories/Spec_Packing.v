(* Specification vocabulary for header formats and integer packing, written
   without the helpers of the packing model. *)
From Coq Require Import String ZArith List Bool.
From Verif Require Import Py Packing Formats.
Import ListNotations.
Open Scope Z_scope.

(* byte i of a buffer *)
Definition byte_at (buf : list Z) (i : Z) : Z := nth (Z.to_nat i) buf 0.
Definition all_bytes (l : list Z) : Prop := Forall (fun b => 0 <= b < 256) l.

(* The integer v is stored in two's complement in size bytes at pos: the byte
   of significance k is floor(v / 256^k) mod 256; big-endian puts the most
   significant byte first. *)
Definition stored_at (e : endian) (buf : list Z) (pos size v : Z) : Prop :=
  0 <= pos /\ pos + size <= zlen buf /\
  forall k, 0 <= k < size ->
    byte_at buf (pos + match e with Little => k | Big => size - 1 - k end) = (v / 256 ^ k) mod 256.

(* the numbers a C integer type can represent *)
Definition in_ctype (c : ctype) (v : Z) : Prop :=
  match c with
  | C_i => - 2 ^ 31 <= v < 2 ^ 31 | C_I => 0 <= v < 2 ^ 32
  | C_h => - 2 ^ 15 <= v < 2 ^ 15 | C_H => 0 <= v < 2 ^ 16
  | C_b => - 2 ^ 7 <= v < 2 ^ 7 | C_B => 0 <= v < 2 ^ 8
  end.
Definition ctype_bytes (c : ctype) : Z :=
  match c with C_i => 4 | C_I => 4 | C_h => 2 | C_H => 2 | C_b => 1 | C_B => 1 end.

(* the values a field type accepts *)
Definition accepts (t : ftype) (v : Z) : Prop :=
  match ft_enum t with Some members => In v members | None => ft_min t <= v <= ft_max t end.

Definition field_size (f : fieldd) : Z := ctype_bytes (ft_ctype (fd_type f)).

(* f is a field of the class: defined somewhere in its inheritance chain and
   not overridden by a more derived class *)
Definition is_field (c : fmt) (f : fieldd) : Prop :=
  exists ls1 l ls2, fmt_levels c = ls1 ++ l :: ls2 /\ In f (snd l) /\
    forall l' g, In l' ls2 -> In g (snd l') -> fd_name g <> fd_name f.

(* What holds of every class the interpreter has accepted: names are unique
   within a class body, every default is valid (NamedField.__init__ converts
   it), and one type name stands for one type. *)
Definition class_ok (c : fmt) : Prop :=
  (forall l, In l (fmt_levels c) -> NoDup (map fd_name (snd l))) /\
  (forall f, is_field c f -> accepts (fd_type f) (fd_default f)) /\
  (forall f g, is_field c f -> is_field c g -> ft_name (fd_type f) = ft_name (fd_type g) -> fd_type f = fd_type g).

(* every value a field accepts can be stored in its C type *)
Definition types_fit (c : fmt) : Prop :=
  forall f v, is_field c f -> accepts (fd_type f) v -> in_ctype (ft_ctype (fd_type f)) v.

(* no field starts before START_OFFSET_IN_BYTES *)
Definition starts_ok (c : fmt) : Prop := forall f, is_field c f -> fmt_start c <= fd_offset f.

(* the fields are declared in increasing order of offset (bases first) *)
Definition declared_in_order (c : fmt) : Prop :=
  forall ns1 n1 ns2 n2 ns3 f1 f2,
    flat_map (fun l => map fd_name (snd l)) (fmt_levels c) = ns1 ++ n1 :: ns2 ++ n2 :: ns3 ->
    is_field c f1 -> fd_name f1 = n1 -> is_field c f2 -> fd_name f2 = n2 -> fd_offset f1 < fd_offset f2.

(* some two declarations are at one offset *)
Definition has_coincident (c : fmt) : Prop :=
  exists ns1 n1 ns2 n2 ns3 f1 f2,
    flat_map (fun l => map fd_name (snd l)) (fmt_levels c) = ns1 ++ n1 :: ns2 ++ n2 :: ns3 /\
    is_field c f1 /\ fd_name f1 = n1 /\ is_field c f2 /\ fd_name f2 = n2 /\ fd_offset f1 = fd_offset f2.

(* position of a field in the buffer *)
Definition field_pos (c : fmt) (f : fieldd) : Z := fd_offset f - fmt_start c.
Definition covered (c : fmt) (i : Z) : Prop :=
  exists f, is_field c f /\ field_pos c f <= i < field_pos c f + field_size f.

(* two fields share a byte without being at the same place *)
Definition partial_overlap (f g : fieldd) : Prop :=
  (exists i, fd_offset f <= i < fd_offset f + field_size f /\ fd_offset g <= i < fd_offset g + field_size g) /\
  ~ (fd_offset f = fd_offset g /\ field_size f = field_size g).

(* A header object whose every field holds an acceptable value. *)
Definition header_ok (h : header) : Prop :=
  forall f, is_field (h_cls h) f ->
    exists v, hdr_get h (fd_name f) = Ok v /\ accepts (fd_type f) v.

(* two headers of a class have the same value in every field *)
Definition same_fields (h h' : header) : Prop :=
  h_cls h' = h_cls h /\ forall f, is_field (h_cls h) f -> hdr_get h' (fd_name f) = hdr_get h (fd_name f).

(* The header h holds the values stored in the buffer. *)
Definition holds_buffer (c : fmt) (e : endian) (buf : list Z) (h : header) : Prop :=
  h_cls h = c /\
  forall f, is_field c f -> exists v, hdr_get h (fd_name f) = Ok v /\ accepts (fd_type f) v /\
    in_ctype (ft_ctype (fd_type f)) v /\ stored_at e buf (field_pos c f) (field_size f) v.

(* the length of the packed form: LENGTH_IN_BYTES, or the end of the last
   field when the format declares none *)
Definition header_length (c : fmt) (n : Z) : Prop :=
  match fmt_length c with
  | Some m => n = m
  | None => (exists f, is_field c f /\ n = field_pos c f + field_size f) /\
            forall f, is_field c f -> field_pos c f + field_size f <= n
  end.

(* Well-formedness of a layout (what compile_struct documents): reasons for
   ValueError and for TypeError. *)
Definition layout_invalid (c : fmt) (start : Z) (length : option Z) : Prop :=
  start < 0 \/
  (exists n, length = Some n /\ n < 1) \/
  (exists f g, is_field c f /\ is_field c g /\ partial_overlap f g) \/
  (exists n f, length = Some n /\ is_field c f /\ fd_offset f + field_size f > start + n).
Definition types_invalid (c : fmt) : Prop :=
  (forall f, ~ is_field c f) \/
  (exists f g, is_field c f /\ is_field c g /\ fd_offset f = fd_offset g /\
     ft_name (fd_type f) <> ft_name (fd_type g)).

(* the fields at positions n and m of an ordered format agree with the buffer
   read through another format *)
Definition sub_format_of (sub parent : fmt) (names : list string) : Prop :=
  fmt_start sub = fmt_start parent /\ fmt_length sub = fmt_length parent /\
  forall f, is_field sub f <-> is_field parent f /\ In (fd_name f) names.

(* A field is inherited when a base class, but not the class itself, defines it. *)
Definition own_field (c : fmt) (f : fieldd) : Prop :=
  exists ls l, fmt_levels c = ls ++ [l] /\ In f (snd l).

(* every keyword names a field and its value is acceptable *)
Definition kw_fields_ok (c : fmt) (kws : list (string * Z)) : Prop :=
  forall n v, In (n, v) kws -> exists f, is_field c f /\ fd_name f = n /\ accepts (fd_type f) v.

(* the formats defined by segpy *)
Definition shipped : list fmt := [BinaryReelHeader; TraceHeaderRev0; TraceHeaderRev1].

(* what is packed unpacks to the same field values *)
Definition round_trips (c : fmt) : Prop := forall e p h buf,
  make_header_packer c e = Ok p -> h_cls h = c -> header_ok h -> pk_pack p h = Ok buf ->
  exists h', pk_unpack p buf = Ok h' /\ same_fields h h'.

(* pickling and unpickling keeps every field *)
Definition pickles (c : fmt) : Prop := forall h, h_cls h = c -> header_ok h ->
  exists h', hdr_pickle h = Ok h' /\ same_fields h h'.

(* reading a chosen field through a sub-format gives what the full format gives *)
Definition sub_format_agrees (parent : fmt) (names : list string) : Prop := forall name e p buf h sub,
  sub_format name parent names = Ok sub -> make_header_packer parent e = Ok p -> all_bytes buf -> pk_unpack p buf = Ok h ->
  exists q h', make_header_packer sub e = Ok q /\ pk_unpack q buf = Ok h' /\
    forall nm, In nm names -> hdr_get h' nm = hdr_get h nm.
