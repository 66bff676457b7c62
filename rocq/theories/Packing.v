(* Model of the integer codecs of struct/array, segpy/datatypes.py (integer
   types), segpy/field_types.py, segpy/header.py and segpy/packer.py.
   No proofs here. *)
From Coq Require Import String ZArith List Bool.
From Verif Require Import Py Util.
Import ListNotations.
Open Scope Z_scope.

(* ------------------------------------------------------------------ *)
(* datatypes.py:52-60 the integer format characters of struct/array; the
   float ones ('f' and 'ibm') are not header types *)
Inductive ctype : Set := C_i | C_I | C_h | C_H | C_b | C_B.

(* datatypes.py:76-84 CTYPE_TO_SIZE; the sign: 109-118 LIMITS *)
Definition ctype_size (c : ctype) : Z :=
  match c with C_i => 4 | C_I => 4 | C_h => 2 | C_H => 2 | C_b => 1 | C_B => 1 end.
(* [datatypes.py:109-118] *)
Definition ctype_signed (c : ctype) : bool :=
  match c with C_i => true | C_h => true | C_b => true | _ => false end.

(* what struct.pack accepts for a format character
   [packer.py:221, 239] *)
Definition ctype_lo (c : ctype) : Z :=
  if ctype_signed c then - 2 ^ (8 * ctype_size c - 1) else 0.
(* [packer.py:221, 239] *)
Definition ctype_hi (c : ctype) : Z :=
  if ctype_signed c then 2 ^ (8 * ctype_size c - 1) - 1 else 2 ^ (8 * ctype_size c) - 1.

(* byte order: '<' or '>'
   [packer.py:31-32] *)
Inductive endian : Set := Little | Big.
(* [toolkit.py:515, the test of the byte order] *)
Definition endian_eqb (a b : endian) : bool :=
  match a, b with Little, Little => true | Big, Big => true | _, _ => false end.

(* struct's byte codecs: n bytes of a non-negative number, least significant
   byte first
   [packer.py:221, 239, toolkit.py:858] *)
Fixpoint le_bytes (n : nat) (v : Z) : list Z :=
  match n with O => [] | S n => v mod 256 :: le_bytes n (v / 256) end.
(* [packer.py:194, toolkit.py:514] *)
Fixpoint le_value (l : list Z) : Z :=
  match l with [] => 0 | b :: l => b + 256 * le_value l end.

(* [packer.py:107, the byte order character] *)
Definition order_bytes (e : endian) (l : list Z) : list Z :=
  match e with Little => l | Big => rev l end.

(* struct.pack of one integer: struct.error when it does not fit
   [packer.py:221, 239, toolkit.py:858] *)
Definition pack_int (e : endian) (c : ctype) (v : Z) : res (list Z) :=
  if (ctype_lo c <=? v) && (v <=? ctype_hi c)
  then Ok (order_bytes e (le_bytes (Z.to_nat (ctype_size c)) (v mod 2 ^ (8 * ctype_size c))))
  else Err StructError.

(* struct.unpack of one integer from exactly its bytes
   [packer.py:194, toolkit.py:514] *)
Definition unpack_int (e : endian) (c : ctype) (b : list Z) : Z :=
  let u := le_value (order_bytes e b) in
  if ctype_signed c && (2 ^ (8 * ctype_size c - 1) <=? u) then u - 2 ^ (8 * ctype_size c) else u.

(* A compiled struct format: runs of pad bytes and items.  '>' and '<' use
   standard sizes without alignment.
   [packer.py:107-115] *)
Inductive chunk : Set := Pad (n : Z) | Item (c : ctype).

(* [packer.py:112, 114] *)
Definition chunk_size (c : chunk) : Z := match c with Pad n => n | Item c => ctype_size c end.
(* [packer.py:194, the length unpack asks for] *)
Definition struct_size (l : list chunk) : Z := fold_right (fun c n => chunk_size c + n) 0 l.

(* Struct.pack: struct.error for a wrong number of values or a value out of
   range; pad bytes are zero
   [packer.py:221, 239] *)
Fixpoint struct_pack (e : endian) (l : list chunk) (vs : list Z) : res (list Z) :=
  match l with
  | [] => match vs with [] => Ok [] | _ => Err StructError end
  | Pad n :: l => do r <- struct_pack e l vs ;; Ok (zrepeat 0 n ++ r)
  | Item c :: l =>
      match vs with
      | [] => Err StructError
      | v :: vs => do b <- pack_int e c v ;; do r <- struct_pack e l vs ;; Ok (b ++ r)
      end
  end.

(* [packer.py:194] *)
Fixpoint struct_items (e : endian) (l : list chunk) (b : list Z) : list Z :=
  match l with
  | [] => []
  | Pad n :: l => struct_items e l (skipn (Z.to_nat n) b)
  | Item c :: l => unpack_int e c (firstn (Z.to_nat (ctype_size c)) b)
                   :: struct_items e l (skipn (Z.to_nat (ctype_size c)) b)
  end.

(* Struct.unpack: struct.error unless the buffer has exactly the right size
   [packer.py:194] *)
Definition struct_unpack (e : endian) (l : list chunk) (b : list Z) : res (list Z) :=
  if zlen b =? struct_size l then Ok (struct_items e l b) else Err StructError.

(* ------------------------------------------------------------------ *)
(* field_types.py: an integer field type.  Type identity (`is`) is by name.
   ft_min/ft_max: 27-31; ft_enum: members of the IntEnum, 80-97.  The `size`
   override of IntFieldMeta (33) is not modelled: SIZE is that of the C type. *)
Record ftype : Set := mk_ftype {
  ft_name : string; ft_ctype : ctype; ft_min : Z; ft_max : Z; ft_enum : option (list Z) }.

(* value_type(v): field_types.py:9-15 and 80-82 *)
Definition ft_new (t : ftype) (v : Z) : res Z :=
  match ft_enum t with
  | Some members => if zmem v members then Ok v else Err ValueError
  | None => if (ft_min t <=? v) && (v <=? ft_max t) then Ok v else Err ValueError
  end.

(* [packer.py:72-73, 101] *)
Definition size_of (t : ftype) : Z := ctype_size (ft_ctype t).

(* header.py:200-241 NamedField *)
Record fieldd : Set := mk_field {
  fd_name : string; fd_type : ftype; fd_offset : Z; fd_default : Z }.

(* A header format class: the classes of its (single inheritance) chain below
   Header, base first, each with its name and its own field descriptors in
   declaration order; START_OFFSET_IN_BYTES and LENGTH_IN_BYTES; the names of
   all its other attributes.
   [header.py:106-139] *)
Record fmt : Type := mk_fmt {
  fmt_levels : list (string * list fieldd);
  fmt_start : Z;
  fmt_length : option Z;
  fmt_attrs : list string }.

(* [packer.py:179, header.py:101] *)
Definition fmt_name (c : fmt) : string := fst (last (fmt_levels c) (EmptyString, [])).

(* header.py:45-56 ordered_field_names *)
Definition ordered_field_names (c : fmt) : list string :=
  flat_map (fun l => map fd_name (snd l)) (fmt_levels c).

(* [header.py:121-122, 278-291] *)
Definition find_field (n : string) (l : list fieldd) : option fieldd :=
  find (fun f => String.eqb (fd_name f) n) l.

(* getattr(cls, name): the most derived class that defines it
   [packer.py:63] *)
Fixpoint find_level (n : string) (ls : list (string * list fieldd)) : option fieldd :=
  match ls with
  | [] => None
  | l :: ls => match find_level n ls with Some f => Some f | None => find_field n (snd l) end
  end.
(* [packer.py:63] *)
Definition class_field (c : fmt) (n : string) : option fieldd := find_level n (fmt_levels c).

(* [getattr(cls, name) for name in cls.ordered_field_names()]
   [packer.py:63] *)
Definition class_fields (c : fmt) : list fieldd :=
  flat_map (fun n => match class_field c n with Some f => [f] | None => [] end) (ordered_field_names c).

(* ------------------------------------------------------------------ *)
(* header.py: header objects                                            *)

(* An instance: its class, the field values that were assigned, and other
   instance attributes.
   [header.py:9-40, 262-267] *)
Record header : Type := mk_header {
  h_cls : fmt; h_vals : list (string * Z); h_extra : list (string * Z) }.

(* [header.py:292-294] *)
Definition assoc (n : string) (l : list (string * Z)) : option Z :=
  match find (fun p => String.eqb (fst p) n) l with Some p => Some (snd p) | None => None end.

(* [header.py:299] *)
Fixpoint assoc_set (n : string) (v : Z) (l : list (string * Z)) : list (string * Z) :=
  match l with
  | [] => [(n, v)]
  | p :: l => if String.eqb (fst p) n then (n, v) :: l else p :: assoc_set n v l
  end.

(* [header.py:121, 184] *)
Definition smem (n : string) (l : list string) : bool := existsb (String.eqb n) l.

(* header.py:278-294 HeaderFieldDescriptor.__get__, 67-68 BaseHeader.__getattr__; other
   instance attributes and class attributes with a value the model does not
   track are answered with None *)
Definition hdr_get (h : header) (n : string) : res Z :=
  match class_field (h_cls h) n with
  | Some f => match assoc n (h_vals h) with Some v => Ok v | None => Ok (fd_default f) end
  | None => match assoc n (h_extra h) with Some v => Ok v | None => Err AttributeError end
  end.

(* setattr(header, name, value): header.py:296-302
   HeaderFieldDescriptor.__set__, or an
   ordinary instance attribute *)
Definition hdr_set (h : header) (n : string) (v : Z) : res header :=
  match class_field (h_cls h) n with
  | Some f => do v' <- ft_new (fd_type f) v ;; Ok (mk_header (h_cls h) (assoc_set n v' (h_vals h)) (h_extra h))
  | None => Ok (mk_header (h_cls h) (h_vals h) (assoc_set n v (h_extra h)))
  end.

(* does getattr(self, name) succeed
   [header.py:34-36] *)
Definition has_attr (h : header) (n : string) : bool :=
  match class_field (h_cls h) n with
  | Some _ => true
  | None => smem n (fmt_attrs (h_cls h)) || smem n (map fst (h_extra h))
  end.

(* [header.py:30-31] *)
Fixpoint set_positional (h : header) (names : list string) (args : list Z) : res header :=
  match names, args with
  | n :: names, v :: args => do h' <- hdr_set h n v ;; set_positional h' names args
  | _, _ => Ok h
  end.

(* [header.py:33-40] *)
Fixpoint set_keywords (h : header) (kwargs : list (string * Z)) : res header :=
  match kwargs with
  | [] => Ok h
  | (n, v) :: kwargs =>
      if has_attr h n then do h' <- hdr_set h n v ;; set_keywords h' kwargs else Err TypeError
  end.

(* header.py:15-40 BaseHeader.__init__ *)
Definition hdr_init (c : fmt) (args : list Z) (kwargs : list (string * Z)) : res header :=
  do h <- set_positional (mk_header c [] []) (ordered_field_names c) args ;;
  set_keywords h kwargs.

(* dict.update
   [header.py:60, 92, packer.py:242-244] *)
Definition dict_update (d u : list (string * Z)) : list (string * Z) :=
  fold_left (fun d p => assoc_set (fst p) (snd p) d) u d.

(* {name: getattr(self, name) for name in names}
   [header.py:59] *)
Definition field_dict (h : header) (names : list string) : res (list (string * Z)) :=
  do vs <- map_res (hdr_get h) names ;; Ok (dict_update [] (combine names vs)).

(* header.py:58-62 copy *)
Definition hdr_copy (h : header) (updates : list (string * Z)) : res header :=
  do fields <- field_dict h (ordered_field_names (h_cls h)) ;;
  hdr_init (h_cls h) [] (dict_update fields updates).

(* header.py:95-103 are_equal *)
Fixpoint all_fields_equal (a b : header) (names : list string) : res bool :=
  match names with
  | [] => Ok true
  | n :: names => do x <- hdr_get a n ;; do y <- hdr_get b n ;;
                  if x =? y then all_fields_equal a b names else Ok false
  end.
(* [header.py:95-103] *)
Definition are_equal (a b : header) : res bool :=
  if negb (String.eqb (fmt_name (h_cls a)) (fmt_name (h_cls b))) then Ok false
  else all_fields_equal a b (ordered_field_names (h_cls a)).

(* header.py:75-79 __getstate__: self._ordered_field_names is the tuple of the
   object's own class, without those of its bases *)
Definition own_field_names (c : fmt) : list string :=
  map fd_name (snd (last (fmt_levels c) (EmptyString, []))).
(* [header.py:75-79] *)
Definition hdr_getstate (h : header) : res (list (string * Z) * list (string * Z)) :=
  do vs <- map_res (hdr_get h) (own_field_names (h_cls h)) ;;
  Ok (h_extra h, combine (own_field_names (h_cls h)) vs).

(* header.py:81-92 __setstate__ on a new object of the same class and version *)
Definition hdr_setstate (c : fmt) (state : list (string * Z) * list (string * Z)) : res header :=
  let '(extra, attrs) := state in
  do h <- fold_left (fun r p => do h <- r ;; hdr_set h (fst p) (snd p)) attrs (Ok (mk_header c [] [])) ;;
  Ok (mk_header c (h_vals h) (dict_update (h_extra h) extra)).

(* [header.py:75-92] *)
Definition hdr_pickle (h : header) : res header :=
  do s <- hdr_getstate h ;; hdr_setstate (h_cls h) s.

(* header.py:148-197 SubFormatMeta: a one-level class with copies of the chosen
   fields, START_OFFSET_IN_BYTES, LENGTH_IN_BYTES and the other attributes of
   the parent.  A name that is not a field of the parent has no .name. *)
Fixpoint sub_fields (parent : fmt) (names : list string) (acc : list fieldd) : res (list fieldd) :=
  match names with
  | [] => Ok acc
  | n :: names =>
      match class_field parent n with
      | None => Err AttributeError
      | Some f => sub_fields parent names (if smem n (map fd_name acc) then acc else acc ++ [f])
      end
  end.
(* [header.py:164-189] *)
Definition sub_format (name : string) (parent : fmt) (names : list string) : res fmt :=
  do fs <- sub_fields parent names [] ;;
  Ok (mk_fmt [(name, fs)] (fmt_start parent) (fmt_length parent) (fmt_attrs parent)).

(* ------------------------------------------------------------------ *)
(* packer.py
   [packer.py:72-73] *)
Definition field_span (f : fieldd) : interval := (fd_offset f, fd_offset f + size_of (fd_type f)).

(* packer.py:85-98 grouping of the sorted fields by relative offset; an
   OrderedDict keeps insertion order *)
Fixpoint group_insert (rel : Z) (f : fieldd) (d : list (Z * list fieldd)) : res (list (Z * list fieldd)) :=
  match d with
  | [] => Ok [(rel, [f])]
  | (o, fs) :: d' =>
      if o =? rel then
        match fs with
        | g :: _ => if String.eqb (ft_name (fd_type g)) (ft_name (fd_type f))
                    then Ok ((o, fs ++ [f]) :: d') else Err TypeError
        | [] => Ok ((o, [f]) :: d')
        end
      else do r <- group_insert rel f d' ;; Ok ((o, fs) :: r)
  end.
(* [packer.py:85-95] *)
Definition group_fields (start : Z) (fs : list fieldd) : res (list (Z * list fieldd)) :=
  fold_left (fun r f => do d <- r ;; group_insert (fd_offset f - start) f d) fs (Ok []).

(* [packer.py:101, 108] *)
Definition group_type (fs : list fieldd) : res ftype :=
  match fs with f :: _ => Ok (fd_type f) | [] => Err IndexError end.

(* packer.py:106-115: zip_longest of gaps and representative fields *)
Fixpoint format_chunks (gaps : list interval) (cs : list ctype) : list chunk :=
  match gaps with
  | [] => map Item cs
  | (a, b) :: gaps =>
      (if 0 <? b - a then [Pad (b - a)] else []) ++
      match cs with
      | c :: cs => Item c :: format_chunks gaps cs
      | [] => format_chunks gaps []
      end
  end.

(* packer.py:17-123 compile_struct.  A length that is None or an int. *)
Definition compile_struct (c : fmt) (start : Z) (length : option Z)
  : res (list chunk * list (list string)) :=
  if start <? 0 then Err ValueError
  else if (match length with Some n => n <? 1 | None => false end) then Err ValueError
  else
    let fields := class_fields c in
    let sorted := sort_by (fun a b => fd_offset a <=? fd_offset b) fields in
    if zlen sorted <? 1 then Err TypeError
    else
      do _ <- (if 1 <? zlen sorted then
                 do ps <- pairwise sorted ;;
                 if existsb (fun p => intervals_partially_overlap KRange (field_span (fst p)) (field_span (snd p))) ps
                 then Err ValueError else Ok tt
               else Ok tt) ;;
      do last_field <- py_get sorted (-1) ;;
      let defined_length := (fd_offset last_field - start) + size_of (fd_type last_field) in
      let specified_length := match length with None => defined_length | Some n => n end in
      if specified_length - defined_length <? 0 then Err ValueError
      else
        do groups <- group_fields start sorted ;;
        do types <- map_res (fun g => group_type (snd g)) groups ;;
        let spans := map (fun p => (fst (fst p), fst (fst p) + size_of (snd p))) (combine groups types) in
        do gaps <- complementary_intervals spans (Some 0) (Some specified_length) ;;
        Ok (format_chunks gaps (map ft_ctype types), map (fun g => map fd_name (snd g)) groups).

(* packer.py:141-246: a packer with its kind *)
Record packer : Type := mk_packer {
  pk_cls : fmt; pk_endian : endian; pk_chunks : list chunk;
  pk_alloc : list (list string); pk_bijective : bool }.

(* packer.py:126-138 make_header_packer *)
Definition make_header_packer (c : fmt) (e : endian) : res packer :=
  do (chunks, alloc) <- compile_struct c (fmt_start c) (fmt_length c) ;;
  Ok (mk_packer c e chunks alloc (forallb (fun names => zlen names =? 1) alloc)).

(* isinstance(header, cls)
   [packer.py:176] *)
Definition isinstance (h : header) (c : fmt) : bool :=
  smem (fmt_name c) (map fst (fmt_levels (h_cls h))).

(* names[0]
   [packer.py:220, 238] *)
Definition first_value (h : header) (names : list string) : res Z :=
  do n <- match names with n :: _ => Ok n | [] => Err IndexError end ;; hdr_get h n.

(* packer.py:173-182 pack, 219-221 and 230-239 _pack *)
Fixpoint check_coincident (h : header) (alloc : list (list string)) : res unit :=
  match alloc with
  | [] => Ok tt
  | names :: alloc =>
      do vs <- map_res (hdr_get h) names ;;
      if all_equal vs then check_coincident h alloc else Err ValueError
  end.
(* [packer.py:173-182, 203-205, 219-221, 230-239] *)
Definition pk_pack (p : packer) (h : header) : res (list Z) :=
  if negb (isinstance h (pk_cls p)) then Err TypeError
  else
    do _ <- (if pk_bijective p then Ok tt else check_coincident h (pk_alloc p)) ;;
    do values <- map_res (first_value h) (pk_alloc p) ;;
    struct_pack (pk_endian p) (pk_chunks p) values.

(* packer.py:184-200 unpack, 223-224 and 241-246 _unpack *)
Definition pk_unpack (p : packer) (buffer : list Z) : res header :=
  match struct_unpack (pk_endian p) (pk_chunks p) buffer with
  | Err StructError => Err ValueError
  | Err e => Err e
  | Ok values =>
      if pk_bijective p then hdr_init (pk_cls p) values []
      else hdr_init (pk_cls p) []
             (dict_update [] (flat_map (fun q => map (fun n => (n, snd q)) (fst q)) (combine (pk_alloc p) values)))
  end.

(* ------------------------------------------------------------------ *)
(* toolkit.py:845-858 pack_values for an integer type *)
Definition pack_values (e : endian) (c : ctype) (vs : list Z) : res (list Z) :=
  do bs <- map_res (pack_int e c) vs ;; Ok (concat bs).

(* The items of a buffer in a byte order, n bytes each
   [toolkit.py:514] *)
Fixpoint chunks_of (fuel : nat) (n : nat) (b : list Z) : list (list Z) :=
  match fuel with
  | O => []
  | S fuel => match b with [] => [] | _ => firstn n b :: chunks_of fuel n (skipn n b) end
  end.

(* toolkit.py:499-517 unpack_values: array(ctype, buf) reads items in the
   machine's byte order (ValueError unless a whole number of items), byteswap
   reverses the bytes of each item in place when the orders differ *)
Definition unpack_values (native e : endian) (c : ctype) (buf : list Z) : res (list Z) :=
  if negb (zlen buf mod ctype_size c =? 0) then Err ValueError
  else
    let items := chunks_of (length buf) (Z.to_nat (ctype_size c)) buf in
    let items := if endian_eqb e native then items else map (@rev Z) items in
    Ok (map (unpack_int native c) items).
