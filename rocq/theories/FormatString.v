(* Model of the format strings of packer.py and of the struct module that reads
   them, and of packer objects with their Struct and their pickled state.
   No proofs here. *)
From Coq Require Import String Ascii ZArith List Bool.
From Verif Require Import Py Packing.
Import ListNotations.
Local Open Scope char_scope.
Open Scope list_scope.
Open Scope Z_scope.

(* [datatypes.py:52-60, the integer types] *)
Definition ctype_char (c : ctype) : ascii :=
  match c with C_i => "i" | C_I => "I" | C_h => "h" | C_H => "H" | C_b => "b" | C_B => "B" end.
(* [packer.py:31-32, 107] *)
Definition endian_char (e : endian) : ascii := match e with Little => "<" | Big => ">" end.

(* 'x' * gap_length or the character of the representative field
   [packer.py:111-114] *)
Definition chunk_chars (c : chunk) : list ascii :=
  match c with Pad n => repeat "x" (Z.to_nat n) | Item t => [ctype_char t] end.

(* packer.py:107-123: the two results of compile_struct, with ''.join of the
   chunks.  A string is a list of characters. *)
Definition compile_format (c : fmt) (start : Z) (length : option Z) (e : endian) : res (list ascii * list (list string)) :=
  do (chunks, alloc) <- compile_struct c start length ;;
  Ok (endian_char e :: concat (map chunk_chars chunks), alloc).

(* ------------------------------------------------------------------ *)
(* The struct module: Struct(format).  A byte order character, then codes, each
   with an optional decimal count before it; white space between them is
   ignored.  Only the two byte orders and the codes that header formats can have
   are modelled, others are an error here.
   [packer.py:132, 164] *)
Definition digit_of (a : ascii) : option Z :=
  let n := Z.of_nat (nat_of_ascii a) in if (48 <=? n) && (n <=? 57) then Some (n - 48) else None.
(* [packer.py:132, 164] *)
Definition is_space (a : ascii) : bool :=
  let n := Z.of_nat (nat_of_ascii a) in (n =? 32) || ((9 <=? n) && (n <=? 13)).
(* [packer.py:132, 164] *)
Definition code_of (a : ascii) (n : Z) : option (list chunk) :=
  match a with
  | "x" => Some [Pad n]
  | "i" => Some (zrepeat (Item C_i) n) | "I" => Some (zrepeat (Item C_I) n)
  | "h" => Some (zrepeat (Item C_h) n) | "H" => Some (zrepeat (Item C_H) n)
  | "b" => Some (zrepeat (Item C_b) n) | "B" => Some (zrepeat (Item C_B) n)
  | _ => None
  end.
(* [packer.py:132, 164] *)
Fixpoint parse_codes (s : list ascii) (count : option Z) : res (list chunk) :=
  match s with
  | [] => match count with None => Ok [] | Some _ => Err StructError end
  | a :: s =>
      match digit_of a with
      | Some d => parse_codes s (Some (10 * match count with Some n => n | None => 0 end + d))
      | None =>
          match count with
          | None => if is_space a then parse_codes s None
                    else match code_of a 1 with
                         | None => Err StructError
                         | Some l => do r <- parse_codes s None ;; Ok (l ++ r)
                         end
          | Some n => match code_of a n with
                      | None => Err StructError
                      | Some l => do r <- parse_codes s None ;; Ok (l ++ r)
                      end
          end
      end
  end.

(* A Struct: its format, kept as an attribute, and what it was parsed to
   [packer.py:132, 153, 164] *)
Record structure : Type := mk_structure { st_format : list ascii; st_endian : endian; st_chunks : list chunk }.
(* [packer.py:132, 164] *)
Definition make_structure (s : list ascii) : res structure :=
  match s with
  | ">" :: codes => do l <- parse_codes codes None ;; Ok (mk_structure s Big l)
  | "<" :: codes => do l <- parse_codes codes None ;; Ok (mk_structure s Little l)
  | _ => Err StructError
  end.
(* Struct.size, Struct.pack and Struct.unpack
   [packer.py:189, 194, 221, 239] *)
Definition st_size (s : structure) : Z := struct_size (st_chunks s).
(* [packer.py:221, 239] *)
Definition st_pack (s : structure) (vs : list Z) : res (list Z) := struct_pack (st_endian s) (st_chunks s) vs.
(* [packer.py:194] *)
Definition st_unpack (s : structure) (b : list Z) : res (list Z) := struct_unpack (st_endian s) (st_chunks s) b.

(* ------------------------------------------------------------------ *)
(* packer.py:141-147 a packer object: class, Struct, names; which of the two
   classes it is of *)
Record pobject : Type := mk_pobject {
  po_cls : fmt; po_struct : structure; po_alloc : list (list string); po_bijective : bool }.

(* packer.py:126-138 make_header_packer *)
Definition make_pobject (c : fmt) (e : endian) : res pobject :=
  do (cformat, alloc) <- compile_format c (fmt_start c) (fmt_length c) e ;;
  do s <- make_structure cformat ;;
  Ok (mk_pobject c s alloc (forallb (fun names => zlen names =? 1) alloc)).

(* packer.py:173-182, 219-221, 230-239 *)
Definition po_pack (p : pobject) (h : header) : res (list Z) :=
  if negb (isinstance h (po_cls p)) then Err TypeError
  else
    do _ <- (if po_bijective p then Ok tt else check_coincident h (po_alloc p)) ;;
    do values <- map_res (first_value h) (po_alloc p) ;;
    st_pack (po_struct p) values.

(* packer.py:184-200, 223-224, 241-246 *)
Definition po_unpack (p : pobject) (buffer : list Z) : res header :=
  match st_unpack (po_struct p) buffer with
  | Err StructError => Err ValueError
  | Err e => Err e
  | Ok values =>
      if po_bijective p then hdr_init (po_cls p) values []
      else hdr_init (po_cls p) []
             (dict_update [] (flat_map (fun q => map (fun n => (n, snd q)) (fst q)) (combine (po_alloc p) values)))
  end.

(* packer.py:149-154 __getstate__: the Struct is replaced by its format.  The
   class of the object and the format class go into the pickle by name. *)
Record pstate : Type := mk_pstate {
  ps_version : Z; ps_cls : fmt; ps_format : list ascii; ps_alloc : list (list string); ps_bijective : bool }.
(* [packer.py:149-154] *)
Definition po_getstate (version : Z) (p : pobject) : pstate :=
  mk_pstate version (po_cls p) (st_format (po_struct p)) (po_alloc p) (po_bijective p).

(* packer.py:156-167 __setstate__ on a new object *)
Definition po_setstate (version : Z) (s : pstate) : res pobject :=
  if negb (ps_version s =? version) then Err TypeError
  else
    do st <- make_structure (ps_format s) ;;
    Ok (mk_pobject (ps_cls s) st (ps_alloc s) (ps_bijective s)).
