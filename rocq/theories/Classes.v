(* Model of header format classes as Python makes them: class statements with any
   number of base classes, the order in which the bases are searched, and the
   metaclasses of segpy/header.py.  The other model files describe a format by the
   list of the classes it is derived from (Packing.fmt); C130 says when that is
   right.  No proofs here. *)
From Coq Require Import String Ascii ZArith List Bool.
From Verif Require Import Py Catalog Packing.
Import ListNotations.
Local Open Scope string_scope.
Open Scope list_scope.
Open Scope Z_scope.

(* A value bound to a name in the body of a class: field(type, offset, default, ...), a
   class method, or anything else (an int stands for its identity).  A field is
   bound to one name only.
   [header.py:200-241, 145, class statements] *)
Inductive attr : Set := AField (t : ftype) (offset default : Z) | AClassMethod | AOther (v : Z).

(* A class: its name, vars(cls), cls.__bases__, cls.__mro__ and type(cls), which is type,
   FormatMeta or SubFormatMeta.  Classes are numbered in the order they are made. *)
Inductive metaclass : Set := MType | MFormat | MSubFormat.
Record pyclass : Set := mk_class {
  k_name : string; k_ns : list (string * attr); k_bases : list nat; k_mro : list nat; k_meta : metaclass }.
Definition table : Type := list pyclass.

(* object, BaseHeader and Header.  Names that begin with an underscore are left out,
   except those of class bodies.
   [header.py:9-92, 305-307] *)
Definition OBJECT : nat := 0.
Definition BASE_HEADER : nat := 1.
Definition HEADER : nat := 2.
Definition initial : table := [
  mk_class "object" [] [] [OBJECT] MType;
  mk_class "BaseHeader" [("ordered_field_names", AClassMethod); ("copy", AOther 0)] [OBJECT] [BASE_HEADER; OBJECT] MType;
  mk_class "Header" [] [BASE_HEADER] [HEADER; BASE_HEADER; OBJECT] MFormat].

(* cls.__mro__
   [util.py:313, header.py:126] *)
Definition mro (t : table) (c : nat) : list nat := match nth_error t c with Some k => k_mro k | None => [] end.
(* vars(cls)
   [util.py:521] *)
Definition ns (t : table) (c : nat) : list (string * attr) := match nth_error t c with Some k => k_ns k | None => [] end.

(* The order of the bases, as Python merges it: the first head of a list that is in no
   tail of a list comes next; TypeError if there is none.
   [type.mro, used by every class statement] *)
Definition nmem (x : nat) (l : list nat) : bool := existsb (Nat.eqb x) l.
Definition heads (ls : list (list nat)) : list nat := flat_map (fun l => match l with x :: _ => [x] | [] => [] end) ls.
Definition in_tail (ls : list (list nat)) (x : nat) : bool := existsb (fun l => nmem x (tl l)) ls.
Definition drop_head (x : nat) (l : list nat) : list nat :=
  match l with y :: r => if Nat.eqb x y then r else l | [] => [] end.
Fixpoint merge (fuel : nat) (ls : list (list nat)) : res (list nat) :=
  match heads ls with
  | [] => Ok []
  | hs =>
      match find (fun x => negb (in_tail ls x)) hs with
      | None => Err TypeError
      | Some x =>
          match fuel with
          | O => Err OutOfFuel
          | S fuel => do r <- merge fuel (map (drop_head x) ls) ;; Ok (x :: r)
          end
      end
  end.
(* the bases of one class statement are distinct *)
Fixpoint nat_distinct (l : list nat) : bool :=
  match l with [] => true | x :: l => negb (nmem x l) && nat_distinct l end.
(* the mro of a class with these bases, without the class itself *)
Definition linearize (t : table) (bases : list nat) : res (list nat) :=
  if negb (nat_distinct bases) then Err TypeError
  else let ls := map (mro t) bases ++ [bases] in merge (length (concat ls)) ls.

(* type.__new__: the new class comes last.  A base that does not exist cannot be named.
   [header.py:139] *)
Definition make_class (t : table) (name : string) (bases : list nat) (namespace : list (string * attr)) (meta : metaclass) : res table :=
  if negb (forallb (fun b => Nat.ltb b (length t)) bases) then Err LookupError
  else do m <- linearize t bases ;; Ok (t ++ [mk_class name namespace bases (length t :: m) meta]).

(* A class statement: an ordinary class, a format, or a format with the metaclass
   SubFormatMeta.  The body is a list of assignments. *)
Inductive decl : Set :=
| Plain (name : string) (bases : list nat) (body : list (string * attr))
| Format (name : string) (bases : list nat) (body : list (string * attr))
| SubFormat (name : string) (bases : list nat) (body : list (string * attr)) (parent : nat) (names : list string).

(* header.py:115-139 FormatMeta.__new__: BaseHeader comes first if no base is derived
   from it *)
Definition is_header (t : table) (c : nat) : bool := nmem BASE_HEADER (mro t c).
Definition header_bases (t : table) (bases : list nat) : list nat :=
  if existsb (is_header t) bases then bases else BASE_HEADER :: bases.
Definition new_format (t : table) (name : string) (bases : list nat) (namespace : list (string * attr)) (meta : metaclass) : res table :=
  make_class t name (header_bases t bases) namespace meta.

(* getattr(cls, name) *)
Fixpoint search (t : table) (cs : list nat) (n : string) : res attr :=
  match cs with
  | [] => Err AttributeError
  | c :: cs => match od_get String.eqb (ns t c) n with Ok a => Ok a | Err _ => search t cs n end
  end.
Definition class_getattr (t : table) (c : nat) (n : string) : res attr := search t (mro t c) n.

(* header.py:131-137 whether the field that getattr(cls, name) gives has been given its
   name, which FormatMeta does for the fields of a format and nothing does for those of
   an ordinary class *)
Definition is_meta (t : table) (c : nat) : bool := match nth_error t c with Some k => match k_meta k with MType => false | _ => true end | None => false end.
Fixpoint is_named (t : table) (cs : list nat) (n : string) : bool :=
  match cs with
  | [] => false
  | c :: cs => match od_get String.eqb (ns t c) n with Ok _ => is_meta t c | Err _ => is_named t cs n end
  end.

(* header.py:177-184 the loop over parent_field_names *)
Fixpoint copy_fields (t : table) (parent : nat) (names : list string) (d : list (string * attr)) : res (list (string * attr)) :=
  match names with
  | [] => Ok d
  | n :: names =>
      do a <- class_getattr t parent n ;;
      match a with
      | AField ty offset default =>
          if is_named t (mro t parent) n then copy_fields t parent names (od_set String.eqb d n (AField ty offset default))
          else Err AssertionError
      | _ => Err AttributeError
      end
  end.

(* header.py:142-145 is_public_non_field_attr *)
Definition is_public (p : string * attr) : bool :=
  match fst p, snd p with
  | String "_" _, _ => false
  | _, AOther _ => true
  | _, _ => false
  end.
(* util.py:508-524 collect_attributes: the classes that are searched, and what is found *)
Fixpoint until (b : nat) (cs : list nat) : list nat :=
  match cs with [] => [] | c :: cs => if Nat.eqb c b then [c] else c :: until b cs end.
Definition collect_attributes (t : table) (derived base : nat) (pred : string * attr -> bool) : list (string * attr) :=
  flat_map (fun c => filter pred (ns t c)) (until base (mro t derived)).

(* header.py:164-192 SubFormatMeta.__new__ *)
Definition new_sub_format (t : table) (name : string) (bases : list nat) (body : list (string * attr)) (parent : nat) (names : list string) : res table :=
  do d <- copy_fields t parent names (od_of String.eqb body) ;;
  new_format t name bases
    (fold_left (fun d p => od_set String.eqb d (fst p) (snd p)) (collect_attributes t parent BASE_HEADER is_public) d) MSubFormat.

(* One class statement.  A class of which a base is a format is a format; one of which
   a base is a sub-format is one as well, and without the arguments for it __new__ raises
   TypeError. *)
Definition is_sub (t : table) (c : nat) : bool := match nth_error t c with Some k => match k_meta k with MSubFormat => true | _ => false end | None => false end.
Definition declare (t : table) (d : decl) : res table :=
  match d with
  | Plain name bases body =>
      let bases := match bases with [] => [OBJECT] | _ => bases end in
      if existsb (is_sub t) bases then Err TypeError
      else if existsb (is_meta t) bases then new_format t name bases (od_of String.eqb body) MFormat
      else make_class t name bases (od_of String.eqb body) MType
  | Format name bases body =>
      if existsb (is_sub t) bases then Err TypeError else new_format t name bases (od_of String.eqb body) MFormat
  | SubFormat name bases body parent names => new_sub_format t name bases body parent names
  end.
(* a program that declares classes; the first exception ends it *)
Definition declare_all (ds : list decl) : res table :=
  fold_left (fun r d => do t <- r ;; declare t d) ds (Ok initial).

(* header.py:123-124 _ordered_field_names of one class *)
Definition own_names (t : table) (c : nat) : list string :=
  flat_map (fun p => match snd p with AField _ _ _ => [fst p] | _ => [] end) (ns t c).

(* util.py:311-318 super_class *)
Definition super_class (t : table) (c : nat) : res nat :=
  match mro t c with
  | [] => Err AssertionError
  | [x] => if Nat.eqb x OBJECT then Ok OBJECT else Err AssertionError
  | _ :: x :: _ => Ok x
  end.

(* header.py:45-56 ordered_field_names.  A class that is not derived from BaseHeader
   does not have it; the fuel bounds the number of calls, each for an older class. *)
Fixpoint names_of (fuel : nat) (t : table) (c : nat) : res (list string) :=
  if negb (is_header t c) then Err AttributeError
  else if Nat.eqb c BASE_HEADER then Ok []
  else match fuel with
       | O => Err OutOfFuel
       | S fuel =>
           do s <- super_class t c ;;
           do l <- names_of fuel t s ;;
           Ok (l ++ own_names t c)
       end.
Definition field_names (t : table) (c : nat) : res (list string) := names_of (length t) t c.

(* The format of the other model files that describes the class c: the classes below
   BaseHeader, base first, with their fields; START_OFFSET_IN_BYTES and
   LENGTH_IN_BYTES; the names of its other attributes.
   [packer.py:126-131] *)
Definition own_fields (t : table) (c : nat) : list fieldd :=
  flat_map (fun p => match snd p with AField ty o d => [mk_field (fst p) ty o d] | _ => [] end) (ns t c).
Definition class_name (t : table) (c : nat) : string := match nth_error t c with Some k => k_name k | None => "" end.
Definition other_names (t : table) (c : nat) : list string :=
  flat_map (fun c => flat_map (fun p => match snd p with AField _ _ _ => [] | _ => [fst p] end) (ns t c)) (mro t c).
Definition int_attr (t : table) (c : nat) (n : string) : option Z :=
  match class_getattr t c n with Ok (AOther v) => Some v | _ => None end.
Definition class_fmt (t : table) (c : nat) : fmt :=
  mk_fmt (map (fun b => (class_name t b, own_fields t b)) (rev (removelast (until BASE_HEADER (mro t c)))))
    (match int_attr t c "START_OFFSET_IN_BYTES" with Some v => v | None => 0 end)
    (int_attr t c "LENGTH_IN_BYTES") (other_names t c).
