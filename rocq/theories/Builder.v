(* Model of the life of a CatalogBuilder (segpy/catalog.py:26-99) and of what
   every catalog inherits from collections.abc.Mapping.  No proofs here. *)
From Coq Require Import ZArith List Bool.
From Verif Require Import Py Util Catalog.
Import ListNotations.
Open Scope Z_scope.

Section Builder.
Context {K C : Type} (keqb : K -> K -> bool).

(* An entry of an iterable series given to CatalogBuilder(): a pair, or
   something of another length.
   [catalog.py:54-58] *)
Inductive entry : Type :=
| EPair (k : K) (v : Z)
| ELength (n : Z).

(* len(pair)
   [catalog.py:55] *)
Definition entry_len (e : entry) : Z := match e with EPair _ _ => 2 | ELength n => n end.

(* The argument of CatalogBuilder(): none, a mapping (its items), an iterable
   series, or something else.
   [catalog.py:37-61] *)
Inductive builder_arg : Type :=
| ANone
| AMapping (items : list (K * Z))
| AIterable (l : list entry)
| AOther.

(* The loop over the entries; an entry of length 2 is a pair.
   [catalog.py:54-58] *)
Fixpoint take_entries (catalog : list (K * Z)) (l : list entry) : res (list (K * Z)) :=
  match l with
  | [] => Ok catalog
  | e :: l' =>
      if negb (entry_len e =? 2) then Err ValueError
      else match e with
           | EPair k v => take_entries (catalog ++ [(k, v)]) l'
           | ELength _ => Err ValueError
           end
  end.

(* catalog.py:37-61 CatalogBuilder.__init__ *)
Definition builder_init (a : builder_arg) : res (list (K * Z)) :=
  match a with
  | ANone => Ok []
  | AMapping items => Ok items
  | AIterable l => take_entries [] l
  | AOther => Err TypeError
  end.

(* What is done with a builder: add(k, v) or create().
   [catalog.py:63-99] *)
Inductive builder_op : Type :=
| BAdd (k : K) (v : Z)
| BCreate.

(* The results of the create() calls of a series of calls, given how one
   create() turns the held items into a result and the items held afterwards
   (create1 or create2).
   [catalog.py:63-99] *)
Fixpoint builder_run (create : list (K * Z) -> res (option C) * list (K * Z))
  (held : list (K * Z)) (ops : list builder_op) : list (res (option C)) :=
  match ops with
  | [] => []
  | BAdd k v :: ops' => builder_run create (held ++ [(k, v)]) ops'
  | BCreate :: ops' => let (r, held') := create held in r :: builder_run create held' ops'
  end.

(* collections.abc.Mapping.get(key, default)
   [catalog.py:197, 265, 342, 419, 443, 503, 563, 601, 672: class C(Mapping)] *)
Definition mapping_get (get : K -> res Z) (k : K) (default : Z) : res Z :=
  match get k with
  | Ok v => Ok v
  | Err KeyError => Ok default
  | Err e => Err e
  end.

(* list(catalog.items()): iterate, looking up each key
   [collections.abc.ItemsView.__iter__] *)
Fixpoint mapping_items (get : K -> res Z) (iter : list K) : res (list (K * Z)) :=
  match iter with
  | [] => Ok []
  | k :: iter' =>
      do v <- get k ;;
      do rest <- mapping_items get iter' ;;
      Ok ((k, v) :: rest)
  end.

(* list(catalog.values())
   [collections.abc.ValuesView.__iter__] *)
Definition mapping_values (get : K -> res Z) (iter : list K) : res (list Z) :=
  do items <- mapping_items get iter ;; Ok (map snd items).

(* dict(a) == dict(b): as many keys, and each key of the first is in the
   second with an equal value
   [collections.abc.Mapping.__eq__] *)
Definition dict_eq (a b : list (K * Z)) : bool :=
  (zlen a =? zlen b) &&
  forallb (fun p => match od_get keqb b (fst p) with Ok v => snd p =? v | Err _ => false end) a.

(* catalog == catalog
   [collections.abc.Mapping.__eq__: dict(self.items()) == dict(other.items())] *)
Definition mapping_eq (get1 : K -> res Z) (iter1 : list K) (get2 : K -> res Z) (iter2 : list K)
  : res bool :=
  do a <- mapping_items get1 iter1 ;;
  do b <- mapping_items get2 iter2 ;;
  Ok (dict_eq (od_of keqb a) (od_of keqb b)).

End Builder.
Arguments entry : clear implicits.
Arguments builder_arg : clear implicits.
Arguments builder_op : clear implicits.
