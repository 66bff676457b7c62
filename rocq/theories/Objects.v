(* Model of header objects: the values of a field of all headers are kept
   together, in a dictionary that belongs to the field and whose keys are the
   headers (header.py:262-305).  A header is identified by its address, which a
   later header can get again when the header is gone.  Simplified: the values
   that can be assigned are numbers; attributes that are not fields are left out
   (they are ordinary attributes of the object). *)
From Coq Require Import String ZArith List Bool.
From Verif Require Import Py PyFloat IbmFloat Packing FieldTypes.
Import ListNotations.
Open Scope list_scope.
Open Scope Z_scope.

(* The headers alive, with their classes, and the dictionaries of all fields:
   the descriptor, the header and the value.
   [header.py:264-267] *)
Record heap := mk_heap { hp_objs : list (Z * fmt); hp_data : list (Z * Z * Z) }.
Definition empty_heap : heap := mk_heap [] [].

Inductive event :=
| New (o : Z) (c : fmt)                 (* c.__new__(c) gives an object at the address o *)
| Assign (o : Z) (n : string) (v : real)  (* setattr(o, n, v) *)
| Gone (o : Z).                         (* the last reference to the object at o goes *)

(* type(o) *)
Definition class_of (hp : heap) (o : Z) : option fmt :=
  match find (fun p => fst p =? o) (hp_objs hp) with Some p => Some (snd p) | None => None end.

Definition entry_of (d o : Z) (x : Z * Z * Z) : bool := (fst (fst x) =? d) && (snd (fst x) =? o).

Section Objects.
(* the descriptor that the name of a field means in a class: a class has its own
   and those of its bases [header.py:119-139] *)
Variable descr : fmt -> string -> Z.

(* getattr(o, n)
   [header.py:278-294] *)
Definition obj_get (hp : heap) (o : Z) (n : string) : res Z :=
  match class_of hp o with
  | Some c =>
      match class_field c n with
      | Some f => match find (entry_of (descr c n) o) (hp_data hp) with Some x => Ok (snd x) | None => Ok (fd_default f) end
      | None => Err AttributeError
      end
  | None => Err KeyError
  end.

(* An event; what cannot happen (an assignment to an object that is gone, a new
   object at the address of one that is not) changes nothing.
   [header.py:264-267, 296-302] *)
Definition step (hp : heap) (ev : event) : heap :=
  match ev with
  | New o c => match class_of hp o with Some _ => hp | None => mk_heap ((o, c) :: hp_objs hp) (hp_data hp) end
  | Assign o n v =>
      match class_of hp o with
      | Some c =>
          match class_field c n with
          | Some f =>
              match value_new (fd_type f) v with
              | Ok k => mk_heap (hp_objs hp) ((descr c n, o, k) :: filter (fun x => negb (entry_of (descr c n) o x)) (hp_data hp))
              | Err _ => hp
              end
          | None => hp
          end
      | None => hp
      end
  | Gone o => mk_heap (filter (fun p => negb (fst p =? o)) (hp_objs hp)) (filter (fun x => negb (snd (fst x) =? o)) (hp_data hp))
  end.
Definition run_events (hist : list event) : heap := fold_left step hist empty_heap.
End Objects.
