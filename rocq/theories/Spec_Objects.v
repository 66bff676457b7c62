(* Specification vocabulary for header objects. *)
From Coq Require Import String ZArith List Bool.
From Verif Require Import Py PyFloat IbmFloat Packing Spec_Packing FieldTypes Objects.
Import ListNotations.
Open Scope list_scope.
Open Scope Z_scope.

(* different names mean different fields (in any one class) *)
Definition names_apart (descr : fmt -> string -> Z) : Prop :=
  forall c n m, descr c n = descr c m -> n = m.

(* The life of the object at the address o: a header of its own, made anew and
   changed by nothing but the assignments to it. *)
Definition live (o : Z) (own : option header) (ev : event) : option header :=
  match ev with
  | New o' c => if o' =? o then match own with None => Some (mk_header c [] []) | Some h => Some h end else own
  | Assign o' n v =>
      if o' =? o then match own with Some h => match hdr_assign h n v with Ok h' => Some h' | Err _ => Some h end | None => None end else own
  | Gone o' => if o' =? o then None else own
  end.
Definition life (o : Z) (hist : list event) : option header := fold_left (live o) hist None.

(* the object an event is about *)
Definition about (ev : event) : Z := match ev with New o _ => o | Assign o _ _ => o | Gone o => o end.
