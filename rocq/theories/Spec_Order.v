(* Fields that are not declared in the order of their places, and items chosen
   out of a sequence. *)
From Coq Require Import String ZArith List Sorted Permutation.
From Verif Require Import Py Util Packing Spec_Packing Spec_Segy Spec_Reader Spec_Numpy.
Import ListNotations.
Open Scope Z_scope.

(* the fields of a format as they are declared, bases first *)
Definition declared_as (c : fmt) (declared : list fieldd) : Prop :=
  map fd_name declared = flat_map (fun l => map fd_name (snd l)) (fmt_levels c) /\ forall f, In f declared -> is_field c f.
(* the same fields in the order of their places, which are all different *)
Definition placed_as (declared placed : list fieldd) : Prop :=
  Permutation declared placed /\ StronglySorted (fun f g => fd_offset f < fd_offset g) placed.

(* the value at the place of a field in a buffer *)
Definition value_at (c : fmt) (e : endian) (buf : list Z) (g : fieldd) (v : Z) : Prop :=
  in_ctype (ft_ctype (fd_type g)) v /\ stored_at e buf (field_pos c g) (field_size g) v.

(* the n-th field declared has the value stored in the n-th place *)
Definition read_in_order (c : fmt) (e : endian) (buf : list Z) (declared placed : list fieldd) (h : header) : Prop :=
  Forall2 (fun f g => exists v, value_at c e buf g v /\ accepts (fd_type f) v /\ hdr_get h (fd_name f) = Ok v) declared placed.
(* the n-th field declared refuses the value stored in the n-th place *)
Definition refused_in_order (c : fmt) (e : endian) (buf : list Z) (declared placed : list fieldd) : Prop :=
  exists n f g v, nth_error declared n = Some f /\ nth_error placed n = Some g /\ value_at c e buf g v /\ ~ accepts (fd_type f) v.

(* the fields of a format with these names *)
Definition chosen_as (c : fmt) (names : list string) (chosen : list fieldd) : Prop :=
  map fd_name chosen = names /\ forall f, In f chosen -> is_field c f.

(* the value at the place of a field in the header at position p of a file *)
Definition place_holds (c : fmt) (e : endian) (d : list Z) (p : Z) (g : fieldd) (v : Z) : Prop :=
  in_ctype (ft_ctype (fd_type g)) v /\ stored_at e d (p + field_pos c g) (field_size g) v.
(* the n-th field chosen refuses the value in the n-th place of that header *)
Definition misread (c : fmt) (e : endian) (d : list Z) (p : Z) (chosen placed : list fieldd) : Prop :=
  exists n f g v, nth_error chosen n = Some f /\ nth_error placed n = Some g /\ place_holds c e d p g v /\ ~ accepts (fd_type f) v.

(* a cell for the values in these places of the header of the trace at inline i
   and crossline j *)
Definition order_cell (d : list Z) (e : endian) (c : fmt) (placed : list fieldd) (ts : list tinfo) (i j : Z) (x : option (list Z)) : Prop :=
  (exists tr vs, trace_at ts i j tr /\ x = Some vs /\ Forall2 (place_holds c e d (t_pos tr)) placed vs) \/
  ((forall tr, ~ trace_at ts i j tr) /\ x = None).

(* the values in the n-th place go to the n-th name *)
Definition columns_as (d : list Z) (e : endian) (c : fmt) (ts : list tinfo) (ks : list Z) (chosen placed : list fieldd)
  (out : list (string * list Z)) : Prop :=
  Forall2 (fun fg nv => fst nv = fd_name (fst fg) /\
    Forall2 (fun k v => exists tr, trace_of ts k tr /\ place_holds c e d (t_pos tr) (snd fg) v) ks (snd nv)) (combine chosen placed) out.

(* the step between items that a user gives with them: the step of a range, and
   1 for other collections *)
Definition given_step (it : iterable) : Z := match it with ItRange r => r_step r | _ => 1 end.
(* which items are accepted out of a sequence: there must be all of them in it,
   and a single item out of a range needs more *)
Definition accepted (all : sseq) (it : iterable) : Prop :=
  (forall x, In x (it_list it) -> In x (sseq_list all)) /\
  ((exists x y, In x (it_list it) /\ In y (it_list it) /\ x <> y) \/ (forall r, all = QRange r -> (r_step r | given_step it))).
