(* What C130 and C131 say about the classes a program has declared. *)
From Coq Require Import String Ascii ZArith List Bool.
From Verif Require Import Py Packing Classes.
Import ListNotations.
Local Open Scope string_scope.
Open Scope list_scope.

(* b is one of the classes named in the class statement of c *)
Definition base_of (t : table) (c b : nat) : Prop := exists k, nth_error t c = Some k /\ In b (k_bases k).
(* c is b or is derived from b *)
Inductive derives (t : table) : nat -> nat -> Prop :=
| derives_self c : (c < length t)%nat -> derives t c c
| derives_base c b a : base_of t c b -> derives t b a -> derives t c a.
(* c is a header format *)
Definition format (t : table) (c : nat) : Prop := derives t c BASE_HEADER.
(* the body of the class b makes n a field of this type, offset and default *)
Definition declares (t : table) (b : nat) (n : string) (ty : ftype) (offset default : Z) : Prop :=
  In (n, AField ty offset default) (ns t b).
(* every class that c is derived from has at most one base *)
Definition single (t : table) (c : nat) : Prop :=
  forall a k, derives t c a -> nth_error t a = Some k -> (length (k_bases k) <= 1)%nat.
(* no name is a field in one class that c is derived from and something else in another *)
Definition is_field (a : attr) : bool := match a with AField _ _ _ => true | _ => false end.
Definition unmixed (t : table) (c : nat) : Prop :=
  forall b b' n a a', derives t c b -> derives t c b' -> In (n, a) (ns t b) -> In (n, a') (ns t b') -> is_field a = is_field a'.

(* going from a class to the first of its bases, again and again, up to BaseHeader *)
Definition first_base (t : table) (c b : nat) : Prop := exists k bs, nth_error t c = Some k /\ k_bases k = b :: bs.
Inductive reaches (t : table) : nat -> nat -> Prop :=
| reaches_self c : reaches t c c
| reaches_base c b a : c <> BASE_HEADER -> first_base t c b -> reaches t b a -> reaches t c a.
(* the fields of the classes on that way, those of the oldest class first *)
Inductive first_chain (t : table) : nat -> list string -> Prop :=
| chain_base : first_chain t BASE_HEADER []
| chain_step c b l : c <> BASE_HEADER -> first_base t c b -> first_chain t b l ->
    first_chain t c (l ++ map fst (filter (fun p => is_field (snd p)) (ns t c))).

(* the last of these classes, none of them older than BaseHeader, that binds n to v *)
Definition bound_last (t : table) (cs : list nat) (n : string) (v : Z) : Prop :=
  exists l c r, cs = l ++ c :: r /\ In (n, AOther v) (ns t c) /\ forall b w, In b r -> ~ In (n, AOther w) (ns t b).
(* names that do not begin with an underscore *)
Definition public (n : string) : Prop := match n with String "_" _ => False | _ => True end.
