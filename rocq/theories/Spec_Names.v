(* Specification vocabulary for C144 and C145. *)
From Coq Require Import ZArith List.
Import ListNotations.
Open Scope list_scope.
Open Scope Z_scope.

Definition small_letter (c : Z) : Prop := 97 <= c <= 122.
Definition capital_letter (c : Z) : Prop := 65 <= c <= 90.
(* the same character, but perhaps for its case *)
Definition same_letter (c c' : Z) : Prop := c = c' \/ (small_letter c /\ c' = c - 32) \/ (capital_letter c /\ c' = c + 32).
(* v is the word w with a capital letter, if it begins with a letter, and small
   ones after it *)
Definition capitalized (w v : list Z) : Prop :=
  Forall2 same_letter w v /\ match v with [] => True | c :: v => ~ small_letter c /\ Forall (fun c => ~ capital_letter c) v end.
(* words with a character between them *)
Fixpoint joined (sep : Z) (ws : list (list Z)) : list Z :=
  match ws with [] => [] | [w] => w | w :: ws => w ++ sep :: joined sep ws end.
