(* Small specifications used in the statements of the utility properties
   (C28-C38).  They mention nothing of the model but bare lists and integers. *)
From Coq Require Import ZArith List.
Import ListNotations.
Open Scope Z_scope.

(* x lies in the half-open interval i *)
Definition in_interval (x : Z) (i : Z * Z) : Prop := fst i <= x < snd i.

(* the intervals start at a, each begins where the previous one stopped, and
   the last one stops at b; no interval is reversed *)
Fixpoint tiles (a b : Z) (l : list (Z * Z)) : Prop :=
  match l with
  | [] => a = b
  | i :: rest => fst i = a /\ fst i <= snd i /\ tiles (snd i) b rest
  end.

(* the intervals are in order within [a, b] and do not overlap *)
Fixpoint ordered_within (a b : Z) (l : list (Z * Z)) : Prop :=
  match l with
  | [] => a <= b
  | i :: rest => a <= fst i /\ fst i <= snd i /\ ordered_within (snd i) b rest
  end.

(* g0 s0 g1 s1 ... sn gn+1 *)
Fixpoint interleave {A} (g s : list A) : list A :=
  match g, s with
  | x :: g', y :: s' => x :: y :: interleave g' s'
  | _, _ => g
  end.

(* item number i of l, for 0 <= i < length l *)
Definition item_at (l : list Z) (i : nat) (x : Z) : Prop := nth_error l i = Some x.

(* every two successive items differ by d *)
Definition successive_differences (l : list Z) (d : Z) : Prop :=
  forall i x y, item_at l i x -> item_at l (S i) y -> y - x = d.

(* the items are ordered by R, each to every later one *)
Definition ordered (R : Z -> Z -> Prop) (l : list Z) : Prop :=
  forall i j x y, (i < j)%nat -> item_at l i x -> item_at l j y -> R x y.

(* some item occurs at two different places *)
Definition has_repeat (l : list Z) : Prop :=
  exists i j x, (i < j)%nat /\ item_at l i x /\ item_at l j x.

(* the items at position k of those series long enough to have one *)
Definition round_items {A} (k : nat) (ls : list (list A)) : list A :=
  flat_map (fun l => match nth_error l k with Some x => [x] | None => [] end) ls.

Definition longest {A} (ls : list (list A)) : nat := list_max (map (@length A) ls).

(* all items ordered by position in their series, then by series *)
Definition rounds {A} (ls : list (list A)) : list A :=
  flat_map (fun k => round_items k ls) (seq 0 (longest ls)).
