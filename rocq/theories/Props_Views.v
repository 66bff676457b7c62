(* More about ReversedSequenceView (C36): views of views. *)
From Coq Require Import ZArith List Bool Lia.
From Verif Require Import Py Util Views UtilFacts ViewsFacts.
Import ListNotations.
Open Scope Z_scope.

(* [held s]: the items of a list in their order, those of a view in the reverse
   order of its sequence. *)

(* Length, indexing, membership and counting are right for views of any depth. *)
Theorem C36_nested_items : forall s i x,
  so_len s = zlen (held s) /\ so_get s i = py_get (held s) i /\
  (so_mem s x = true <-> In x (held s)) /\ so_count s x = list_count (held s) x.
Proof. intros s i x. split; [apply held_len|]. split; [apply held_get|]. split; [apply held_mem|apply held_count]. Qed.
Print Assumptions C36_nested_items.

(* So is index, for an item that occurs once. *)
Theorem C36_nested_index : forall s x i, so_count s x = 1 ->
  (so_index s x = Ok i <-> 0 <= i /\ nth_error (held s) (Z.to_nat i) = Some x).
Proof.
  intros s x i C. rewrite (index_once s x C). rewrite list_index_spec. split; [intros (A & B & _); now split|].
  intros (A & B). split; [exact A|]. split; [exact B|]. intros j Hj F.
  assert (exists k, list_index (held s) x = Ok k /\ 0 <= k) as (k & K & Hk).
  { destruct (list_index (held s) x) as [k|e] eqn:E; [exists k; split; [reflexivity|]; apply list_index_spec in E; apply E|].
    apply list_index_err in E. destruct E as (_ & N). exfalso. apply N. now apply nth_error_In in B. }
  rewrite held_count in C. apply filter_one in C. destruct C as (a & b & E & Na & Nb). rewrite E in B, F.
  assert (P : forall m, nth_error (a ++ x :: b) m = Some x -> m = length a).
  { intros m Hm. destruct (Nat.lt_trichotomy m (length a)) as [L|[L|L]]; [exfalso|exact L|exfalso].
    - rewrite nth_error_app1 in Hm by lia. now apply nth_error_In in Hm.
    - rewrite nth_error_app2 in Hm by lia. destruct (m - length a)%nat as [|r] eqn:R; [lia|]. cbn in Hm. now apply nth_error_In in Hm. }
  apply P in B, F. lia.
Qed.
Print Assumptions C36_nested_index.

(* For other items index of a view of a view fails in a wrong way: an item that is
   not there or occurs twice gives TypeError, as iterating does. *)
Theorem C36_nested_index_refuted : forall s x, so_count s x <> 1 -> so_index (SoView (SoView s)) x = Err TypeError.
Proof. exact index_nested. Qed.
Print Assumptions C36_nested_index_refuted.

(* The view of a list: the index of C36_index. *)
Theorem C36_same_index : forall l x, so_index (SoView (SoList l)) x = rsv_index l x.
Proof. intros l x. now rewrite index_one_level, rsv_index_spec. Qed.
Print Assumptions C36_same_index.

Example C36_nested_example :
  let v := SoView (SoView (SoList [5; 6; 5; 8])) in
  held v = [5; 6; 5; 8] /\ so_index v 8 = Ok 3 /\ so_index v 5 = Err TypeError /\ so_index v 7 = Err TypeError /\
  so_index (SoView v) 8 = Ok 0 /\ so_index (SoView (SoList [5; 6; 5; 8])) 7 = Err ValueError /\ so_get v (-1) = Ok 8.
Proof. vm_compute. repeat split. Qed.
