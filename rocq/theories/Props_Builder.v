(* Properties C117, C118: the life of a CatalogBuilder, and catalogs as
   mappings (segpy/catalog.py). *)
From Coq Require Import ZArith List Bool Lia Sorted Permutation.
From Verif Require Import Py Util Catalog PyFacts Spec_Util UtilFacts Spec_Catalog CatalogFacts
  Builder Spec_Builder BuilderFacts.
Import ListNotations.
Open Scope Z_scope.

(* ---------------- C117 ---------------- *)

(* what a new builder holds *)
Theorem C117_initial : forall (a : builder_arg Z) items,
  builder_init a = Ok items <->
  match a with
  | ANone => items = []
  | AMapping m => items = m
  | AIterable l => entries_are l items
  | AOther => False
  end.
Proof. exact init_spec. Qed.
Print Assumptions C117_initial.

Theorem C117_initial_fails : forall (a : builder_arg Z),
  (forall l, a = AIterable l -> (forall items, ~ entries_are l items) -> builder_init a = Err ValueError) /\
  (a = AOther -> builder_init a = Err TypeError).
Proof. exact init_fails. Qed.
Print Assumptions C117_initial_fails.

(* whatever was called before, create() gives what a builder which was just
   given the same items gives: earlier create() calls make no difference *)
Theorem C117_history_1d : forall (before after : list (builder_op Z)) held,
  nth_error (builder_run create1 held (before ++ BCreate :: after)) (num_creates before)
  = Some (fst (create1 (held ++ added before))).
Proof. exact (run_history create1 create1_state create1_order). Qed.
Print Assumptions C117_history_1d.

Theorem C117_history_2d : forall (before after : list (builder_op (Z * Z))) held,
  nth_error (builder_run create2 held (before ++ BCreate :: after)) (num_creates before)
  = Some (fst (create2 (held ++ added before))).
Proof. exact (run_history create2 create2_state create2_order). Qed.
Print Assumptions C117_history_2d.

(* nor does the order in which the items were added *)
Theorem C117_order_1d : forall l m : list (Z * Z), Permutation l m -> fst (create1 l) = fst (create1 m).
Proof. exact create1_order. Qed.
Print Assumptions C117_order_1d.

Theorem C117_order_2d : forall l m : list ((Z * Z) * Z), Permutation l m ->
  fst (create2 l) = fst (create2 m).
Proof. exact create2_order. Qed.
Print Assumptions C117_order_2d.

Example C117_example :
  builder_init (AIterable [EPair 5 1; EPair 3 9]) = Ok [(5, 1); (3, 9)] /\
  builder_init (AIterable [EPair 5 1; ELength 3]) = Err ValueError /\
  builder_run create1 [(5, 1); (3, 9)] [BCreate; BAdd 4 4; BCreate; BAdd 5 2; BCreate]
  = [Ok (Some (CLinear 3 5 2 9 1 (-8))); Ok (Some (CRegular 3 5 1 [9; 4; 1])); Ok None].
Proof. repeat split. Qed.

(* ---------------- C118 ---------------- *)

(* items(), keys(), values() and get() of a created catalog *)
Theorem C118_views_1d : forall items c, items <> [] -> NoDup (map fst items) ->
  fst (create1 items) = Ok (Some c) ->
  (exists l, mapping_items (cat1_get c) (cat1_iter c) = Ok l /\ Permutation l items /\
     map fst l = cat1_iter c /\ mapping_values (cat1_get c) (cat1_iter c) = Ok (map snd l)) /\
  forall k d,
    (forall v, In (k, v) items -> mapping_get (cat1_get c) k d = Ok v) /\
    (~ In k (map fst items) -> mapping_get (cat1_get c) k d = Ok d).
Proof.
  intros items c H N E. destruct (create1_holds items H N) as (c' & E' & (Hc & _)).
  rewrite E in E'. injection E' as <-. split.
  - exact (mapping_views _ _ _ _ _ N Hc).
  - exact (mapping_get_spec _ _ _ _ _ Hc).
Qed.
Print Assumptions C118_views_1d.

Theorem C118_views_2d : forall items c, items <> [] -> NoDup (map fst items) ->
  fst (create2 items) = Ok (Some c) ->
  (exists l, mapping_items (cat2_get c) (cat2_iter c) = Ok l /\ Permutation l items /\
     map fst l = cat2_iter c /\ mapping_values (cat2_get c) (cat2_iter c) = Ok (map snd l)) /\
  forall k d,
    (forall v, In (k, v) items -> mapping_get (cat2_get c) k d = Ok v) /\
    (~ In k (map fst items) -> mapping_get (cat2_get c) k d = Ok d).
Proof.
  intros items c H N E. destruct (create2_holds items H N) as (c' & E' & (Hc & _)).
  rewrite E in E'. injection E' as <-. split.
  - exact (mapping_views _ _ _ _ _ N Hc).
  - exact (mapping_get_spec _ _ _ _ _ Hc).
Qed.
Print Assumptions C118_views_2d.

(* two created catalogs are equal exactly when they hold the same items,
   whatever their representations *)
Theorem C118_equality_1d : forall items1 items2 c1 c2, items1 <> [] -> items2 <> [] ->
  NoDup (map fst items1) -> NoDup (map fst items2) ->
  fst (create1 items1) = Ok (Some c1) -> fst (create1 items2) = Ok (Some c2) ->
  exists b, mapping_eq Z.eqb (cat1_get c1) (cat1_iter c1) (cat1_get c2) (cat1_iter c2) = Ok b /\
    (b = true <-> forall k v, In (k, v) items1 <-> In (k, v) items2).
Proof.
  intros items1 items2 c1 c2 H1 H2 N1 N2 E1 E2.
  destruct (create1_holds items1 H1 N1) as (c' & E' & (Hc1 & _)). rewrite E1 in E'. injection E' as <-.
  destruct (create1_holds items2 H2 N2) as (c' & E' & (Hc2 & _)). rewrite E2 in E'. injection E' as <-.
  exact (mapping_eq_spec Z.eqb Z.eqb_eq _ _ _ _ _ _ _ _ _ _ N1 N2 Hc1 Hc2).
Qed.
Print Assumptions C118_equality_1d.

Theorem C118_equality_2d : forall items1 items2 c1 c2, items1 <> [] -> items2 <> [] ->
  NoDup (map fst items1) -> NoDup (map fst items2) ->
  fst (create2 items1) = Ok (Some c1) -> fst (create2 items2) = Ok (Some c2) ->
  exists b, mapping_eq pair_eqb (cat2_get c1) (cat2_iter c1) (cat2_get c2) (cat2_iter c2) = Ok b /\
    (b = true <-> forall k v, In (k, v) items1 <-> In (k, v) items2).
Proof.
  intros items1 items2 c1 c2 H1 H2 N1 N2 E1 E2.
  destruct (create2_holds items1 H1 N1) as (c' & E' & (Hc1 & _)). rewrite E1 in E'. injection E' as <-.
  destruct (create2_holds items2 H2 N2) as (c' & E' & (Hc2 & _)). rewrite E2 in E'. injection E' as <-.
  exact (mapping_eq_spec pair_eqb pair_eqb_spec _ _ _ _ _ _ _ _ _ _ N1 N2 Hc1 Hc2).
Qed.
Print Assumptions C118_equality_2d.

(* a dictionary and a regular catalog of the same items are equal *)
Example C118_example :
  let a := CRegular 3 5 1 [9; 4; 1] in
  let b := dictionary_catalog [(5, 1); (3, 9); (4, 4)] in
  fst (create1 [(5, 1); (3, 9); (4, 4)]) = Ok (Some a) /\
  mapping_eq Z.eqb (cat1_get a) (cat1_iter a) (cat1_get b) (cat1_iter b) = Ok true /\
  mapping_items (cat1_get a) (cat1_iter a) = Ok [(3, 9); (4, 4); (5, 1)] /\
  mapping_get (cat1_get a) 6 7 = Ok 7.
Proof. repeat split. Qed.
