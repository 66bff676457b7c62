(* Theorems for C110: header objects do not interfere. *)
From Coq Require Import String Ascii ZArith List Bool Lia.
From Verif Require Import Py PyFloat IbmFloat Packing Spec_Packing Formats FieldTypes Objects Spec_Objects ObjectsFacts.
Import ListNotations.
Local Open Scope string_scope.
Open Scope list_scope.
Open Scope Z_scope.

Theorem C110_own_header : forall (descr : fmt -> string -> Z), names_apart descr ->
  forall (o : Z) (hist : list event),
  match life o hist with
  | None => class_of (run_events descr hist) o = None
  | Some h => class_of (run_events descr hist) o = Some (h_cls h) /\
      forall f, class_ok (h_cls h) -> is_field (h_cls h) f ->
        obj_get descr (run_events descr hist) o (fd_name f) = hdr_get h (fd_name f)
  end.
Proof. exact own_header. Qed.
Print Assumptions C110_own_header.

Theorem C110_others : forall (descr : fmt -> string -> Z), names_apart descr ->
  forall (o : Z) (hist : list event) (ev : event), about ev <> o ->
  class_of (run_events descr (hist ++ [ev])) o = class_of (run_events descr hist) o /\
  forall c f, class_of (run_events descr hist) o = Some c -> class_ok c -> is_field c f ->
    obj_get descr (run_events descr (hist ++ [ev])) o (fd_name f) = obj_get descr (run_events descr hist) o (fd_name f).
Proof. exact others_unchanged. Qed.
Print Assumptions C110_others.

Theorem C110_fresh : forall (descr : fmt -> string -> Z), names_apart descr ->
  forall (o : Z) (hist : list event) (c : fmt) (f : fieldd),
  class_of (run_events descr hist) o = None -> class_ok c -> is_field c f ->
  obj_get descr (run_events descr (hist ++ [New o c])) o (fd_name f) = Ok (fd_default f).
Proof. exact fresh_defaults. Qed.
Print Assumptions C110_fresh.

(* the most sharing there can be: one descriptor for a name in all classes *)
Fixpoint code (s : string) : Z :=
  match s with EmptyString => 0 | String a s => 1 + Z.of_N (N_of_ascii a) + 257 * code s end.
Lemma code_inj s t : code s = code t -> s = t.
Proof.
  assert (P : forall s, 0 <= code s). { induction s0 as [|a s0 IH]; cbn [code]; lia. }
  assert (B : forall a, Z.of_N (N_of_ascii a) < 256). { intros [[] [] [] [] [] [] [] []]; reflexivity. }
  revert t. induction s as [|a s IH]; intros [|b t]; cbn [code]; intros E; auto.
  - pose proof (P t). lia.
  - pose proof (P s). lia.
  - pose proof (B a). pose proof (B b). assert (N_of_ascii a = N_of_ascii b) as X by lia. assert (code s = code t) by lia.
    f_equal; auto. rewrite <- (ascii_N_embedding a), <- (ascii_N_embedding b). now f_equal.
Qed.
Definition one_for_all (c : fmt) (n : string) : Z := code n.
Example C110_apart : names_apart one_for_all.
Proof. intros c n m. apply code_inj. Qed.

(* the second object at the address 7 sees nothing of the first *)
Definition history : list event :=
  [New 7 TraceHeaderRev1; New 8 TraceHeaderRev0; Assign 7 "num_samples" (RInt 5); Assign 8 "num_samples" (RInt 6);
   Assign 7 "num_samples" (RInt 40000); Gone 7; New 7 TraceHeaderRev0; Assign 7 "ensemble_num" (RInt (-2))].
Example C110_example :
  obj_get one_for_all (run_events one_for_all (firstn 5 history)) 7 "num_samples" = Ok 5 /\
  obj_get one_for_all (run_events one_for_all history) 7 "num_samples" = Ok 0 /\
  obj_get one_for_all (run_events one_for_all history) 7 "ensemble_num" = Ok (-2) /\
  obj_get one_for_all (run_events one_for_all history) 8 "num_samples" = Ok 6.
Proof. repeat split; vm_compute; reflexivity. Qed.
