(* Writing a dataset over the file it is read from (C124). *)
From Coq Require Import String ZArith List Bool Lia Sorted.
From Verif Require Import Py PyFloat IbmFloat Util Catalog Packing Spec_Packing Formats FileIO Text Toolkit Spec_Text Spec_Segy Reader Spec_Reader ReaderFacts OpenFacts
  FormatFacts Transform InPlace Spec_InPlace InPlaceFacts.
Import ListNotations.
Local Open Scope string_scope.
Open Scope list_scope.
Open Scope Z_scope.

(* A dataset that is made trace by trace from a reader, and needs no more room,
   may be written over the file of the reader, through another file object: the
   outcome, the progress reports and the bytes are those of a new file.  What
   the old file had beyond them stays. *)
Theorem C124_in_place : forall d enc bc tc e dim r t ts native F enc' tc' e' pr log,
  readable d enc bc tc -> opens d enc bc tc e dim r -> traces_of d tc e r t ts ->
  tracewise F -> format_ok (h_cls (ds_binary (F (reading native r d)))) 400 -> format_ok tc' 240 ->
  fits (F (reading native r d)) t ts (zlen (rd_ext r)) ->
  let new := write_segy (F (reading native r d)) enc' tc' e' pr (mk_world (mk_file [] 0) log) in
  let out := write_segy_live (fun d' => F (reading native r d')) enc' tc' e' pr (mk_world (mk_file d 0) log) in
  fst out = fst new /\ w_log (snd out) = w_log (snd new) /\
  (fst new = Ok tt -> laid_over d (f_data (w_file (snd new))) (f_data (w_file (snd out)))).
Proof. exact made_in_place. Qed.
Print Assumptions C124_in_place.

(* The examples that leave the size of the samples alone, or reduce it, always
   have the room. *)
Theorem C124_examples : forall d enc bc tc e dim r t ts,
  readable d enc bc tc -> opens d enc bc tc e dim r -> traces_of d tc e r t ts ->
  forall native G ds' enc' tc' e' pr log, no_wider t G -> G (reading native r d) = Ok ds' -> format_ok tc' 240 ->
  let new := write_segy ds' enc' tc' e' pr (mk_world (mk_file [] 0) log) in
  let out := write_segy_live (fun d' => made G (reading native r d')) enc' tc' e' pr (mk_world (mk_file d 0) log) in
  fst out = fst new /\ w_log (snd out) = w_log (snd new) /\
  (fst new = Ok tt -> laid_over d (f_data (w_file (snd new))) (f_data (w_file (snd out)))).
Proof. exact example_in_place. Qed.
Print Assumptions C124_examples.

(* A file of four traces with 16 bit samples, converted. *)
Definition reader_of (d : list Z) : res reader := fst (open_file d).
Definition new_file (G : dataset -> res dataset) (d : list Z) (r : reader) : res (list Z) :=
  do ds <- G (reading Big r d) ;;
  let out := write_segy ds (Some ASCII) TraceHeaderRev1 Big NoProgress (mk_world (mk_file [] 0) []) in
  do _ <- fst out ;; Ok (f_data (w_file (snd out))).
Definition same_file (G : dataset -> res dataset) (d : list Z) (r : reader) : res (list Z) :=
  let out := write_segy_live (fun d' => made G (reading Big r d')) (Some ASCII) TraceHeaderRev1 Big NoProgress (mk_world (mk_file d 0) []) in
  do _ <- fst out ;; Ok (f_data (w_file (snd out))).
Definition same_object (d : list Z) (r : reader) : res (list Z) :=
  let out := write_segy_shared Big r (Some ASCII) TraceHeaderRev1 Big NoProgress (mk_world (mk_file d 0) []) in
  do _ <- fst out ;; Ok (f_data (w_file (snd out))).
Fixpoint same_bytes (a b : list Z) : bool :=
  match a, b with
  | [], [] => true
  | x :: a, y :: b => (x =? y) && same_bytes a b
  | _, _ => false
  end.
Lemma same_bytes_eq a : forall b, same_bytes a b = true <-> a = b.
Proof.
  induction a as [|x a IH]; intros [|y b]; cbn; try (split; [discriminate|intros E; discriminate E]); [easy|].
  rewrite andb_true_iff, Z.eqb_eq, IH. split; [now intros (-> & ->)|now intros [= -> ->]].
Qed.
Definition narrow (ds : dataset) : res dataset := converting ds T_INT8.
Definition widen (ds : dataset) : res dataset := converting ds T_INT32.
Definition bytes_of (x : res (list Z)) : list Z := match x with Ok b => b | Err _ => [] end.
Definition is_ok {A} (x : res A) : bool := match x with Ok _ => true | Err _ => false end.

(* Refuted: that a dataset whose traces are longer may be written so.  No error
   is raised, and the traces that come later have been overwritten before they
   were read. *)
Definition wider_differs (d : list Z) (r : reader) : bool :=
  match new_file widen d r, same_file widen d r with
  | Ok b, Ok b' => negb (same_bytes b (firstn (length b) b'))
  | _, _ => false
  end.
Lemma wider_check : match reader_of file_3d with Ok r => wider_differs file_3d r | Err _ => false end = true.
Proof. vm_compute. reflexivity. Qed.
Theorem C124_wider_refuted : exists r b b', reader_of file_3d = Ok r /\
  new_file widen file_3d r = Ok b /\ same_file widen file_3d r = Ok b' /\ ~ laid_over file_3d b b'.
Proof.
  assert (H := wider_check). destruct (reader_of file_3d) as [r|]; [|discriminate]. exists r. unfold wider_differs in H.
  destruct (new_file widen file_3d r) as [b|]; [|discriminate]. destruct (same_file widen file_3d r) as [b'|]; [|discriminate]. exists b, b'.
  split; [reflexivity|]. split; [reflexivity|]. split; [reflexivity|]. intros L. unfold laid_over in L. rewrite L, firstn_app in H.
  replace (length b - length b)%nat with 0%nat in H by lia. rewrite firstn_all in H. cbn [firstn] in H. rewrite app_nil_r in H.
  rewrite (proj2 (same_bytes_eq b b) eq_refl) in H. discriminate.
Qed.
Print Assumptions C124_wider_refuted.

(* Refuted: that what was written in place is the whole file.  A file with one
   trace has two after its samples have been narrowed. *)
Definition long_file : list Z := file_head Big ++ file_trace Big 7 1 5 (repeat 0 (Z.to_nat 300)).
Definition traces_after (d : list Z) : option (Z * Z) :=
  match reader_of d with
  | Ok r => match same_file narrow d r with
            | Ok b => match reader_of b with Ok r' => Some (rd_num_traces r, rd_num_traces r') | Err _ => None end
            | Err _ => None
            end
  | Err _ => None
  end.
Lemma leftover_check : traces_after long_file = Some (1, 2).
Proof. vm_compute. reflexivity. Qed.
Theorem C124_leftover_refuted : exists r b r', reader_of long_file = Ok r /\ same_file narrow long_file r = Ok b /\ reader_of b = Ok r' /\
  rd_num_traces r = 1 /\ rd_num_traces r' = 2.
Proof.
  assert (H := leftover_check). revert H. unfold traces_after. intros H.
  destruct (reader_of long_file) as [r|]; [|discriminate]. destruct (same_file narrow long_file r) as [b|] eqn:B; [|discriminate].
  destruct (reader_of b) as [r'|] eqn:R; [|discriminate]. injection H as H1 H2. exists r, b, r'. split; [reflexivity|]. split; [exact B|]. split; [exact R|]. split; [exact H1|exact H2].
Qed.
Print Assumptions C124_leftover_refuted.

(* Refuted: that a reader may be written to its own file object.  Reading moves
   its position, so that every header is written 240 bytes too late. *)
Definition destroys (d : list Z) (r : reader) : bool :=
  match write_segy_shared Big r (Some ASCII) TraceHeaderRev1 Big NoProgress (mk_world (mk_file d 0) []), new_file (fun ds => Ok ds) d r with
  | (Err EOFError, w), Ok b => same_bytes b d && negb (same_bytes (firstn (length d) (f_data (w_file w))) d)
  | _, _ => false
  end.
Lemma destroys_check : match reader_of file_1d with Ok r => destroys file_1d r | Err _ => false end = true.
Proof. vm_compute. reflexivity. Qed.
Theorem C124_same_object_refuted : exists r w, reader_of file_1d = Ok r /\ new_file (fun ds => Ok ds) file_1d r = Ok file_1d /\
  write_segy_shared Big r (Some ASCII) TraceHeaderRev1 Big NoProgress (mk_world (mk_file file_1d 0) []) = (Err EOFError, w) /\
  firstn (length file_1d) (f_data (w_file w)) <> file_1d.
Proof.
  assert (H := destroys_check).
  destruct (reader_of file_1d) as [r|]; [|discriminate]. unfold destroys in H.
  destruct (write_segy_shared Big r (Some ASCII) TraceHeaderRev1 Big NoProgress (mk_world (mk_file file_1d 0) [])) as [[u|y] w] eqn:W; [discriminate|]. exists r, w.
  destruct y; try discriminate. destruct (new_file (fun ds => Ok ds) file_1d r) as [b|]; [|discriminate].
  apply andb_prop in H. destruct H as (H1 & H2). apply same_bytes_eq in H1. subst b. split; [reflexivity|]. split; [reflexivity|]. split; [exact W|].
  intros E. apply negb_true_iff in H2. rewrite (proj2 (same_bytes_eq _ _) E) in H2. discriminate.
Qed.
Print Assumptions C124_same_object_refuted.

(* a file that meets the conditions, with a narrowing conversion that succeeds *)
Example C124_example : readable file_3d (Some ASCII) BinaryReelHeader TraceHeaderRev1 /\
  (exists r, opens file_3d (Some ASCII) BinaryReelHeader TraceHeaderRev1 Big None r) /\ no_wider T_INT16 narrow /\ format_ok TraceHeaderRev1 240 /\
  match reader_of file_3d with Ok r => is_ok (new_file narrow file_3d r) && is_ok (same_file narrow file_3d r) | Err _ => false end = true.
Proof.
  split; [apply readable_by; vm_compute; reflexivity|]. split; [apply opens_ok_opens; vm_compute; reflexivity|].
  split; [apply converted; vm_compute; discriminate|]. split; [apply rev1_trace_format|]. vm_compute. reflexivity.
Qed.
