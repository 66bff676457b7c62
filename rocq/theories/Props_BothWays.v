(* Property C147: converting a file by way of another encoding and byte order. *)
From Coq Require Import String ZArith List Bool Lia.
From Verif Require Import Py Packing Spec_Packing Formats FileIO Text Spec_Text Toolkit Spec_Segy Reader Spec_Reader ReaderFacts OpenFacts
  Spec_Writer WriterFacts Spec_Copy CopyFacts Props_Reader Props_Writer Props_Copy Spec_BothWays BothWaysFacts.
Import ListNotations.
Local Open Scope string_scope.
Open Scope list_scope.
Open Scope Z_scope.

(* Files that read the same are written the same, in any encoding and byte
   order, however each of them is stored. *)
Theorem C147_same_readings : forall (bc tc : fmt), coincident_alike bc -> coincident_alike tc ->
  forall d enc e dim r native, readable d enc bc tc -> opens d enc bc tc e dim r -> all_readable native d r ->
  forall d' enc' e' dim' r' native', readable d' enc' bc tc -> opens d' enc' bc tc e' dim' r' -> same_readings d r d' r' ->
  forall x e2 b b', supported x -> text_encodable r x ->
  always_writes (reader_dataset native r (mk_file d 0)) x tc e2 b -> always_writes (reader_dataset native' r' (mk_file d' 0)) x tc e2 b' -> b' = b.
Proof. exact same_written. Qed.
Print Assumptions C147_same_readings.

(* Converting a file to one encoding and byte order and the result to another is
   converting it to the latter at once: c. *)
Theorem C147_by_way : forall (bc tc : fmt) d enc e dim r native x1 e1 x2 e2, coincident_alike bc -> coincident_alike tc ->
  readable d enc bc tc -> opens d enc bc tc e dim r -> all_readable native d r ->
  supported x1 -> text_encodable r x1 -> supported x2 -> text_encodable r x2 ->
  exists b c, always_writes (reader_dataset native r (mk_file d 0)) x1 tc e1 b /\ always_writes (reader_dataset native r (mk_file d 0)) x2 tc e2 c /\
    (exists r', opens b (Some x1) bc tc e1 dim r') /\
    forall native' dim' r', opens b (Some x1) bc tc e1 dim' r' -> always_writes (reader_dataset native' r' (mk_file b 0)) x2 tc e2 c.
Proof. exact both_ways. Qed.
Print Assumptions C147_by_way.

(* What has been written is not changed by copying it once more. *)
Theorem C147_again : forall (bc tc : fmt) d enc e dim r native x1 e1, coincident_alike bc -> coincident_alike tc ->
  readable d enc bc tc -> opens d enc bc tc e dim r -> all_readable native d r -> supported x1 -> text_encodable r x1 ->
  exists b, always_writes (reader_dataset native r (mk_file d 0)) x1 tc e1 b /\ (exists r', opens b (Some x1) bc tc e1 dim r') /\
    forall native' dim' r', opens b (Some x1) bc tc e1 dim' r' -> always_writes (reader_dataset native' r' (mk_file b 0)) x1 tc e1 b.
Proof. exact copy_again. Qed.
Print Assumptions C147_again.

(* There and back again is the file itself, if its copy is (see C106). *)
Theorem C147_back : forall (bc tc : fmt) d enc e dim r native t ts x1 e1, coincident_alike bc -> coincident_alike tc ->
  readable d enc bc tc -> opens d enc bc tc e dim r -> all_readable native d r -> traces_of d tc e r t ts ->
  reproducible bc tc e t (first_trace (rd_ext r)) ts d -> supported x1 -> text_encodable r x1 ->
  exists b, always_writes (reader_dataset native r (mk_file d 0)) x1 tc e1 b /\ (exists r', opens b (Some x1) bc tc e1 dim r') /\
    forall native' dim' r', opens b (Some x1) bc tc e1 dim' r' -> always_writes (reader_dataset native' r' (mk_file b 0)) (rd_encoding r) tc e d.
Proof. exact there_and_back. Qed.
Print Assumptions C147_back.

Example C147_example : exists r ts, coincident_alike BinaryReelHeader /\ coincident_alike TraceHeaderRev1 /\
  readable file_3d (Some ASCII) BinaryReelHeader TraceHeaderRev1 /\ opens file_3d (Some ASCII) BinaryReelHeader TraceHeaderRev1 Big None r /\
  all_readable Little file_3d r /\ traces_of file_3d TraceHeaderRev1 Big r T_INT16 ts /\
  reproducible BinaryReelHeader TraceHeaderRev1 Big T_INT16 (first_trace (rd_ext r)) ts file_3d /\
  supported EBCDIC /\ text_encodable r EBCDIC /\ supported ASCII /\ text_encodable r ASCII.
Proof.
  destruct C106_example as (r & ts & RD & OP & AR & AB & AT & TR & RP). exists r, ts. do 7 (split; [assumption|]).
  assert (TE := text_encodable_same _ _ _ _ _ _ _ RD OP). split; [now right|]. split; [|split; [now left|exact TE]].
  assert (I : forall s, encodable ASCII s -> encodable EBCDIC s) by (intros s; apply Forall_impl; cbn; lia).
  destruct TE as (A & B). split; [revert A; apply Forall_impl; exact I|revert B; apply Forall_impl; intros p; apply Forall_impl; exact I].
Qed.
