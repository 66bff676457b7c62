(* Property C106: copies of files. *)
From Coq Require Import String ZArith List Bool Lia.
From Verif Require Import Py PyFloat IbmFloat Spec_Ibm Util Catalog Spec_Catalog Packing Spec_Packing Formats FileIO Text Spec_Text TextIO
  Float32 Toolkit Spec_Segy ToolkitFacts Reader Spec_Reader ReaderFacts OpenFacts PackingFacts FormatFacts Spec_Writer WriterFacts Spec_Copy CopyFacts Props_Reader Props_Writer.
Import ListNotations.
Local Open Scope string_scope.
Open Scope list_scope.
Open Scope Z_scope.

(* ---------------- C106 ---------------- *)

(* Writing what has been read, in the same encoding and byte order, gives a
   copy: text, pages, header fields and samples are stored in the same bytes
   at the same places, and nothing follows the last trace. *)
Theorem C106_copy_partial : forall d enc (bc tc : fmt) (e : endian) dim r native t ts, readable d enc bc tc -> opens d enc bc tc e dim r ->
  all_readable native d r -> coincident_alike bc -> coincident_alike tc -> traces_of d tc e r t ts ->
  forall wenc pr log, wenc = None \/ wenc = Some (rd_encoding r) -> pr <> NotCallable -> exists b w,
  write_segy (reader_dataset native r (mk_file d 0)) wenc tc e pr (mk_world (mk_file [] 0) log) = (Ok tt, w) /\ f_data (w_file w) = b /\
  copied bc tc e t (first_trace (rd_ext r)) ts d b.
Proof. exact copy. Qed.
Print Assumptions C106_copy_partial.

(* It is the file itself if the file has no other bytes. *)
Theorem C106_identical_partial : forall d enc (bc tc : fmt) (e : endian) dim r native t ts, readable d enc bc tc -> opens d enc bc tc e dim r ->
  all_readable native d r -> coincident_alike bc -> coincident_alike tc -> traces_of d tc e r t ts ->
  forall wenc pr log, reproducible bc tc e t (first_trace (rd_ext r)) ts d -> wenc = None \/ wenc = Some (rd_encoding r) -> pr <> NotCallable -> exists w,
  write_segy (reader_dataset native r (mk_file d 0)) wenc tc e pr (mk_world (mk_file [] 0) log) = (Ok tt, w) /\ f_data (w_file w) = d.
Proof. exact copy_same. Qed.
Print Assumptions C106_identical_partial.

Definition write_copy (d : list Z) (r : reader) : res Datatypes.unit * world :=
  write_segy (reader_dataset Little r (mk_file d 0)) None TraceHeaderRev1 Big Callable (mk_world (mk_file [] 0) []).
Definition same_bytes (a b : list Z) : bool := (zlen a =? zlen b) && forallb (fun p => fst p =? snd p) (combine a b).
Definition copy_gives (d b : list Z) : bool :=
  bytesb d && match open_file d with
  | (Ok r, _) => all_readableb Little d r && match write_copy d r with (Ok _, w) => same_bytes (f_data (w_file w)) b | _ => false end &&
      match sample_format (rd_binary r) with Ok T_INT16 => true | _ => false end
  | _ => false
  end.
Lemma same_bytes_ok : forall a b, same_bytes a b = true -> a = b.
Proof.
  unfold same_bytes. induction a as [|x a IH]; intros [|y b] H; apply andb_prop in H; destruct H as (L & H); unfold zlen in *; cbn [length combine forallb fst snd] in *; try lia; auto.
  apply andb_prop in H. destruct H as (E & H). f_equal; [lia|]. apply IH. apply andb_true_intro. split; [|exact H]. lia.
Qed.
Lemma copy_gives_ok d b : copy_gives d b = true -> exists r w, readable d (Some ASCII) BinaryReelHeader TraceHeaderRev1 /\
  opens d (Some ASCII) BinaryReelHeader TraceHeaderRev1 Big None r /\ all_readable Little d r /\ sample_format (rd_binary r) = Ok T_INT16 /\
  write_copy d r = (Ok tt, w) /\ f_data (w_file w) = b.
Proof.
  unfold copy_gives. intros H. apply andb_prop in H. destruct H as (B & H). destruct (open_file d) as [[r|y] w] eqn:O; [|discriminate].
  apply andb_prop in H. destruct H as (H & T). apply andb_prop in H. destruct H as (A & H). destruct (write_copy d r) as [[[]|y] w'] eqn:W; [|discriminate].
  exists r, w'. split; [now apply readable_by|]. split; [do 4 eexists; exact O|]. split; [now apply all_readableb_ok|].
  split; [destruct (sample_format (rd_binary r)) as [[]|]; try discriminate; reflexivity|]. split; [exact W|]. now apply same_bytes_ok.
Qed.

(* file_3d is such a file. *)
Lemma reproducible_by d r w : readable d (Some ASCII) BinaryReelHeader TraceHeaderRev1 -> opens d (Some ASCII) BinaryReelHeader TraceHeaderRev1 Big None r ->
  all_readable Little d r -> sample_format (rd_binary r) = Ok T_INT16 -> write_copy d r = (Ok tt, w) -> f_data (w_file w) = d ->
  exists ts, traces_of d TraceHeaderRev1 Big r T_INT16 ts /\ reproducible BinaryReelHeader TraceHeaderRev1 Big T_INT16 (first_trace (rd_ext r)) ts d.
Proof.
  intros RD OP AR SF W D. destruct (opens_opened _ _ _ _ _ _ _ RD OP) as (x & ts & t & X & O).
  assert (TY := op_type _ _ _ _ _ _ _ _ _ O). assert (t = T_INT16) as ->. { apply sample_format_ok in TY. congruence. }
  assert (TR : traces_of d TraceHeaderRev1 Big r T_INT16 ts) by (split; [exact TY|exact (op_traces _ _ _ _ _ _ _ _ _ O)]).
  exists ts. split; [exact TR|].
  destruct (copy d (Some ASCII) BinaryReelHeader TraceHeaderRev1 Big None r Little T_INT16 ts RD OP AR binary_alike rev1_alike TR None Callable [] ltac:(now left) ltac:(discriminate))
    as (b & w' & W' & DB & C).
  unfold write_copy in W. rewrite W in W'. injection W' as <-. assert (b = d) as -> by congruence. destruct (same_needs _ _ _ _ _ _ _ C) as (N1 & N2 & N3).
  constructor; auto. intros i k _ _ (n & E & _). discriminate.
Qed.
Example C106_example : exists r ts, readable file_3d (Some ASCII) BinaryReelHeader TraceHeaderRev1 /\
  opens file_3d (Some ASCII) BinaryReelHeader TraceHeaderRev1 Big None r /\ all_readable Little file_3d r /\
  coincident_alike BinaryReelHeader /\ coincident_alike TraceHeaderRev1 /\ traces_of file_3d TraceHeaderRev1 Big r T_INT16 ts /\
  reproducible BinaryReelHeader TraceHeaderRev1 Big T_INT16 (first_trace (rd_ext r)) ts file_3d.
Proof.
  assert (H : copy_gives file_3d file_3d = true) by (vm_compute; reflexivity). revert H. generalize file_3d. intros d H.
  destruct (copy_gives_ok _ _ H) as (r & w & RD & OP & AR & SF & W & D). destruct (reproducible_by d r w RD OP AR SF W D) as (ts & TR & RP).
  exists r, ts. split; [exact RD|]. split; [exact OP|]. split; [exact AR|]. split; [exact binary_alike|]. split; [exact rev1_alike|]. now split.
Qed.

(* The conditions are needed: a copy that is the same has no other bytes. *)
Theorem C106_needed : forall d enc (bc tc : fmt) (e : endian) dim r native t ts, readable d enc bc tc -> opens d enc bc tc e dim r ->
  all_readable native d r -> coincident_alike bc -> coincident_alike tc -> traces_of d tc e r t ts ->
  forall wenc pr log w, wenc = None \/ wenc = Some (rd_encoding r) -> pr <> NotCallable ->
  write_segy (reader_dataset native r (mk_file d 0)) wenc tc e pr (mk_world (mk_file [] 0) log) = (Ok tt, w) -> f_data (w_file w) = d ->
  scan tc e (sample_size t) d (first_trace (rd_ext r)) ts (zlen d) /\ rest_zero bc d 3200 400 /\ forall i, In i ts -> rest_zero tc d (t_pos i) 240.
Proof.
  intros d enc bc tc e dim r native t ts RD OP AR AB AT TR wenc pr log w WE P W D.
  destruct (copy d enc bc tc e dim r native t ts RD OP AR AB AT TR wenc pr log WE P) as (b & w' & W' & DB & C).
  rewrite W in W'. injection W' as <-. assert (b = d) as -> by congruence. exact (same_needs _ _ _ _ _ _ _ C).
Qed.
Print Assumptions C106_needed.

(* A byte of the binary reel header that the standard leaves unassigned is not
   copied, nor is what follows the last trace. *)
Definition set_byte (d : list Z) (i v : Z) : list Z := firstn (Z.to_nat i) d ++ v :: skipn (Z.to_nat (i + 1)) d.
Definition unassigned_set : list Z := set_byte file_3d 3300 7.
Definition more_bytes : list Z := file_3d ++ [1; 2; 3].
Theorem C106_unassigned_refuted : exists d r w, readable d (Some ASCII) BinaryReelHeader TraceHeaderRev1 /\
  opens d (Some ASCII) BinaryReelHeader TraceHeaderRev1 Big None r /\ all_readable Little d r /\
  write_copy d r = (Ok tt, w) /\ byte_at d 3300 = 7 /\ byte_at (f_data (w_file w)) 3300 = 0.
Proof.
  assert (H : copy_gives unassigned_set file_3d && (byte_at unassigned_set 3300 =? 7) && (byte_at file_3d 3300 =? 0) = true) by (vm_compute; reflexivity).
  exists unassigned_set. revert H. generalize unassigned_set file_3d. intros d b H. apply andb_prop in H. destruct H as (H & B0). apply andb_prop in H. destruct H as (H & B7).
  destruct (copy_gives_ok _ _ H) as (r & w & RD & OP & AR & _ & W & D). exists r, w. rewrite D.
  split; [exact RD|]. split; [exact OP|]. split; [exact AR|]. split; [exact W|]. split; now apply Z.eqb_eq.
Qed.
Print Assumptions C106_unassigned_refuted.
Theorem C106_trailing_refuted : exists d r w, readable d (Some ASCII) BinaryReelHeader TraceHeaderRev1 /\
  opens d (Some ASCII) BinaryReelHeader TraceHeaderRev1 Big None r /\ all_readable Little d r /\
  write_copy d r = (Ok tt, w) /\ d = f_data (w_file w) ++ [1; 2; 3].
Proof.
  assert (H : copy_gives more_bytes file_3d = true) by (vm_compute; reflexivity). exists more_bytes.
  assert (E : more_bytes = file_3d ++ [1; 2; 3]) by reflexivity. revert H E. generalize more_bytes file_3d. intros d b H E.
  destruct (copy_gives_ok _ _ H) as (r & w & RD & OP & AR & _ & W & D). exists r, w. rewrite D. auto.
Qed.
Print Assumptions C106_trailing_refuted.
