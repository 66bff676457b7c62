(* What is read depends on its own bytes only (C133); samples and trace headers
   can be replaced in place (C134). *)
From Coq Require Import String ZArith List Bool Lia.
From Verif Require Import Py PyFloat IbmFloat Util Catalog Packing Formats FileIO Text Toolkit Spec_Packing Spec_Text Spec_Segy Reader Spec_Reader Spec_Writer ReaderFacts OpenFacts
  CompileFacts HeaderFacts FormatFacts WriterFacts TransformFacts Spec_Local LocalFacts Props_Reader.
Import ListNotations.
Local Open Scope string_scope.
Open Scope list_scope.
Open Scope Z_scope.

(* ---------------- C133 ---------------- *)

(* A file of the same length that differs anywhere but before the traces and in
   five fields of each trace header opens as the very same reader, with the same
   progress reports. *)
Theorem C133_opening : forall a enc bc tc e pr dim (d d' : list Z) log r w t ts, readable d enc bc tc ->
  create_reader a enc bc tc (Some e) pr dim (mk_world (mk_file d 0) log) = (Ok r, w) -> traces_of d tc e r t ts ->
  same_where_it_counts tc (first_trace (rd_ext r)) ts d d' ->
  exists q, create_reader a enc bc tc (Some e) pr dim (mk_world (mk_file d' 0) log) = (Ok r, mk_world (mk_file d' q) (w_log w)).
Proof. exact opening_same. Qed.
Print Assumptions C133_opening.

(* And it is only through the positions, lengths and numbers of the traces that
   trace headers matter. *)
Theorem C133_through_traces : forall a enc bc tc e pr dim (d d' : list Z) log r w t ts, readable d enc bc tc ->
  create_reader a enc bc tc (Some e) pr dim (mk_world (mk_file d 0) log) = (Ok r, w) -> traces_of d tc e r t ts ->
  all_bytes d' -> zlen d' = zlen d -> same_bytes d d' 0 (first_trace (rd_ext r)) -> traces_of d' tc e r t ts ->
  exists q, create_reader a enc bc tc (Some e) pr dim (mk_world (mk_file d' 0) log) = (Ok r, mk_world (mk_file d' q) (w_log w)).
Proof. exact opening_alike. Qed.
Print Assumptions C133_through_traces.

(* trace_header answers the same, or raises the same, wherever the 240 bytes of
   the header are the same. *)
Theorem C133_header : forall (d d' : list Z) enc bc tc e dim r t ts, readable d enc bc tc -> opens d enc bc tc e dim r -> traces_of d tc e r t ts ->
  zlen d' = zlen d -> forall k tr p p' o, trace_of ts k tr -> same_bytes d d' (t_pos tr) (t_pos tr + 240) ->
  fst (rd_trace_header r k o (mk_file d p)) = fst (rd_trace_header r k o (mk_file d' p')).
Proof. exact header_same. Qed.
Print Assumptions C133_header.

(* trace_samples does so wherever the bytes of the samples asked for are the
   same. *)
Theorem C133_samples : forall (d d' : list Z) enc bc tc e dim r t ts, readable d enc bc tc -> opens d enc bc tc e dim r -> traces_of d tc e r t ts ->
  zlen d' = zlen d -> forall native k tr a b p p', trace_of ts k tr ->
  (0 <= or_else a 0 <= or_else b (t_count tr) -> or_else b (t_count tr) <= t_count tr ->
   same_bytes d d' (t_pos tr + 240 + sample_size t * or_else a 0) (t_pos tr + 240 + sample_size t * or_else b (t_count tr))) ->
  fst (rd_trace_samples native r k a b (mk_file d p)) = fst (rd_trace_samples native r k a b (mk_file d' p')).
Proof. exact samples_same. Qed.
Print Assumptions C133_samples.

(* ---------------- C134 ---------------- *)

(* Any samples that can be stored, written by write_binary_values over samples a
   to a + n - 1 of a trace: the file opens as the same reader as before, these
   samples are read as they were stored, and all other samples and every header
   are what they were. *)
Theorem C134_samples : forall (d : list Z) enc bc tc e dim r t ts k tr a ss native,
  readable d enc bc tc -> opens d enc bc tc e dim r -> traces_of d tc e r t ts -> trace_of ts k tr ->
  0 <= a -> a + zlen ss <= t_count tr -> t_pos tr + 240 + sample_size t * (a + zlen ss) <= zlen d -> Forall (storable t) ss ->
  exists d' q, write_binary_values ss t e (mk_file d (t_pos tr + 240 + sample_size t * a)) = (Ok tt, mk_file d' q) /\
    (forall at' pr log w, create_reader at' enc bc tc (Some e) pr dim (mk_world (mk_file d 0) log) = (Ok r, w) ->
       exists y, create_reader at' enc bc tc (Some e) pr dim (mk_world (mk_file d' 0) log) = (Ok r, mk_world (mk_file d' y) (w_log w))) /\
    (exists rs, Forall2 (stored_as t) ss rs /\ forall p, fst (rd_trace_samples native r k (Some a) (Some (a + zlen ss)) (mk_file d' p)) = Ok rs) /\
    (forall k' tr' a' b' p p', trace_of ts k' tr' -> k' <> k \/ or_else b' (t_count tr') <= a \/ a + zlen ss <= or_else a' 0 ->
       fst (rd_trace_samples native r k' a' b' (mk_file d' p')) = fst (rd_trace_samples native r k' a' b' (mk_file d p))) /\
    (forall k' tr' o p p', trace_of ts k' tr' -> fst (rd_trace_header r k' o (mk_file d' p')) = fst (rd_trace_header r k' o (mk_file d p))).
Proof.
  intros d enc bc tc e dim r t ts k tr a ss native RD OP TR TK A N L S.
  destruct (patched d enc bc tc e dim r t ts k tr a ss native RD OP TR TK A N L S) as (d' & q & W & C & H1 & H2 & H3).
  exists d', q. split; [exact W|]. split; [|auto]. intros at' pr log w R. exact (opening_same at' enc bc tc e pr dim d d' log r w t ts RD R TR C).
Qed.
Print Assumptions C134_samples.

(* A header that says the same of length and place, written by
   write_trace_header over the header of a trace. *)
Theorem C134_header : forall (d : list Z) enc bc tc e dim r t ts k tr h native,
  readable d enc bc tc -> opens d enc bc tc e dim r -> traces_of d tc e r t ts -> trace_of ts k tr -> good_header tc h ->
  hdr_get h "num_samples" = Ok (t_count tr) -> hdr_get h "ensemble_num" = Ok (t_cdp tr) ->
  hdr_get h "inline_number" = Ok (t_inline tr) -> hdr_get h "crossline_number" = Ok (t_xline tr) ->
  exists d' q, write_trace_header h (rd_packer r) (mk_file d (t_pos tr)) = (Ok tt, mk_file d' q) /\
    (forall at' pr log w, create_reader at' enc bc tc (Some e) pr dim (mk_world (mk_file d 0) log) = (Ok r, w) ->
       exists y, create_reader at' enc bc tc (Some e) pr dim (mk_world (mk_file d' 0) log) = (Ok r, mk_world (mk_file d' y) (w_log w))) /\
    (exists h', same_fields h h' /\ forall p, fst (rd_trace_header r k None (mk_file d' p)) = Ok h') /\
    (forall k' tr' o p p', trace_of ts k' tr' -> k' <> k -> fst (rd_trace_header r k' o (mk_file d' p')) = fst (rd_trace_header r k' o (mk_file d p))) /\
    (forall k' tr' a b p p', trace_of ts k' tr' -> fst (rd_trace_samples native r k' a b (mk_file d' p')) = fst (rd_trace_samples native r k' a b (mk_file d p))).
Proof.
  intros d enc bc tc e dim r t ts k tr h native RD OP TR TK G G1 G2 G3 G4.
  destruct (header_patched d enc bc tc e dim r t ts k tr h native RD OP TR TK G G1 G2 G3 G4) as (d' & q & W & B & L & S & T' & H1 & H2 & H3).
  exists d', q. split; [exact W|]. split; [|auto]. intros at' pr log w R. exact (opening_alike at' enc bc tc e pr dim d d' log r w t ts RD R TR B L S T').
Qed.
Print Assumptions C134_header.

(* ---------------- examples ---------------- *)

(* A file of four traces with 16 bit samples: the second sample of the first
   trace becomes 77, and its header gets a shotpoint number. *)
Definition relabelled : list (string * Z) :=
  [("ensemble_num", 7); ("num_samples", 3); ("inline_number", 1); ("crossline_number", 5); ("shotpoint_number", 12)].
Definition patched_samples (d : list Z) (r : reader) : res (list real * list real) :=
  let (x, f) := write_binary_values [RInt 77] T_INT16 Big (mk_file d 3842) in
  do _ <- x ;; do a <- fst (rd_trace_samples Little r 0 None None f) ;; do b <- fst (rd_trace_samples Little r 1 None None f) ;; Ok (a, b).
Definition patched_header (d : list Z) (r : reader) : res (Z * list real) :=
  do h <- hdr_init TraceHeaderRev1 [] relabelled ;;
  let (x, f) := write_trace_header h (rd_packer r) (mk_file d 3600) in
  do _ <- x ;; do h <- fst (rd_trace_header r 0 None f) ;; do n <- hdr_get h "shotpoint_number" ;;
  do a <- fst (rd_trace_samples Little r 0 None None f) ;; Ok (n, a).
Lemma relabelled_good h : hdr_init TraceHeaderRev1 [] relabelled = Ok h -> good_header TraceHeaderRev1 h.
Proof.
  intros E. destruct (shipped_ok TraceHeaderRev1 ltac:(cbn; tauto)) as (K & _).
  destruct (class_header_ok TraceHeaderRev1 relabelled h K) as (C & O); [|intros n v I|exact E|].
  - cbn. repeat (constructor; [cbn; intuition discriminate|]). constructor.
  - assert (Q : exists f, class_field TraceHeaderRev1 n = Some f /\ accepts (fd_type f) v).
    { destruct I as [[= <- <-]|[[= <- <-]|[[= <- <-]|[[= <- <-]|[[= <- <-]|[]]]]]]; (eexists; split; [vm_compute; reflexivity|]; cbn; lia). }
    destruct Q as (f & F & A). apply class_field_spec in F; [|now apply class_ok_levels]. exists f. tauto.
  - rewrite <- C. apply no_coincident_good; [now right|exact O].
Qed.
Lemma patch_check : match open_file file_3d with
  | (Ok r, _) => patched_samples file_3d r = Ok ([RInt 10; RInt 77; RInt 30], [RInt 40; RInt 50]) /\
      patched_header file_3d r = Ok (12, [RInt 10; RInt (-20); RInt 30]) /\ sample_format (rd_binary r) = Ok T_INT16 /\
      rd_num_traces r = 4 /\ rd_num_trace_samples r 0 = Ok 3 /\ first_trace (rd_ext r) = 3600
  | _ => False
  end.
Proof. vm_compute. repeat (apply conj; [reflexivity|]). reflexivity. Qed.
(* The hypotheses of C133 and C134 hold of the file, the trace and the header. *)
Example C134_example : exists r t ts tr h, readable_default file_3d /\ opens_default file_3d r /\ traces_of file_3d TraceHeaderRev1 Big r t ts /\
  t = T_INT16 /\ zlen ts = 4 /\ trace_of ts 0 tr /\ t_pos tr = 3600 /\ t_count tr = 3 /\
  Forall (storable t) [RInt 77] /\ hdr_init TraceHeaderRev1 [] relabelled = Ok h /\ good_header TraceHeaderRev1 h /\
  patched_samples file_3d r = Ok ([RInt 10; RInt 77; RInt 30], [RInt 40; RInt 50]) /\
  patched_header file_3d r = Ok (12, [RInt 10; RInt (-20); RInt 30]).
Proof.
  assert (B : bytesb file_3d = true) by (vm_compute; reflexivity). assert (PC := patch_check). revert B PC. generalize file_3d. intros d B PC.
  destruct (open_file d) as [[r|y] w] eqn:O; [|destruct PC]. destruct PC as (P1 & P2 & P3 & P4 & P5 & P6).
  pose proof (readable_by d B) as RD. assert (OP : opens_default d r) by (do 4 eexists; exact O).
  destruct (opens_opened d _ _ _ _ _ r RD OP) as (x & ts & t & X & OD).
  assert (TR : traces_of d TraceHeaderRev1 Big r t ts) by (split; [apply OD|apply OD]).
  assert (LN : zlen ts = 4) by (rewrite <- P4; symmetry; exact (rd_num _ _ _ _ _ _ _ _ _ OD)).
  destruct (trace_of_exists ts 0 ltac:(lia)) as (tr & TK).
  assert (T : t = T_INT16) by (pose proof (sample_format_ok _ _ (proj1 TR)); congruence).
  assert (C : t_count tr = 3) by (pose proof (rd_count _ _ _ _ _ _ _ _ _ OD 0 tr TK); congruence).
  assert (P : t_pos tr = 3600) by (rewrite <- P6; destruct TR as (_ & F); apply trace_layout in F; now apply F).
  destruct (hdr_init TraceHeaderRev1 [] relabelled) as [h|] eqn:H; [|exfalso; revert H; vm_compute; discriminate].
  exists r, t, ts, tr, h. repeat (split; [assumption|]). split; [rewrite T; constructor; [cbn; lia|constructor]|]. split; [reflexivity|]. split; [now apply relabelled_good|]. auto.
Qed.
