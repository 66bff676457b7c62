(* Property C135: which part of a dataset a byte of the written file comes from. *)
From Coq Require Import String ZArith List Bool Lia.
From Verif Require Import Py PyFacts PyFloat IbmFloat Spec_Ibm Util Catalog Spec_Catalog Packing Spec_Packing Formats FileIO Text Spec_Text TextIO
  Float32 Toolkit Spec_Segy ToolkitFacts Reader Spec_Reader ReaderFacts OpenFacts PackingFacts FormatFacts Spec_Writer WriterFacts
  Spec_Written WrittenFacts Props_Reader Props_Writer.
Import ListNotations.
Local Open Scope string_scope.
Open Scope list_scope.
Open Scope Z_scope.

(* ---------------- C135 ---------------- *)

(* The file is the parts of the dataset one after the other, each in bytes which
   depend on that part alone: not on the other parts, the former contents of the
   file, the progress callback or how the encoding was chosen. *)
Theorem C135_parts : forall x (bc tc : fmt) (e : endian) (t : segytype),
  exists (text_bytes : list text -> list Z) (header_bytes : header -> list Z) (page_bytes : list text -> list Z) (trace_bytes : trace -> list Z),
  forall ds enc trs pr old log, writable ds x bc tc t trs -> encoding_for enc ds x -> pr <> NotCallable ->
    let b := text_bytes (ds_text ds) ++ header_bytes (ds_binary ds) ++ concat (map page_bytes (ds_ext ds)) ++ concat (map trace_bytes trs) in
    zlen (text_bytes (ds_text ds)) = 3200 /\ zlen (header_bytes (ds_binary ds)) = 400 /\
    Forall (fun p => zlen (page_bytes p) = 3200) (ds_ext ds) /\ Forall (fun tr => zlen (trace_bytes tr) = trace_size t tr) trs /\
    exists log', write_segy ds enc tc e pr (mk_world (mk_file old 0) log) =
      (Ok tt, mk_world (mk_file (b ++ skipn (Z.to_nat (zlen b)) old) (zlen b)) log').
Proof. exact written_parts. Qed.
Print Assumptions C135_parts.

(* Datasets that agree in their text, in the fields of their headers and in their
   samples give the same file. *)
Theorem C135_same : forall ds ds' enc enc' x (bc tc : fmt) (e : endian) t trs trs' b b',
  writable ds x bc tc t trs -> writable ds' x bc tc t trs' -> encoding_for enc ds x -> encoding_for enc' ds' x ->
  same_reel ds ds' -> Forall2 same_trace trs trs' -> writes ds enc tc e b -> writes ds' enc' tc e b' -> b' = b.
Proof. exact written_same. Qed.
Print Assumptions C135_same.

(* If one of the traces is another one with as many samples, only its bytes
   differ, *)
Theorem C135_one_trace : forall ds ds' enc enc' x (bc tc : fmt) (e : endian) t pre pre' tr tr' post post' b b',
  writable ds x bc tc t (pre ++ tr :: post) -> writable ds' x bc tc t (pre' ++ tr' :: post') ->
  encoding_for enc ds x -> encoding_for enc' ds' x -> same_reel ds ds' -> Forall2 same_trace pre pre' -> Forall2 same_trace post post' ->
  zlen (snd tr') = zlen (snd tr) -> writes ds enc tc e b -> writes ds' enc' tc e b' ->
  let s := trace_start ds t (pre ++ tr :: post) (length pre) in
  zlen b' = zlen b /\ forall i, 0 <= i < zlen b -> i < s \/ s + trace_size t tr <= i -> byte_at b' i = byte_at b i.
Proof. exact written_one. Qed.
Print Assumptions C135_one_trace.

(* and further traces only make the file longer. *)
Theorem C135_more_traces : forall ds ds' enc enc' x (bc tc : fmt) (e : endian) t trs trs' more b b',
  writable ds x bc tc t trs -> writable ds' x bc tc t (trs' ++ more) -> encoding_for enc ds x -> encoding_for enc' ds' x ->
  same_reel ds ds' -> Forall2 same_trace trs trs' -> writes ds enc tc e b -> writes ds' enc' tc e b' ->
  exists c, b' = b ++ c /\ zlen c = fold_right (fun tr n => trace_size t tr + n) 0 more.
Proof. exact written_more. Qed.
Print Assumptions C135_more_traces.

(* the dataset with these traces *)
Definition with_traces (ds : dataset) (trs : list trace) : dataset :=
  mk_dataset (ds_text ds) (ds_binary ds) (ds_ext ds) (ds_encoding ds) (zlen trs) (map Z.of_nat (seq 0 (length trs)))
    (fun k => match nth_error trs (Z.to_nat k) with Some tr => Ok (fst tr) | None => Err IndexError end)
    (fun k _ _ => match nth_error trs (Z.to_nat k) with Some tr => Ok (snd tr) | None => Err IndexError end)
    (ds_sample_format ds) 1.
Lemma with_traces_writable ds x bc tc t trs trs' : writable ds x bc tc t trs -> Forall (good_trace tc t) trs' ->
  writable (with_traces ds trs') x bc tc t trs'.
Proof.
  intros [S TX BC BH EX TC TY N PR G] G'. constructor; auto.
  - destruct trs'; [now left|]. right. cbn [with_traces ds_num_traces]. rewrite zlen_cons. pose proof (zlen_nonneg trs'). lia.
  - unfold presents. cbn [with_traces ds_trace_indexes ds_trace_header ds_trace_samples].
    assert (Q : forall pre l, trs' = pre ++ l -> Forall2 (fun k tr =>
      match nth_error trs' (Z.to_nat k) with Some tr => Ok (fst tr) | None => Err IndexError end = Ok (fst tr) /\
      match nth_error trs' (Z.to_nat k) with Some tr => Ok (snd tr) | None => Err IndexError end = Ok (snd tr))
      (map Z.of_nat (seq (length pre) (length l))) l).
    { intros pre l. revert pre. induction l as [|tr l IH]; intros pre E; [constructor|]. cbn [length seq map]. constructor.
      - rewrite Nat2Z.id, E, nth_error_app2, Nat.sub_diag by lia. cbn. auto.
      - specialize (IH (pre ++ [tr])). rewrite <- app_assoc in IH. specialize (IH E). rewrite app_length in IH. cbn [length] in IH.
        now replace (Datatypes.S (length pre)) with (length pre + 1)%nat by lia. }
    exact (Q [] trs' eq_refl).
Qed.
Lemma writes_one ds enc x bc tc e t trs : writable ds x bc tc t trs -> encoding_for enc ds x -> exists b, writes ds enc tc e b.
Proof.
  intros W X. destruct (write_contents ds enc x bc tc e t trs Callable [] [] W X ltac:(discriminate)) as (b & _ & E).
  do 4 eexists. split; [exact E|reflexivity].
Qed.
Lemma zero_storable t : storable t (RInt 0).
Proof. destruct t; cbn [storable]; first [split; (discriminate || reflexivity)|discriminate|reflexivity|idtac]; vm_compute; intuition discriminate. Qed.
Lemma with_traces_reel ds trs : same_reel ds (with_traces ds trs).
Proof. split; [reflexivity|]. split; [split; [reflexivity|auto]|reflexivity]. Qed.
(* four traces; the same with zeros as samples of the second; the same with the
   first once more at the end *)
Example C135_example : exists ds ds' ds'' t tr0 tr1 tr1' tr2 tr3 b b' b'',
  writable ds ASCII BinaryReelHeader TraceHeaderRev1 t [tr0; tr1; tr2; tr3] /\
  writable ds' ASCII BinaryReelHeader TraceHeaderRev1 t [tr0; tr1'; tr2; tr3] /\
  writable ds'' ASCII BinaryReelHeader TraceHeaderRev1 t ([tr0; tr1; tr2; tr3] ++ [tr0]) /\
  same_reel ds ds' /\ same_reel ds ds'' /\ zlen (snd tr1') = zlen (snd tr1) /\ Forall (eq (RInt 0)) (snd tr1') /\
  writes ds (Some ASCII) TraceHeaderRev1 Big b /\ writes ds' (Some ASCII) TraceHeaderRev1 Big b' /\
  writes ds'' (Some ASCII) TraceHeaderRev1 Big b''.
Proof.
  destruct dataset_3d as (ds & t & trs & (W & C & _) & L & _).
  destruct trs as [|tr0 [|tr1 [|tr2 [|tr3 [|]]]]]; try (unfold zlen in L; cbn [length] in L; lia).
  pose proof (wr_good _ _ _ _ _ _ W) as G.
  set (tr1' := (fst tr1, map (fun _ => RInt 0) (snd tr1)) : trace).
  assert (W' : writable (with_traces ds [tr0; tr1'; tr2; tr3]) ASCII BinaryReelHeader TraceHeaderRev1 t [tr0; tr1'; tr2; tr3]).
  { apply (with_traces_writable ds _ _ _ _ _ _ W). inversion G as [|? ? G0 G']; subst. inversion G' as [|? ? (G1 & _) G'']; subst.
    constructor; [exact G0|]. constructor; [|exact G'']. split; [exact G1|]. cbn [tr1' snd]. apply Forall_forall. intros r R.
    apply in_map_iff in R. destruct R as (r0 & <- & _). apply zero_storable. }
  assert (W'' : writable (with_traces ds ([tr0; tr1; tr2; tr3] ++ [tr0])) ASCII BinaryReelHeader TraceHeaderRev1 t ([tr0; tr1; tr2; tr3] ++ [tr0])).
  { apply (with_traces_writable ds _ _ _ _ _ _ W). apply Forall_app. split; [exact G|]. inversion G; subst. constructor; [assumption|constructor]. }
  destruct (writes_one ds (Some ASCII) ASCII _ _ Big _ _ W eq_refl) as (b & B).
  destruct (writes_one _ (Some ASCII) ASCII _ _ Big _ _ W' eq_refl) as (b' & B').
  destruct (writes_one _ (Some ASCII) ASCII _ _ Big _ _ W'' eq_refl) as (b'' & B'').
  exists ds, (with_traces ds [tr0; tr1'; tr2; tr3]), (with_traces ds ([tr0; tr1; tr2; tr3] ++ [tr0])), t, tr0, tr1, tr1', tr2, tr3, b, b', b''.
  split; [exact W|]. split; [exact W'|]. split; [exact W''|]. split; [apply with_traces_reel|]. split; [apply with_traces_reel|].
  split. { cbn [tr1' snd]. now rewrite zlen_map. }
  split. { cbn [tr1' snd]. apply Forall_forall. intros r R. apply in_map_iff in R. destruct R as (r0 & <- & _). reflexivity. }
  split; [exact B|]. split; [exact B'|exact B''].
Qed.
