(* Proofs about reading part of a trace of a dataset. *)
From Coq Require Import String ZArith List Bool Lia ZifyBool ZifyNat.
From Verif Require Import Py PyFacts PyFloat IbmFloat Util Catalog Packing Spec_Packing PackingFacts FileIO Text Spec_Text Float32 Toolkit Spec_Segy ToolkitFacts
  Reader Spec_Reader ReaderFacts OpenFacts Transform Spec_Ranges.
Import ListNotations.
Open Scope Z_scope.

Lemma reader_parts d enc bc tc e dim r native q : readable d enc bc tc -> opens d enc bc tc e dim r ->
  gives_parts (reader_dataset native r (mk_file d q)).
Proof.
  intros RD OP k all R a b A B. cbn [reader_dataset ds_trace_samples] in *.
  destruct (opens_opened d enc bc tc e dim r RD OP) as (x & ts & t & X & O).
  assert (TR : traces_of d tc e r t ts) by (split; [exact (op_type _ _ _ _ _ _ _ _ _ O)|exact (op_traces _ _ _ _ _ _ _ _ _ O)]).
  destruct (samples_ok d enc bc tc e dim r t ts RD OP TR native k None None q) as (_ & _ & SO). rewrite R in SO.
  destruct (samples_ok d enc bc tc e dim r t ts RD OP TR native k a b q) as (_ & _ & SO').
  inversion SO as [| | |tr rs TR1 C1 C2 C3 C4 C5]; subst. cbn [or_else] in *. pose proof (sample_size_pos t).
  assert (L : zlen all = t_count tr) by lia. rewrite L in *.
  unfold part. rewrite L. 
  inversion SO' as [N|tr' TR2 D1|tr' TR2 D1 D2 D3|tr' rs TR2 D1 D2 D3 D4 D5].
  - exfalso. apply N, TR1.
  - rewrite (trace_of_unique ts k tr' tr TR2 TR1) in *. lia.
  - rewrite (trace_of_unique ts k tr' tr TR2 TR1) in *. nia.
  - rewrite (trace_of_unique ts k tr' tr TR2 TR1) in *. f_equal. apply (samples_unique t e d (t_pos tr + 240 + sample_size t * or_else a 0)).
    + rewrite zlen_firstn, zlen_skipn. lia.
    + exact D5.
    + apply samples_at_slice; [lia|lia|]. replace (t_pos tr + 240 + sample_size t * 0) with (t_pos tr + 240) in C5 by lia. exact C5.
Qed.

Lemma map_res_firstn {A B} (f : A -> res B) n : forall l m, map_res f l = Ok m -> map_res f (firstn n l) = Ok (firstn n m).
Proof.
  induction n as [|n IH]; intros l m H; [reflexivity|]. destruct l as [|x l]; cbn [map_res] in H; [injection H as <-; reflexivity|].
  destruct (f x) as [y|] eqn:E; [|discriminate]. cbn [bind] in H. destruct (map_res f l) as [m'|] eqn:E'; [|discriminate]. cbn [bind] in H.
  injection H as <-. cbn [firstn map_res]. rewrite E. cbn [bind]. now rewrite (IH l m' E').
Qed.
Lemma map_res_skipn {A B} (f : A -> res B) n : forall l m, map_res f l = Ok m -> map_res f (skipn n l) = Ok (skipn n m).
Proof.
  induction n as [|n IH]; intros l m H; [exact H|]. destruct l as [|x l]; cbn [map_res] in H; [injection H as <-; reflexivity|].
  destruct (f x) as [y|] eqn:E; [|discriminate]. cbn [bind] in H. destruct (map_res f l) as [m'|] eqn:E'; [|discriminate]. cbn [bind] in H.
  injection H as <-. cbn [skipn]. exact (IH l m' E').
Qed.
Lemma map_res_zlen {A B} (f : A -> res B) : forall l m, map_res f l = Ok m -> zlen m = zlen l.
Proof.
  unfold zlen. induction l as [|x l IH]; intros m H; cbn [map_res] in H; [injection H as <-; reflexivity|].
  destruct (f x) as [y|] eqn:E; [|discriminate]. cbn [bind] in H. destruct (map_res f l) as [m'|] eqn:E'; [|discriminate]. cbn [bind] in H.
  injection H as <-. cbn [length]. specialize (IH m' eq_refl). lia.
Qed.

Lemma mapped_parts src ds (f : real -> res real) : gives_parts src ->
  (forall k a b, ds_trace_samples ds k a b = (do ss <- ds_trace_samples src k a b ;; map_res f ss)) -> gives_parts ds.
Proof.
  intros P E k all R a b A B. rewrite E in *. destruct (ds_trace_samples src k None None) as [ss|] eqn:S; [|discriminate].
  cbn [bind] in R. pose proof (map_res_zlen f ss all R) as L. rewrite L in A, B. rewrite (P k ss S a b A B). cbn [bind].
  unfold part. rewrite L. apply map_res_firstn, map_res_skipn, R.
Qed.

Lemma converting_parts src t ds : gives_parts src -> converting src t = Ok ds -> gives_parts ds.
Proof.
  intros P C. unfold converting in C. destruct (format_for t) as [code|]; [|discriminate]. cbn [bind] in C.
  destruct (hdr_copy _ _) as [bin|]; [|discriminate]. cbn [bind] in C. injection C as <-.
  apply (mapped_parts src _ (convert_sample t) P). reflexivity.
Qed.
Lemma scaling_parts src f ds : gives_parts src -> scaling src f = Ok ds -> gives_parts ds.
Proof.
  intros P C. unfold scaling in C. destruct (ds_sample_format src) as [t|]; [|discriminate]. cbn [bind] in C. injection C as <-.
  apply (mapped_parts src _ (scale_sample t f) P). reflexivity.
Qed.
Lemma coords_parts src f : gives_parts src -> gives_parts (scaling_coords src f).
Proof. intros P. exact P. Qed.
Lemma delegating_parts src : gives_parts src -> gives_parts (delegating src).
Proof. intros P. exact P. Qed.
