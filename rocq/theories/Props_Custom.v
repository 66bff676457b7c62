(* Properties C78, C79 and C81: opening files with trace header formats of any kind. *)
From Coq Require Import String ZArith List Bool Sorted Permutation Lia ZifyBool ZifyNat.
From Verif Require Import Py Util Packing Spec_Packing Formats FormatFacts FileIO Text Spec_Text Toolkit Spec_Segy ToolkitFacts
  Reader Spec_Reader ReaderFacts OpenFacts Spec_Order Spec_Custom CustomFacts SeenFacts Props_Reader.
Import ListNotations.
Local Open Scope string_scope.
Open Scope list_scope.
Open Scope Z_scope.

(* ---------------- C78 ---------------- *)

(* With a number of samples of any type: the search goes on for ever exactly if
   following the headers comes to a header a second time: if as many steps as
   the file has bytes, and two, are not enough, no number of steps is. *)
Theorem C78_exact : forall bps (c : fmt) (e : endian) (d : list Z) pos log, ordered_format c -> all_bytes d -> 0 <= pos ->
  let search fuel := fst (catalog_traces_fuel fuel bps c e (mk_world (mk_file d pos) log)) in
  (goes_round c e bps d pos -> forall fuel, search fuel = Err OutOfFuel) /\
  (search (S (S (length d))) = Err OutOfFuel -> goes_round c e bps d pos).
Proof. exact search_ends. Qed.
Print Assumptions C78_exact.

(* the format of C78_scan_terminates_refuted, and two files: its own and one
   whose only header has no samples *)
Lemma signed_ordered : ordered_format signed_count.
Proof.
  split; [exact signed_count_ok|]. assert (L := HeaderFacts.class_ok_levels _ (proj1 signed_count_ok)).
  assert (G : forall n m u v, class_field signed_count n = Some u -> class_field signed_count m = Some v -> fd_offset u < fd_offset v -> before signed_count n m).
  { intros n m u v U V LT f g If Ig Nf Ng. assert (Uf : class_field signed_count n = Some f) by (apply CompileFacts.class_field_spec; auto).
    assert (Vg : class_field signed_count m = Some g) by (apply CompileFacts.class_field_spec; auto). congruence. }
  split.
  - intros n I. assert (S : class_field signed_count n <> None) by (destruct I as [<-|[<-|[<-|[<-|[<-|[]]]]]]; vm_compute; discriminate).
    destruct (class_field signed_count n) as [f|] eqn:E; [|congruence]. exists f. now apply CompileFacts.class_field_spec.
  - intros a n b m z E. assert (S : StronglySorted (before signed_count) looked_at); [|exact (HeaderFacts.sorted_to_positions _ _ _ _ _ _ _ S E)].
    repeat first [apply SSorted_nil|apply SSorted_cons|apply Forall_nil|apply Forall_cons]; (eapply G; [vm_compute; reflexivity|vm_compute; reflexivity|vm_compute; reflexivity]).
Qed.
Example C78_exact_example : ordered_format signed_count /\ all_bytes stuck_file /\ goes_round signed_count Big 4 stuck_file 0 /\
  all_bytes (repeat 0 240) /\ ~ goes_round signed_count Big 4 (repeat 0 240) 0.
Proof.
  split; [exact signed_ordered|]. split; [apply bytesb_ok; vm_compute; reflexivity|]. split; [|split].
  - destruct (C78_exact 4 signed_count Big stuck_file 0 [] signed_ordered) as (_ & H); [apply bytesb_ok; vm_compute; reflexivity|lia|]. exact (H (stuck _ [])).
  - apply bytesb_ok. vm_compute. reflexivity.
  - intros R. destruct (C78_exact 4 signed_count Big (repeat 0 240) 0 [] signed_ordered) as (H & _); [apply bytesb_ok; vm_compute; reflexivity|lia|].
    specialize (H R 3%nat). vm_compute in H. discriminate.
Qed.

(* ---------------- C79 ---------------- *)

(* Refuted for every format that lacks one of the fields create_reader looks at:
   no file at all can be opened with it, and one whose reel headers can be read
   gives AttributeError. *)
Theorem C79_lacking_refuted : forall a enc bc tc (e : endian) pr dim (d : list Z) log x n,
  class_ok tc -> In n looked_at -> ~ has_field tc n ->
  all_bytes d -> binary_format bc -> (forall y, enc = Some y -> supported y) -> encoding_used enc d x ->
  let opened := fst (create_reader a enc bc tc (Some e) pr dim (mk_world (mk_file d 0) log)) in
  (exists y, opened = Err y) /\
  (attrs_ok a -> 3600 <= zlen d -> pr <> NotCallable -> (forall k, dim = Some k -> In k [1; 2; 3]) ->
   forall tx bin ext t, reel_headers x bc e d tx bin ext -> sample_type bin t -> opened = Err AttributeError).
Proof.
  intros a enc bc tc e pr dim d log x n C I N HB B S X opened.
  destruct (search_fails a enc bc tc e pr dim d log x B HB S X (fun y => y = AttributeError)) as (H1 & H2).
  { intros t ext. exists AttributeError. split; [reflexivity|]. now rewrite (lacking_search _ _ _ _ n C I N). }
  split; [exact H1|]. intros A L P D tx bin ext t RH TY. destruct (H2 A L P D tx bin ext t RH TY) as (y & -> & E). exact E.
Qed.
Print Assumptions C79_lacking_refuted.

(* TraceHeaderRev0 is such a format, TraceHeaderRev1 is none. *)
Theorem C79_shipped : class_ok TraceHeaderRev0 /\ (forall n, In n looked_at -> has_field TraceHeaderRev0 n <-> n <> "inline_number" /\ n <> "crossline_number") /\
  trace_format TraceHeaderRev1.
Proof.
  assert (C : class_ok TraceHeaderRev0). { apply FormatFacts.shipped_ok. cbn. tauto. }
  split; [exact C|]. split; [|exact rev1_trace_format].
  assert (D : forall n, has_field TraceHeaderRev0 n <-> class_field TraceHeaderRev0 n <> None).
  { intros n. assert (L := HeaderFacts.class_ok_levels _ C). split.
    - intros (f & F & E). assert (Q : class_field TraceHeaderRev0 n = Some f) by (apply CompileFacts.class_field_spec; auto). congruence.
    - destruct (class_field TraceHeaderRev0 n) as [f|] eqn:E; [|congruence]. intros _. exists f. now apply CompileFacts.class_field_spec. }
  intros n I. rewrite D. destruct I as [<-|[<-|[<-|[<-|[<-|[]]]]]]; vm_compute; intuition congruence.
Qed.
Print Assumptions C79_shipped.
Lemma headers_of d r : readable d (Some ASCII) BinaryReelHeader TraceHeaderRev1 -> opens d (Some ASCII) BinaryReelHeader TraceHeaderRev1 Big None r ->
  all_bytes d /\ 3600 <= zlen d /\ exists tx bin ext t, reel_headers ASCII BinaryReelHeader Big d tx bin ext /\ sample_type bin t.
Proof.
  intros RD OP. split; [apply RD|]. split; [exact (opens_length _ _ _ _ _ _ _ OP)|].
  destruct (opens_opened _ _ _ _ _ _ _ RD OP) as (x & ts & t & X & OD). cbn in X. subst x.
  exists (rd_text r), (rd_binary r), (rd_ext r), t. split; apply OD.
Qed.
Example C79_lacking_example : all_bytes file_3d /\ 3600 <= zlen file_3d /\
  exists tx bin ext t, reel_headers ASCII BinaryReelHeader Big file_3d tx bin ext /\ sample_type bin t.
Proof. destruct file_3d_ok as (r & t & ts & RD & OP & _). exact (headers_of _ r RD OP). Qed.

(* ---------------- C81 ---------------- *)

(* With a trace header format that has the fields create_reader looks at in any
   order, a file is opened just as with a format that has them in the order of
   the standard, the n-th of them in the n-th place: the outcome, the reports of
   progress and the reader are the same, but for the format in which the reader
   gives trace headers. *)
Theorem C81_any_order : forall a enc bc tc tc' (e : endian) p pr dim (d : list Z) log x,
  format_ok tc 240 -> format_ok tc' 240 -> seen_as tc tc' -> make_header_packer tc e = Ok p ->
  all_bytes d -> binary_format bc -> (forall y, enc = Some y -> supported y) -> encoding_used enc d x ->
  create_reader a enc bc tc (Some e) pr dim (mk_world (mk_file d 0) log) =
    match create_reader a enc bc tc' (Some e) pr dim (mk_world (mk_file d 0) log) with
    | (Ok r, w) => (Ok (reads_headers_with p r), w)
    | (Err y, w) => (Err y, w)
    end.
Proof.
  intros a enc bc tc tc' e p pr dim d log x (K & _ & ST & _ & LEN & _) (K' & _ & ST' & _ & LEN' & MK') SE MK HB B S X.
  destruct (MK' e) as (p' & M'). rewrite (opened_seen tc tc' e p p' K ST LEN MK K' ST' LEN' M' SE a enc bc pr dim d log x B HB S X).
  destruct (create_reader a enc bc tc' (Some e) pr dim (mk_world (mk_file d 0) log)) as [[r|y] w]; reflexivity.
Qed.
Print Assumptions C81_any_order.

(* There is such a format whenever each field accepts some value that fits in
   the place it is read from, and none accepts a negative number of samples. *)
Theorem C81_seen : forall tc chosen placed, format_ok tc 240 -> chosen_as tc looked_at chosen -> placed_as chosen placed ->
  (forall n f g, nth_error chosen n = Some f -> nth_error placed n = Some g -> exists v, in_ctype (ft_ctype (fd_type g)) v /\ accepts (fd_type f) v) ->
  (forall f v, In f chosen -> fd_name f = "num_samples" -> accepts (fd_type f) v -> 0 <= v) ->
  exists tc', trace_format tc' /\ seen_as tc tc'.
Proof. exact seen_exists. Qed.
Print Assumptions C81_seen.

(* So traces are found under the values in these places: those of the traces the
   file has in the second format. *)
Theorem C81_indexed : forall (d : list Z) enc bc tc tc' e dim r t ts,
  format_ok tc 240 -> trace_format tc' -> seen_as tc tc' ->
  all_bytes d -> binary_format bc -> (forall y, enc = Some y -> supported y) ->
  opens d enc bc tc e dim r -> traces_of d tc' e r t ts ->
  rd_num_traces r = zlen ts /\
  (NoDup (map (fun t => (t_inline t, t_xline t)) ts) -> dim = None \/ dim = Some 3 ->
    (forall i j k, rd_trace_index3 r (i, j) = Ok k <-> exists tr, trace_of ts k tr /\ t_inline tr = i /\ t_xline tr = j) /\
    (forall i j, (exists tr, In tr ts /\ t_inline tr = i /\ t_xline tr = j) \/ rd_trace_index3 r (i, j) = Err KeyError)) /\
  (NoDup (map t_cdp ts) -> (dim = None /\ ~ NoDup (map (fun t => (t_inline t, t_xline t)) ts)) \/ dim = Some 2 ->
    (forall c k, rd_trace_index2 r c = Ok k <-> exists tr, trace_of ts k tr /\ t_cdp tr = c) /\
    (forall c, In c (map t_cdp ts) \/ rd_trace_index2 r c = Err KeyError)).
Proof.
  intros d enc bc tc tc' e dim r t ts F T SE HB B S (a & pr & log & w & O) TR.
  assert (exists x, encoding_used enc d x) as (x & X) by (destruct enc as [y|]; cbn; [eauto|destruct (guess_encoding _ 1 2); eauto]).
  destruct F as (K & TF & ST & CO & LEN & MK). destruct (MK e) as (p & M).
  rewrite (C81_any_order a enc bc tc tc' e p pr dim d log x (conj K (conj TF (conj ST (conj CO (conj LEN MK))))) (proj1 T) SE M HB B S X) in O.
  destruct (create_reader a enc bc tc' (Some e) pr dim (mk_world (mk_file d 0) log)) as [[r'|y] w'] eqn:O'; [|discriminate]. injection O as <- <-.
  assert (OP : opens d enc bc tc' e dim r') by (do 4 eexists; exact O').
  assert (RD : readable d enc bc tc') by (split; [exact HB|split; [exact B|split; [exact T|exact S]]]).
  change (traces_of d tc' e (reads_headers_with p r') t ts) with (traces_of d tc' e r' t ts) in TR.
  split; [|split].
  - change (rd_num_traces (reads_headers_with p r')) with (rd_num_traces r'). exact (proj1 (counts_ok d enc bc tc' e dim r' t ts RD OP TR)).
  - intros N D. destruct (C61_index_3d d enc bc tc' e dim r' t ts RD OP TR N D) as (A1 & A2 & _). split; [exact A1|exact A2].
  - intros N D. destruct (C62_index_2d d enc bc tc' e dim r' t ts RD OP TR N D) as (A1 & A2 & _). split; [exact A1|exact A2].
Qed.
Print Assumptions C81_indexed.

(* In the format of C81_custom_index_refuted the ensemble number is taken from
   byte 9, where the inline number is, the number of samples from byte 21 and
   the inline number from byte 115. *)
Definition moved_chosen : list fieldd :=
  [mk_field "file_sequence_num" Int32 5 0; mk_field "ensemble_num" Int32 21 0; mk_field "num_samples" NNInt16 115 0; mk_field "inline_number" Int32 9 0;
   mk_field "crossline_number" Int32 193 0].
Definition moved_placed : list fieldd :=
  [mk_field "file_sequence_num" Int32 5 0; mk_field "inline_number" Int32 9 0; mk_field "ensemble_num" Int32 21 0; mk_field "num_samples" NNInt16 115 0;
   mk_field "crossline_number" Int32 193 0].
Example C81_seen_example : format_ok moved_inline 240 /\ chosen_as moved_inline looked_at moved_chosen /\ placed_as moved_chosen moved_placed /\
  exists tc', trace_format tc' /\ seen_as moved_inline tc'.
Proof.
  assert (F := moved_inline_ok). assert (L := HeaderFacts.class_ok_levels _ (proj1 F)).
  assert (C : chosen_as moved_inline looked_at moved_chosen).
  { split; [reflexivity|]. intros f I. assert (E : class_field moved_inline (fd_name f) = Some f).
    { destruct I as [<-|[<-|[<-|[<-|[<-|[]]]]]]; vm_compute; reflexivity. } now apply CompileFacts.class_field_spec in E. }
  assert (P : placed_as moved_chosen moved_placed).
  { split.
    - unfold moved_chosen, moved_placed. apply perm_skip. set (a := mk_field "inline_number" _ _ _). set (b := mk_field "ensemble_num" _ _ _). set (n := mk_field "num_samples" _ _ _).
      apply (Permutation_trans (l' := [b; a; n; mk_field "crossline_number" Int32 193 0])); [apply perm_skip|]; apply perm_swap.
    - repeat constructor. }
  split; [exact F|]. split; [exact C|]. split; [exact P|].
  apply (C81_seen moved_inline moved_chosen moved_placed F C P).
  - intros n f g Hf Hg. exists 0. destruct n as [|[|[|[|[|n]]]]]; cbn in Hf, Hg; try (destruct n; discriminate); injection Hf as <-; injection Hg as <-; cbn; lia.
  - intros f v I N A. destruct I as [<-|[<-|[<-|[<-|[<-|[]]]]]]; try discriminate N. cbn in A. lia.
Qed.
