(* Properties C19, C26, C74, C75, C92 and C93 in the remaining cases: what is
   given where the property as stated does not hold. *)
From Coq Require Import String ZArith List Bool Lia Sorted Permutation.
From Verif Require Import Py PyFacts PyFloat IbmFloat Util Spec_Util UtilFacts Catalog Packing Spec_Packing Formats FormatFacts FileIO Text
  Float32 Toolkit Spec_Segy Reader Spec_Reader OpenFacts NumpyExt Spec_Numpy NumpyFacts Props_Reader Props_Numpy
  Spec_Order OrderFacts NumpyMore NumpyOrder.
Import ListNotations.
Local Open Scope string_scope.
Open Scope list_scope.
Open Scope Z_scope.

(* ---------------- C19 ---------------- *)

(* reading with a format whose fields have different places and are declared in
   any order: the n-th field declared gets the value in the n-th place *)
Theorem C19_any_order : forall (c : fmt) (e : endian) (p : packer) (buf : list Z) (declared placed : list fieldd),
  class_ok c -> starts_ok c -> declared_as c declared -> placed_as declared placed ->
  make_header_packer c e = Ok p -> all_bytes buf ->
  (header_length c (zlen buf) /\ ~ refused_in_order c e buf declared placed ->
     exists h, pk_unpack p buf = Ok h /\ h_cls h = c /\ read_in_order c e buf declared placed h) /\
  (~ header_length c (zlen buf) \/ refused_in_order c e buf declared placed -> pk_unpack p buf = Err ValueError).
Proof. exact unpack_order_iff. Qed.
Print Assumptions C19_any_order.

(* so a header written and read comes back with its values permuted *)
Theorem C19_any_order_trip : forall (c : fmt) (e : endian) (p : packer) (h : header) (buf : list Z) (declared placed : list fieldd),
  class_ok c -> starts_ok c -> types_fit c -> declared_as c declared -> placed_as declared placed ->
  make_header_packer c e = Ok p -> h_cls h = c -> header_ok h -> pk_pack p h = Ok buf ->
  (exists h', pk_unpack p buf = Ok h' /\ h_cls h' = c /\
     Forall2 (fun f g => hdr_get h' (fd_name f) = hdr_get h (fd_name g)) declared placed) \/
  (pk_unpack p buf = Err ValueError /\
     exists n f g v, nth_error declared n = Some f /\ nth_error placed n = Some g /\ hdr_get h (fd_name g) = Ok v /\ ~ accepts (fd_type f) v).
Proof. exact order_trip. Qed.
Print Assumptions C19_any_order_trip.

Example C19_order_example : class_ok swapped /\ starts_ok swapped /\ types_fit swapped /\
  declared_as swapped [mk_field "b" Int16 3 0; mk_field "a" Int16 1 0] /\
  placed_as [mk_field "b" Int16 3 0; mk_field "a" Int16 1 0] [mk_field "a" Int16 1 0; mk_field "b" Int16 3 0] /\ run_swapped = Ok (Ok 2, Ok 1).
Proof.
  destruct swapped_class as (K & T & S). split; [exact K|]. split; [exact S|]. split; [exact T|]. split; [|split; [|vm_compute; reflexivity]].
  - split; [reflexivity|]. intros f F. exists [], (nth 0 (fmt_levels swapped) ("", [])), []. split; [reflexivity|]. split; [exact F|]. intros ? ? [].
  - split; [apply perm_swap|]. repeat constructor.
Qed.

(* ---------------- C26 ---------------- *)

(* the n-th name gets the value in the n-th place *)
Theorem C26_any_order : forall (name : string) (parent : fmt) (names : list string) e p n buf (chosen placed : list fieldd),
  class_ok parent -> starts_ok parent -> fmt_length parent = Some n ->
  names <> [] -> chosen_as parent names chosen -> placed_as chosen placed -> make_header_packer parent e = Ok p -> all_bytes buf ->
  exists sub q, sub_format name parent names = Ok sub /\ make_header_packer sub e = Ok q /\
    (zlen buf = n -> ~ refused_in_order parent e buf chosen placed ->
       exists h, pk_unpack q buf = Ok h /\ read_in_order parent e buf chosen placed h) /\
    (zlen buf <> n \/ refused_in_order parent e buf chosen placed -> pk_unpack q buf = Err ValueError).
Proof. exact sub_order. Qed.
Print Assumptions C26_any_order.

(* ---------------- C74 ---------------- *)

(* exactly which items are accepted *)
Theorem C74_exact : forall (all : sseq) (it : iterable), sseq_wf all -> ascending (sseq_list all) -> items_ok it ->
  (accepted all it -> exists s, ensure_superset all (Items it) = Ok s /\ ascending (sseq_list s) /\ forall x, In x (sseq_list s) <-> In x (it_list it)) /\
  (~ accepted all it -> ensure_superset all (Items it) = Err ValueError).
Proof. exact ensure_exact. Qed.
Print Assumptions C74_exact.

Example C74_exact_example : accepted (QRange (mk_range 10 20 2)) (ItRange (mk_range 12 16 4)) /\
  rmap sseq_list (ensure_superset (QRange (mk_range 10 20 2)) (Items (ItRange (mk_range 12 16 4)))) = Ok [12] /\
  ~ accepted (QRange (mk_range 10 20 2)) (ItSeq [12]).
Proof.
  split; [split|split; [reflexivity|]].
  - intros x X. change (In x [12]) in X. destruct X as [<-|[]]. right. now left.
  - right. intros r Q. injection Q as <-. now exists 2.
  - intros (_ & [(x & y & X & Y & N)|H]).
    + destruct X as [X|[]], Y as [Y|[]]. congruence.
    + destruct (H _ eq_refl) as (z & Z0). cbn in Z0. lia.
Qed.

(* ---------------- C75 ---------------- *)

(* of an array that is not square, only the traces of which there are fewer
   before them than inlines, and than crosslines, are placed right *)
Theorem C75_not_square : forall n m k : Z, 0 < n -> 0 < m -> n <> m -> 0 <= k < n * m ->
  (exists i j, complete_inline_xline_index n m k = Ok (i, j) /\ placed n m k i j) <-> k < n /\ k < m.
Proof. exact index_right. Qed.
Print Assumptions C75_not_square.

Theorem C75_answer : forall n m k i j : Z, 0 < n ->
  complete_inline_xline_index n m k = Ok (i, j) <-> k = i * n + j /\ 0 <= i < n /\ 0 <= j < n /\ j < m.
Proof. exact index_answer. Qed.
Print Assumptions C75_answer.

Theorem C75_no_answer : forall n m k : Z, (exists p, complete_inline_xline_index n m k = Ok p) \/
  complete_inline_xline_index n m k = Err (if n =? 0 then ZeroDivisionError else ValueError).
Proof. exact index_error. Qed.
Print Assumptions C75_no_answer.

Example C75_not_square_example : complete_inline_xline_index 4 3 2 = Ok (0, 2) /\ placed 4 3 2 0 2 /\ complete_inline_xline_index 4 3 3 = Err ValueError /\
  placed 4 3 3 1 0 /\ complete_inline_xline_index 0 3 0 = Err ZeroDivisionError.
Proof. unfold placed. vm_compute. intuition congruence. Qed.

(* ---------------- C92 ---------------- *)

(* an ensemble number that is not the index of a trace *)
Theorem C92_outside : forall (d : list Z) enc bc tc e dim r t ts native k m samples nums,
  readable d enc bc tc -> opens d enc bc tc e dim r -> traces_of d tc e r t ts ->
  NoDup (map t_cdp ts) -> (dim = None /\ ~ NoDup (map (fun t => (t_inline t, t_xline t)) ts)) \/ dim = Some 2 ->
  In k (map t_cdp ts) -> ~ 0 <= k < zlen ts ->
  rd_max_num_trace_samples r = Ok m -> ensure_superset (QRange (mk_range 0 m 1)) samples = Ok nums -> sseq_list nums <> [] ->
  forall f, extract_trace native r k samples f = (Err KeyError, f).
Proof.
  intros d enc bc tc e dim r t ts native k m samples nums RD OP TR.
  exact (trace2_outside d enc bc tc e dim r t ts RD OP TR native k m samples nums).
Qed.
Print Assumptions C92_outside.

Example C92_outside_example : (exists r t ts, example file_2d 3 2 r t ts) /\
  of_file file_2d (fun r => extract_trace Little r 7 Everything) = Some (Err KeyError).
Proof. split; [exact file_2d_ok|]. vm_compute. auto. Qed.

(* ---------------- C93 ---------------- *)

(* with the names in any order: the n-th name gets the values in the n-th place *)
Theorem C93_any_order : forall (d : list Z) enc bc tc e dim r t ts names indexes (chosen placed : list fieldd),
  let ks := match indexes with None => rd_trace_indexes r | Some l => l end in
  readable d enc bc tc -> opens d enc bc tc e dim r -> traces_of d tc e r t ts ->
  names <> [] -> chosen_as tc names chosen -> placed_as chosen placed -> signed_fields tc names ->
  (forall k, In k ks -> exists tr, trace_of ts k tr /\ ~ misread tc e d (t_pos tr) chosen placed) ->
  forall q, exists a q', extract_trace_headers r names indexes (mk_file d q) = (Ok a, mk_file d q') /\ columns_as d e tc ts ks chosen placed a.
Proof.
  intros d enc bc tc e dim r t ts names indexes chosen placed ks RD OP TR.
  exact (headers_any d enc bc tc e dim r t ts RD OP TR names chosen placed indexes).
Qed.
Print Assumptions C93_any_order.

Theorem C93_any_order_misread : forall (d : list Z) enc bc tc e dim r t ts names indexes (chosen placed : list fieldd) k tr,
  let ks := match indexes with None => rd_trace_indexes r | Some l => l end in
  readable d enc bc tc -> opens d enc bc tc e dim r -> traces_of d tc e r t ts ->
  names <> [] -> chosen_as tc names chosen -> placed_as chosen placed -> signed_fields tc names -> (forall k, In k ks -> 0 <= k < zlen ts) ->
  In k ks -> trace_of ts k tr -> misread tc e d (t_pos tr) chosen placed ->
  forall q, exists q', extract_trace_headers r names indexes (mk_file d q) = (Err EOFError, mk_file d q').
Proof.
  intros d enc bc tc e dim r t ts names indexes chosen placed k tr ks RD OP TR.
  exact (headers_any_fail d enc bc tc e dim r t ts RD OP TR names chosen placed indexes k tr).
Qed.
Print Assumptions C93_any_order_misread.

(* an unsigned field among them *)
Theorem C93_unsigned : forall (d : list Z) enc bc tc e dim r t ts names indexes (chosen placed : list fieldd) f,
  let ks := match indexes with None => rd_trace_indexes r | Some l => l end in
  readable d enc bc tc -> opens d enc bc tc e dim r -> traces_of d tc e r t ts ->
  chosen_as tc names chosen -> placed_as chosen placed -> In f chosen -> ~ In (ft_ctype (fd_type f)) [C_i; C_h; C_b] ->
  (forall k, In k ks -> exists tr, trace_of ts k tr /\ ~ misread tc e d (t_pos tr) chosen placed) ->
  forall q, exists q', extract_trace_headers r names indexes (mk_file d q) = (Err ValueError, mk_file d q').
Proof.
  intros d enc bc tc e dim r t ts names indexes chosen placed f ks RD OP TR.
  exact (headers_unsigned d enc bc tc e dim r t ts RD OP TR names chosen placed indexes f).
Qed.
Print Assumptions C93_unsigned.

(* a name that is not that of a field, or names given twice *)
Theorem C93_unknown : forall (d : list Z) enc bc tc e dim r t ts names indexes n f,
  readable d enc bc tc -> opens d enc bc tc e dim r -> traces_of d tc e r t ts ->
  In n names -> ~ has_field tc n -> extract_trace_headers r names indexes f = (Err AttributeError, f).
Proof.
  intros d enc bc tc e dim r t ts names indexes n f RD OP TR.
  exact (headers_unknown d enc bc tc e dim r t ts RD OP TR names indexes n f).
Qed.
Print Assumptions C93_unknown.
Theorem C93_repeated : forall (d : list Z) enc bc tc e dim r t ts names indexes f,
  readable d enc bc tc -> opens d enc bc tc e dim r -> traces_of d tc e r t ts ->
  names <> [] -> (forall n, In n names -> has_field tc n) -> ~ NoDup names -> extract_trace_headers r names indexes f = (Err ValueError, f).
Proof.
  intros d enc bc tc e dim r t ts names indexes f RD OP TR.
  exact (headers_repeated d enc bc tc e dim r t ts RD OP TR names indexes f).
Qed.
Print Assumptions C93_repeated.

(* the same for arrays by inline and crossline *)
Theorem C93_any_order_3d : forall (d : list Z) enc bc tc e dim r t ts names (chosen placed : list fieldd) inlines xlines i_all i_nums j_all j_nums,
  readable d enc bc tc -> opens d enc bc tc e dim r -> traces_of d tc e r t ts ->
  NoDup (map (fun t => (t_inline t, t_xline t)) ts) -> dim = None \/ dim = Some 3 ->
  names <> [] -> chosen_as tc names chosen -> placed_as chosen placed -> signed_fields tc names ->
  rd_inline_numbers r = Ok i_all -> ensure_superset i_all inlines = Ok i_nums ->
  rd_xline_numbers r = Ok j_all -> ensure_superset j_all xlines = Ok j_nums ->
  ((forall tr, In tr ts -> In (t_inline tr) (sseq_list i_nums) -> In (t_xline tr) (sseq_list j_nums) -> ~ misread tc e d (t_pos tr) chosen placed) ->
   forall q, exists a q', extract_trace_header_field_3d r names inlines xlines (mk_file d q) = (Ok a, mk_file d q') /\
     grid (order_cell d e tc placed ts) (sseq_list i_nums) (sseq_list j_nums) a) /\
  (forall tr, In tr ts -> In (t_inline tr) (sseq_list i_nums) -> In (t_xline tr) (sseq_list j_nums) -> misread tc e d (t_pos tr) chosen placed ->
   forall q, exists q', extract_trace_header_field_3d r names inlines xlines (mk_file d q) = (Err EOFError, mk_file d q')).
Proof.
  intros d enc bc tc e dim r t ts names chosen placed inlines xlines i_all i_nums j_all j_nums RD OP TR ND DIM.
  exact (fields3_any d enc bc tc e dim r t ts RD OP TR ND DIM names chosen placed inlines xlines i_all i_nums j_all j_nums).
Qed.
Print Assumptions C93_any_order_3d.

Theorem C93_unsigned_3d : forall (d : list Z) enc bc tc e dim r t ts names (chosen placed : list fieldd) inlines xlines i_all i_nums j_all j_nums f0,
  readable d enc bc tc -> opens d enc bc tc e dim r -> traces_of d tc e r t ts ->
  NoDup (map (fun t => (t_inline t, t_xline t)) ts) -> dim = None \/ dim = Some 3 ->
  chosen_as tc names chosen -> placed_as chosen placed -> In f0 chosen -> ~ In (ft_ctype (fd_type f0)) [C_i; C_h; C_b] ->
  rd_inline_numbers r = Ok i_all -> ensure_superset i_all inlines = Ok i_nums ->
  rd_xline_numbers r = Ok j_all -> ensure_superset j_all xlines = Ok j_nums ->
  forall f, extract_trace_header_field_3d r names inlines xlines f = (Err ValueError, f).
Proof.
  intros d enc bc tc e dim r t ts names chosen placed inlines xlines i_all i_nums j_all j_nums f0 RD OP TR ND DIM.
  exact (fields3_unsigned d enc bc tc e dim r t ts RD OP TR DIM names chosen placed inlines xlines i_all i_nums j_all j_nums f0).
Qed.
Print Assumptions C93_unsigned_3d.

Definition crossline_field : fieldd := match class_field TraceHeaderRev1 "crossline_number" with Some f => f | None => mk_field "" Int32 0 0 end.
Definition inline_field : fieldd := match class_field TraceHeaderRev1 "inline_number" with Some f => f | None => mk_field "" Int32 0 0 end.
Example C93_any_order_example : (exists r t ts, example file_3d 4 3 r t ts) /\
  chosen_as TraceHeaderRev1 ["crossline_number"; "inline_number"] [crossline_field; inline_field] /\
  placed_as [crossline_field; inline_field] [inline_field; crossline_field] /\
  of_file file_3d (fun r => extract_trace_headers r ["crossline_number"; "inline_number"] None) =
    Some (Ok [("crossline_number", [1; 1; 2; 2]); ("inline_number", [5; 6; 5; 6])]) /\
  of_file file_3d (fun r => extract_trace_header_field_3d r ["crossline_number"; "inline_number"] Everything (items [6])) =
    Some (Ok [[Some [1; 6]]; [Some [2; 6]]]) /\
  of_file file_3d (fun r => extract_trace_headers r ["inline_number"; "inline_number"] None) = Some (Err ValueError) /\
  of_file file_3d (fun r => extract_trace_headers r ["inline_number"; "no_such_field"] None) = Some (Err AttributeError).
Proof.
  split; [exact file_3d_ok|].
  assert (K : CompileFacts.levels_ok TraceHeaderRev1) by (apply HeaderFacts.class_ok_levels; apply (FormatFacts.shipped_ok TraceHeaderRev1); unfold shipped; cbn; auto 6).
  assert (C : class_field TraceHeaderRev1 "crossline_number" = Some crossline_field) by (vm_compute; reflexivity).
  assert (I : class_field TraceHeaderRev1 "inline_number" = Some inline_field) by (vm_compute; reflexivity).
  apply CompileFacts.class_field_spec in C, I; auto.
  split; [split; [vm_compute; reflexivity|intros f [<-|[<-|[]]]; tauto]|].
  split; [split; [apply perm_swap|repeat constructor; vm_compute; reflexivity]|]. vm_compute. auto 10.
Qed.
