(* Proofs for C138: reading values and headers at any place of a file. *)
From Coq Require Import String ZArith List Bool Lia ZifyBool ZifyNat.
From Verif Require Import Py PyFacts PyFloat IbmFloat Spec_Ibm Util Packing Spec_Packing PackFacts PackingFacts HeaderFacts CompileFacts FormatFacts Formats FileIO Text Spec_Text TextIO TextIOFacts
  Float32 Toolkit Spec_Segy ToolkitFacts Spec_Reader ReaderFacts Spec_Place.
Import ListNotations.
Open Scope list_scope.
Open Scope Z_scope.

Lemma skipn_bytes (d : list Z) n : all_bytes d -> all_bytes (skipn n d).
Proof. unfold all_bytes. rewrite !Forall_forall. intros H x I. apply H. rewrite <- (firstn_skipn n d). apply in_or_app. auto. Qed.

Lemma unpack_fewer native e t buf n : n < 0 -> all_bytes buf ->
  unpack_samples native e (ctype_of t) buf n = Err ValueError /\ t <> T_IBM /\ zlen buf mod sample_size t <> 0 \/
  (exists rs, unpack_samples native e (ctype_of t) buf n = Ok rs) /\ (t = T_IBM \/ zlen buf mod sample_size t = 0).
Proof.
  intros N B.
  assert (IB : unpack_samples native e S_ibm buf n = Ok []).
  { cbn [unpack_samples]. unfold ibm_unpack. replace (range_list (mk_range 0 (n * 4) 4)) with (@nil Z); [reflexivity|].
    unfold range_list, range_len. cbn [r_start r_stop r_step]. destruct n; try lia. cbn. reflexivity. }
  destruct (Z.eq_dec (zlen buf mod sample_size t) 0) as [E|E].
  - right. split; [|auto]. pose proof (sample_size_pos t).
    destruct (unpack_samples_ok native e t buf (zlen buf / sample_size t) B ltac:(apply Z.div_pos; [apply zlen_nonneg|lia]) ltac:(rewrite (Z.div_mod (zlen buf) (sample_size t)) at 1; lia)) as (rs & U & _).
    destruct t; cbn [ctype_of unpack_samples] in U |- *; try (exists rs; exact U). exists []. exact IB.
  - destruct t; cbn [ctype_of sample_size] in *.
    8: right; split; [exists []; exact IB|auto].
    all: left; split; [|split; [discriminate|exact E]]; cbn [unpack_samples]; unfold unpack_values; cbn [ctype_size];
      (destruct (zlen buf mod _ =? 0) eqn:Q; [lia|reflexivity]).
Qed.

Lemma values_at native pos t n e d q : all_bytes d -> 0 <= q -> let p := or_else pos q in
  (p < 0 -> read_binary_values native pos t n e (mk_file d q) = (Err ValueError, mk_file d q)) /\
  (0 <= p -> exists r q', read_binary_values native pos t n e (mk_file d q) = (r, mk_file d q') /\ values_outcome d p t n e r q').
Proof.
  intros B Q p. pose proof (sample_size_pos t) as SP.
  assert (E : read_binary_values native pos t n e (mk_file d q) = read_binary_values native (Some p) t n e (mk_file d q)) by (destruct pos; reflexivity).
  rewrite E. clear E. clearbody p. clear pos. split; intros P; unfold read_binary_values; rewrite ctype_of_size; (erewrite ibind_ok by reflexivity).
  - unfold ibind, seek. destruct (p <? 0) eqn:E; [reflexivity|lia].
  - erewrite ibind_ok by (apply seek_ok; exact P). cbn [f_data]. destruct (Z_lt_dec n 0) as [N|N].
    + assert (RA : read_opt (Some (sample_size t * n)) (mk_file d p) = (Ok (skipn (Z.to_nat p) d), mk_file d (p + zlen (skipn (Z.to_nat p) d)))).
      { cbn [read_opt]. destruct (sample_size t * n <? 0) eqn:E; [reflexivity|nia]. }
      erewrite ibind_ok by exact RA. clear RA. set (b := skipn (Z.to_nat p) d).
      assert (LB : zlen b = Z.max 0 (zlen d - p)) by (unfold b; rewrite zlen_skipn; lia).
      assert (BB : all_bytes b) by now apply skipn_bytes. clearbody b.
      destruct (zlen b <? sample_size t * n) eqn:E; [nia|]. clear E.
      destruct (unpack_fewer native e t b n N BB) as [(U & NI & R)|((rs & U) & R)]; unfold ibind, lift; rewrite U.
      * eexists _, _. split; [reflexivity|].
        assert (p < zlen d) by (destruct (Z_lt_dec p (zlen d)) as [L|L]; [exact L|]; exfalso; apply R; rewrite LB, Z.max_l by lia; apply Z.mod_0_l; lia).
        rewrite LB, Z.max_r in * by lia. replace (p + (zlen d - p)) with (zlen d) by lia. now apply values_ragged.
      * pose proof (zlen_nonneg rs). destruct (zlen rs =? n) eqn:E; [lia|]. eexists _, _. split; [reflexivity|].
        replace (p + zlen b) with (Z.max p (zlen d)) by lia. apply values_fewer; [exact N|].
        destruct R as [R|R]; [auto|]. right. destruct (Z_le_dec (zlen d) p) as [L|L]; [auto|]. right. rewrite LB, Z.max_r in R by lia. exact R.
    + erewrite ibind_ok by (apply read_opt_some; [nia|exact P]). set (b := py_slice d p (p + sample_size t * n)).
      assert (LB : zlen b = Z.max 0 (Z.min (p + sample_size t * n) (zlen d) - p)) by (apply zlen_py_slice; nia).
      destruct (zlen b <? sample_size t * n) eqn:E.
      * eexists _, _. split; [reflexivity|]. replace (p + zlen b) with (Z.max p (zlen d)) by nia. apply values_missing; nia.
      * assert (L : zlen b = sample_size t * n) by nia.
        destruct (unpack_samples_ok native e t b n ltac:(now apply all_bytes_slice) ltac:(lia) L) as (rs & U & LR & ST).
        unfold ibind, lift. rewrite U, LR, Z.eqb_refl. eexists _, _. split; [reflexivity|]. rewrite L. apply values_there; [lia|nia|exact LR|].
        intros i Hi. specialize (ST i Hi). eapply sample_of_slice in ST; [exact ST|exact P|nia|nia|nia].
Qed.

Lemma unpack_at c size e p d pk : format_ok c size -> 0 < size -> make_header_packer c e = Ok pk -> all_bytes d -> 0 <= p ->
  (exists h, pk_unpack pk (py_slice d p (p + size)) = Ok h /\ header_at d p c size e ValueError (Ok h) (p + zlen (py_slice d p (p + size)))) \/
  pk_unpack pk (py_slice d p (p + size)) = Err ValueError /\ header_at d p c size e ValueError (Err ValueError) (p + zlen (py_slice d p (p + size))).
Proof.
  intros (C & TF & ST & OR & LEN & MK) S PK B P.
  assert (LB : zlen (py_slice d p (p + size)) = Z.max 0 (Z.min (p + size) (zlen d) - p)) by (apply zlen_py_slice; lia).
  assert (BB : all_bytes (py_slice d p (p + size))) by now apply all_bytes_slice.
  destruct (unpack_iff c e pk _ C ST OR PK BB) as [(h & U & HL & H)|(U & R)]; rewrite U.
  - left. exists h. split; [reflexivity|]. unfold header_length in HL. rewrite LEN in HL. rewrite HL. rewrite block_slice in H by lia. apply header_there; [lia|exact H].
  - right. split; [reflexivity|]. destruct (Z_lt_dec (zlen d) (p + size)) as [Q|Q].
    + replace (p + zlen _) with (Z.max p (zlen d)) by lia. now apply header_missing.
    + assert (L : zlen (py_slice d p (p + size)) = size) by lia. destruct R as [R|(f & v & F & I & SA & A)]; [exfalso; apply R; unfold header_length; rewrite LEN; exact L|].
      rewrite L. apply (header_bad _ _ _ _ _ _ (fd_name f)); [lia|]. exists f, v. split; [exact F|]. split; [reflexivity|]. split; [exact A|]. split; [exact I|].
      apply (stored_of_slice e d p (p + size)) in SA; [exact SA|lia| |lia|lia]. specialize (ST f F). unfold field_pos. lia.
Qed.
Lemma header_at_as d p c size e y r q : header_at d p c size e ValueError r q ->
  header_at d p c size e y (match r with Ok h => Ok h | Err _ => Err y end) q.
Proof. intros []; [now apply header_there|now apply (header_bad _ _ _ _ _ _ n)|now apply header_missing]. Qed.

Lemma trace_header_at c e pk pos d q : format_ok c 240 -> make_header_packer c e = Ok pk -> all_bytes d -> 0 <= q -> let p := or_else pos q in
  (p < 0 -> read_trace_header pk pos (mk_file d q) = (Err ValueError, mk_file d q)) /\
  (0 <= p -> exists r q', read_trace_header pk pos (mk_file d q) = (r, mk_file d q') /\ header_at d p c 240 e EOFError r q').
Proof.
  intros F PK B Q p.
  assert (E : read_trace_header pk pos (mk_file d q) = read_trace_header pk (Some p) (mk_file d q)) by (destruct pos; reflexivity).
  rewrite E. clear E. clearbody p. clear pos. split; intros P; unfold read_trace_header; (erewrite ibind_ok by reflexivity).
  - unfold ibind, seek. destruct (p <? 0) eqn:E; [reflexivity|lia].
  - erewrite ibind_ok by (apply seek_ok; exact P). cbn [f_data]. erewrite ibind_ok by reflexivity. cbn [f_data f_pos]. unfold TRACE_HEADER_NUM_BYTES, lift.
    destruct (unpack_at c 240 e p d pk F ltac:(lia) PK B P) as [(h & U & H)|(U & H)]; rewrite U; eexists _, _; (split; [reflexivity|]); now apply (header_at_as _ _ _ _ _ EOFError) in H.
Qed.

Lemma binary_header_at c size e d p : format_ok c size -> 0 < size -> all_bytes d -> 0 <= p ->
  exists r q', read_binary_reel_header c e (mk_file d p) = (r, mk_file d q') /\ header_at d p c size e ValueError r q'.
Proof.
  intros F S B P. pose proof F as (_ & _ & _ & _ & LEN & MK). destruct (MK e) as (pk & PK).
  unfold read_binary_reel_header. erewrite ibind_ok by (unfold lift; rewrite PK; reflexivity). rewrite LEN.
  erewrite ibind_ok by (apply read_opt_some; lia). unfold lift.
  destruct (unpack_at c size e p d pk F S PK B P) as [(h & U & H)|(U & H)]; rewrite U; eexists _, _; (split; [reflexivity|]); exact H.
Qed.
