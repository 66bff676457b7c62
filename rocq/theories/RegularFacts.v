(* Proofs for C146. *)
From Coq Require Import String ZArith List Bool Lia ZifyBool ZifyNat.
From Verif Require Import Py Packing Toolkit Reader Regular Spec_Packing Spec_Segy Spec_Reader ReaderFacts OpenFacts.
Import ListNotations.
Local Open Scope string_scope.
Open Scope list_scope.
Open Scope Z_scope.

Lemma sizes_by_code code t : format_code code t -> data_sample_format_size_in_bytes code = Ok (sample_size t).
Proof.
  unfold format_code. cbn [In]. intros H. repeat (destruct H as [H|H]; [injection H as <- <-; reflexivity|]). destruct H.
Qed.
Lemma sizes_unknown code : (forall t, ~ format_code code t) -> data_sample_format_size_in_bytes code = Err KeyError.
Proof.
  intros N. unfold data_sample_format_size_in_bytes. destruct (segy_type_of code) as [t|e] eqn:E.
  - exfalso. apply (N t). now apply format_code_type.
  - unfold segy_type_of in E. repeat match goal with E : context [match ?c with _ => _ end] |- _ => destruct c end; try discriminate E; now injection E as <-.
Qed.
Lemma struct_sizes name :
  (forall n, In (name, n) [("b", 1); ("B", 1); ("h", 2); ("H", 2); ("i", 4); ("I", 4); ("f", 4); ("ibm", 4)] -> size_of_ctype name = Ok n) /\
  (~ In name ["b"; "B"; "h"; "H"; "i"; "I"; "f"; "ibm"] -> size_of_ctype name = Err ValueError).
Proof.
  split.
  - intros n H. cbn [In] in H. repeat (destruct H as [H|H]; [injection H as <- <-; reflexivity|]). destruct H.
  - intros N. unfold size_of_ctype. destruct (find _ _) as [[x v]|] eqn:E; [|reflexivity]. exfalso. apply find_some in E. destruct E as (I & E).
    apply String.eqb_eq in E. cbn [fst] in E. subst x. apply N. cbn [In CTYPE_TO_SIZE] in I |- *.
    repeat (destruct I as [I|I]; [injection I as I _; auto 10|]). destruct I.
Qed.
Lemma length_bytes h t n : sample_type h t -> hdr_get h "num_samples" = Ok n ->
  exists b, bytes_per_sample h = Ok b /\ samples_per_trace h = Ok n /\ trace_length_bytes h b = Ok (240 + sample_size t * n).
Proof.
  intros S N. exists (sample_size t). split; [now apply bps_ok|]. split; [exact N|].
  unfold trace_length_bytes, samples_per_trace. rewrite N. cbn [bind]. unfold TRACE_HEADER_NUM_BYTES. f_equal. lia.
Qed.

Lemma in_trace ts (k : nat) tr : nth_error ts k = Some tr -> trace_of ts (Z.of_nat k) tr.
Proof.
  intros E. split; [|now rewrite Nat2Z.id]. assert (k < length ts)%nat by (apply nth_error_Some; now rewrite E). unfold zlen. lia.
Qed.

Section Spaced.
Context (c : fmt) (e : endian) (bps : Z) (d : list Z) (p n : Z) (ts : list tinfo).
Context (F : file_traces c e bps d p ts) (R : forall tr, In tr ts -> t_count tr = n).
Lemma spaced_nat k : forall tr, nth_error ts k = Some tr -> t_pos tr = p + Z.of_nat k * (240 + bps * n).
Proof.
  destruct (trace_layout _ _ _ _ _ _ F) as (A & B & _). induction k as [|k IH]; intros tr E.
  - rewrite (A tr (in_trace ts 0 tr E)). lia.
  - destruct (nth_error ts k) as [tr'|] eqn:E'.
    + assert (T : trace_of ts (Z.of_nat k + 1) tr) by (replace (Z.of_nat k + 1) with (Z.of_nat (S k)) by lia; now apply in_trace).
      rewrite (B _ _ _ (in_trace ts k tr' E') T), (IH _ eq_refl), (R tr') by (now apply nth_error_In in E'). rewrite Nat2Z.inj_succ. ring.
    + apply nth_error_None in E'. assert (S k < length ts)%nat by (apply nth_error_Some; now rewrite E). lia.
Qed.
Lemma spaced k tr : trace_of ts k tr -> t_pos tr = p + k * (240 + bps * n).
Proof. intros ((L & _) & E). rewrite (spaced_nat _ _ E). now rewrite Z2Nat.id by exact L. Qed.
Lemma spaced_length : ts <> [] ->
  p + (zlen ts - 1) * (240 + bps * n) + 240 <= zlen d < p + zlen ts * (240 + bps * n) + 240.
Proof.
  intros N. assert (length ts <> 0)%nat by (destruct ts; [now elim N|discriminate]). destruct (trace_layout _ _ _ _ _ _ F) as (_ & _ & A & B & _).
  destruct (nth_error ts (length ts - 1)) as [tr|] eqn:E.
  - assert (T : trace_of ts (zlen ts - 1) tr).
    { replace (zlen ts - 1) with (Z.of_nat (length ts - 1)); [now apply in_trace|]. unfold zlen. lia. }
    pose proof (spaced _ _ T) as P. specialize (B _ T). destruct (A _ _ T) as (C & _). rewrite (R tr) in B by (now apply nth_error_In in E). rewrite P in B, C. split; nia.
  - apply nth_error_None in E. lia.
Qed.
Lemma spaced_count m : ts <> [] -> 0 <= bps * n -> zlen d = p + m * (240 + bps * n) -> zlen ts = m.
Proof. intros N P E. destruct (spaced_length N) as (A & B). nia. Qed.
End Spaced.

Lemma regular_file d enc bc tc e dim r t ts n :
  readable d enc bc tc -> opens d enc bc tc e dim r -> traces_of d tc e r t ts ->
  hdr_get (rd_binary r) "num_samples" = Ok n -> (forall k, 0 <= k < rd_num_traces r -> rd_num_trace_samples r k = Ok n) ->
  exists b l, bytes_per_sample (rd_binary r) = Ok b /\ trace_length_bytes (rd_binary r) b = Ok l /\
    (forall k tr, trace_of ts k tr -> t_pos tr = first_trace (rd_ext r) + k * l) /\
    (rd_num_traces r - 1) * l + 240 <= zlen d - first_trace (rd_ext r) < rd_num_traces r * l + 240 /\
    forall m, zlen d = first_trace (rd_ext r) + m * l -> rd_num_traces r = m.
Proof.
  intros RD OP TR N R. destruct (length_bytes _ _ _ (proj1 TR) N) as (b & B & _ & L). exists b, (240 + sample_size t * n).
  split; [exact B|]. split; [exact L|].
  destruct (counts_ok _ _ _ _ _ _ _ _ _ RD OP TR) as (NT & _ & CT & _ & m & _ & (tm & IM & _) & _).
  assert (R' : forall tr, In tr ts -> t_count tr = n).
  { intros tr I. destruct (In_nth_error _ _ I) as (k & E). apply in_trace in E. specialize (CT _ _ E). rewrite (R (Z.of_nat k)) in CT by (rewrite NT; apply E). now injection CT. }
  assert (NE : ts <> []) by (intros ->; destruct IM).
  assert (P : 0 <= n).
  { destruct TR as (_ & F). destruct (trace_layout _ _ _ _ _ _ F) as (_ & _ & A & _). destruct (In_nth_error _ _ IM) as (k & E). apply in_trace in E.
    destruct (A _ _ E) as (_ & (f & FA & FB & FC & _) & _). rewrite (R' _ IM) in FC. destruct RD as (_ & _ & T & _).
    unfold trace_format in T. destruct T as (_ & T). do 15 destruct T as (_ & T). eapply T; eauto. }
  assert (Q : 0 <= sample_size t * n) by (destruct t; cbn [sample_size]; lia).
  rewrite NT. split; [intros k tr H; exact (spaced _ _ _ _ _ _ _ (proj2 TR) R' k tr H)|].
  split; [pose proof (spaced_length _ _ _ _ _ _ _ (proj2 TR) R' NE); lia|].
  intros m' E. exact (spaced_count _ _ _ _ _ _ _ (proj2 TR) R' m' NE Q E).
Qed.
