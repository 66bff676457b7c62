(* Proofs for C147. *)
From Coq Require Import String ZArith List Bool Lia ZifyBool ZifyNat.
From Verif Require Import Py Util Packing Formats FileIO Text Toolkit Reader Spec_Packing Spec_Text Spec_Segy Spec_Reader OpenFacts Spec_Writer Spec_Copy
  ReaderFacts WriterFacts CopyFacts Spec_Written WrittenFacts Spec_BothWays.
Import ListNotations.
Local Open Scope string_scope.
Open Scope list_scope.
Open Scope Z_scope.

Lemma same_all_readable d r d' r' native : same_readings d r d' r' -> all_readable native d' r'.
Proof.
  intros (_ & _ & _ & N & _ & H) k K. rewrite N in K. destruct (H k native 0 0 K) as (h & h' & ss & _ & E & _ & _ & E'). eauto.
Qed.
Lemma same_text_encodable d r d' r' x : same_readings d r d' r' -> text_encodable r x -> text_encodable r' x.
Proof. intros (T & _ & X & _) (A & B). split; [now rewrite T|now rewrite X]. Qed.
Lemma always_writes_writes ds x tc e b : always_writes ds x tc e b -> writes ds (Some x) tc e b.
Proof. intros H. destruct (H NoProgress []) as (w & W & D); [discriminate|]. now exists NoProgress, [], w. Qed.

Lemma create_args a enc bc tc e pr dim d log r w : create_reader a enc bc tc (Some e) pr dim (mk_world (mk_file d 0) log) = (Ok r, w) ->
  attrs_ok a /\ pr <> NotCallable /\ (forall k, dim = Some k -> In k [1; 2; 3]).
Proof.
  intros C. destruct (checks_cases a (Some e) pr dim (mk_file d 0) log ltac:(cbn; lia)) as [(e1 & _ & A & _ & P & D)|(y & E)]; [now split|].
  unfold create_reader, wbind in C. rewrite E in C. discriminate C.
Qed.
Lemma sample_format_same h h' : has_field (h_cls h) "data_sample_format" -> same_fields h h' -> sample_format h' = sample_format h.
Proof. intros (f & F & N) (_ & H). unfold sample_format. rewrite <- N. now rewrite (H f F). Qed.

Section Ways.
Context (bc tc : fmt) (AB : coincident_alike bc) (AT : coincident_alike tc).
Context (d : list Z) (enc : option encoding) (e : endian) (dim : option Z) (r : reader) (native : endian).
Context (RD : readable d enc bc tc) (OP : opens d enc bc tc e dim r) (AR : all_readable native d r).

Lemma converts x e' : supported x -> text_encodable r x -> exists b, always_writes (reader_dataset native r (mk_file d 0)) x tc e' b /\ all_bytes b /\
  forall dim' r', opens b (Some x) bc tc e' dim' r' -> same_readings d r b r'.
Proof.
  intros S TE. destruct (reader_writable d enc bc tc e dim r native x RD OP AR AB AT S TE) as (t & trs & W & CO & NT & _).
  destruct (write_contents (reader_dataset native r (mk_file d 0)) (Some x) x bc tc e' t trs NoProgress [] [] W eq_refl) as (b & SC & WR); [discriminate|].
  assert (BB : all_bytes b) by apply (contents_bytes _ _ _ _ _ _ _ _ SC).
  assert (AW : always_writes (reader_dataset native r (mk_file d 0)) x tc e' b).
  { intros pr log P. destruct (write_contents (reader_dataset native r (mk_file d 0)) (Some x) x bc tc e' t trs pr [] log W eq_refl P) as (b' & SC' & WR').
    assert (A : writes (reader_dataset native r (mk_file d 0)) (Some x) tc e' b).
    { eexists _, _, _. split; [exact WR|]. cbn. now rewrite skipn_nil, app_nil_r. }
    assert (A' : writes (reader_dataset native r (mk_file d 0)) (Some x) tc e' b').
    { eexists _, _, _. split; [exact WR'|]. cbn. now rewrite skipn_nil, app_nil_r. }
    rewrite (writes_parts _ (Some x) x _ _ _ _ _ _ W eq_refl A), <- (writes_parts _ (Some x) x _ _ _ _ _ _ W eq_refl A').
    eexists. split; [exact WR'|]. cbn. now rewrite skipn_nil, app_nil_r. }
  exists b. split; [exact AW|]. split; [exact BB|]. intros dim' r' (a & pr' & log' & w' & C).
  destruct (AW NoProgress []) as (w & W0 & D); [discriminate|].
  destruct (convert d enc bc tc e dim r native x RD OP AR AB AT S TE e' NoProgress []) as (b2 & W2 & H); [discriminate|].
  rewrite W0 in W2. injection W2 as ->. cbn in D. subst b2.
  assert (V : attrs_ok a /\ pr' <> NotCallable /\ (forall k, dim' = Some k -> In k [1; 2; 3])) by (eapply create_args; exact C).
  destruct V as (V1 & V2 & V3). destruct (H a pr' dim' log' V1 V2 V3) as (r2 & w2 & C2 & SR). rewrite C in C2. now injection C2 as <- _.
Qed.

Context (d' : list Z) (enc' : option encoding) (e1 : endian) (dim' : option Z) (r' : reader) (native' : endian).
Context (RD' : readable d' enc' bc tc) (OP' : opens d' enc' bc tc e1 dim' r') (SR : same_readings d r d' r').
Lemma same_written x e' b b' : supported x -> text_encodable r x ->
  always_writes (reader_dataset native r (mk_file d 0)) x tc e' b -> always_writes (reader_dataset native' r' (mk_file d' 0)) x tc e' b' -> b' = b.
Proof.
  intros S TE A A'. assert (AR' := same_all_readable _ _ _ _ native' SR). assert (TE' := same_text_encodable _ _ _ _ x SR TE).
  destruct (reader_writable d enc bc tc e dim r native x RD OP AR AB AT S TE) as (t & trs & W & _ & _ & _ & LN & RE).
  destruct (reader_writable d' enc' bc tc e1 dim' r' native' x RD' OP' AR' AB AT S TE') as (t' & trs' & W' & _ & _ & _ & LN' & RE').
  assert (SRr : same_reel (reader_dataset native r (mk_file d 0)) (reader_dataset native' r' (mk_file d' 0))).
  { destruct SR as (T & B & X & _). split; [exact T|]. split; [exact B|exact X]. }
  assert (TT : t' = t).
  { assert (F := wr_type _ _ _ _ _ _ W). assert (F' := wr_type _ _ _ _ _ _ W'). cbn in F, F'. destruct SR as (_ & B & _).
    rewrite (sample_format_same (rd_binary r) (rd_binary r')) in F'; [congruence| |exact B].
    replace (h_cls (rd_binary r)) with bc by (symmetry; apply (wr_binary _ _ _ _ _ _ W)). apply RD. }
  subst t'. refine (written_same _ _ (Some x) (Some x) x bc tc e' t trs trs' b b' W W' eq_refl eq_refl SRr _ (always_writes_writes _ _ _ _ _ A) (always_writes_writes _ _ _ _ _ A')).
  destruct SR as (_ & _ & _ & N & _ & H). apply Forall2_by_nth; [congruence|].
  intros k tr tr' E E'. destruct (RE _ _ E) as (G1 & G2). destruct (RE' _ _ E') as (G1' & G2').
  assert (K : (k < length trs)%nat) by (apply nth_error_Some; now rewrite E).
  destruct (H (Z.of_nat k) native 0 0) as (h & h' & ss & H1 & H2 & H3 & H4 & _); [unfold zlen in LN; lia|].
  destruct (H (Z.of_nat k) native' 0 0) as (h2 & h2' & ss2 & _ & _ & _ & H6 & H5); [unfold zlen in LN; lia|].
  split; [congruence|]. destruct (opens_opened d enc bc tc e dim r RD OP) as (x0 & ts & t0 & _ & O). destruct O as [_ TY FT _ _ _ _ _ _ _ _ _ _].
  assert (TR : traces_of d tc e r t0 ts) by now split.
  destruct (samples_ok d enc bc tc e dim r t0 ts RD OP TR native (Z.of_nat k) None None 0) as (_ & _ & O1).
  destruct (samples_ok d enc bc tc e dim r t0 ts RD OP TR native' (Z.of_nat k) None None 0) as (_ & _ & O2).
  assert (Q := samples_outcome_unique _ _ _ _ _ _ _ _ _ O1 O2). congruence.
Qed.
End Ways.

(* by way of another encoding and byte order *)
Lemma both_ways (bc tc : fmt) d enc e dim r native x1 e1 x2 e2 : coincident_alike bc -> coincident_alike tc ->
  readable d enc bc tc -> opens d enc bc tc e dim r -> all_readable native d r ->
  supported x1 -> text_encodable r x1 -> supported x2 -> text_encodable r x2 ->
  exists b c, always_writes (reader_dataset native r (mk_file d 0)) x1 tc e1 b /\ always_writes (reader_dataset native r (mk_file d 0)) x2 tc e2 c /\
    (exists r', opens b (Some x1) bc tc e1 dim r') /\
    forall native' dim' r', opens b (Some x1) bc tc e1 dim' r' -> always_writes (reader_dataset native' r' (mk_file b 0)) x2 tc e2 c.
Proof.
  intros AB AT RD OP AR S1 TE1 S2 TE2.
  destruct (converts bc tc AB AT d enc e dim r native RD OP AR x1 e1 S1 TE1) as (b & WB & BB & RB).
  destruct (converts bc tc AB AT d enc e dim r native RD OP AR x2 e2 S2 TE2) as (c & WC & _ & _).
  exists b, c. split; [exact WB|]. split; [exact WC|]. split.
  { destruct (convert d enc bc tc e dim r native x1 RD OP AR AB AT S1 TE1 e1 NoProgress []) as (b2 & W2 & H); [discriminate|].
    destruct (WB NoProgress []) as (w & W0 & D); [discriminate|]. rewrite W0 in W2. injection W2 as ->. cbn in D. subst b2.
    destruct OP as (a & pr & log & w & C). destruct (create_args _ _ _ _ _ _ _ _ _ _ _ C) as (V1 & V2 & V3).
    destruct (H a pr dim log V1 V2 V3) as (r' & w' & C' & _). exists r', a, pr, log, w'. exact C'. }
  intros native' dim' r' OP'. assert (SR := RB dim' r' OP').
  assert (RD' : readable b (Some x1) bc tc).
  { destruct RD as (_ & A & B & _). split; [exact BB|]. split; [exact A|]. split; [exact B|]. intros y [= <-]. exact S1. }
  destruct (converts bc tc AB AT b (Some x1) e1 dim' r' native' RD' OP' (same_all_readable _ _ _ _ native' SR) x2 e2 S2 (same_text_encodable _ _ _ _ x2 SR TE2)) as (c' & WC' & _ & _).
  assert (c' = c) as ->; [|exact WC'].
  exact (same_written bc tc AB AT d enc e dim r native RD OP AR b (Some x1) e1 dim' r' native' RD' OP' SR x2 e2 c c' S2 TE2 WC WC').
Qed.

Lemma always_writes_one ds x tc e b c : always_writes ds x tc e b -> always_writes ds x tc e c -> b = c.
Proof.
  intros B C. destruct (B NoProgress []) as (w & W & D); [discriminate|]. destruct (C NoProgress []) as (w' & W' & D'); [discriminate|].
  rewrite W in W'. injection W' as <-. congruence.
Qed.
Lemma copy_again (bc tc : fmt) d enc e dim r native x1 e1 : coincident_alike bc -> coincident_alike tc ->
  readable d enc bc tc -> opens d enc bc tc e dim r -> all_readable native d r -> supported x1 -> text_encodable r x1 ->
  exists b, always_writes (reader_dataset native r (mk_file d 0)) x1 tc e1 b /\ (exists r', opens b (Some x1) bc tc e1 dim r') /\
    forall native' dim' r', opens b (Some x1) bc tc e1 dim' r' -> always_writes (reader_dataset native' r' (mk_file b 0)) x1 tc e1 b.
Proof.
  intros AB AT RD OP AR S TE. destruct (both_ways bc tc d enc e dim r native x1 e1 x1 e1 AB AT RD OP AR S TE S TE) as (b & c & W & W' & R & H).
  assert (c = b) as -> by exact (always_writes_one _ _ _ _ _ _ W' W). exists b. now split.
Qed.
Lemma there_and_back (bc tc : fmt) d enc e dim r native t ts x1 e1 : coincident_alike bc -> coincident_alike tc ->
  readable d enc bc tc -> opens d enc bc tc e dim r -> all_readable native d r -> traces_of d tc e r t ts ->
  reproducible bc tc e t (first_trace (rd_ext r)) ts d -> supported x1 -> text_encodable r x1 ->
  exists b, always_writes (reader_dataset native r (mk_file d 0)) x1 tc e1 b /\ (exists r', opens b (Some x1) bc tc e1 dim r') /\
    forall native' dim' r', opens b (Some x1) bc tc e1 dim' r' -> always_writes (reader_dataset native' r' (mk_file b 0)) (rd_encoding r) tc e d.
Proof.
  intros AB AT RD OP AR TR RP S TE. destruct (own_text d enc bc tc e dim r RD OP) as (S' & TE').
  destruct (both_ways bc tc d enc e dim r native x1 e1 (rd_encoding r) e AB AT RD OP AR S TE S' TE') as (b & c & W & W' & R & H).
  assert (always_writes (reader_dataset native r (mk_file d 0)) (rd_encoding r) tc e d).
  { intros pr log P. exact (copy_same d enc bc tc e dim r native t ts RD OP AR AB AT TR (Some (rd_encoding r)) pr log RP (or_intror eq_refl) P). }
  assert (c = d) as -> by (eapply always_writes_one; eauto). exists b. now split.
Qed.
