(* Proofs about copies of files. *)
From Coq Require Import String ZArith List Bool Lia ZifyBool ZifyNat.
From Verif Require Import Py PyFloat IbmFloat Util Catalog Packing Formats FileIO Text TextIO Float32 Toolkit Reader
  PyFacts Spec_Util Spec_Catalog CatalogFacts Spec_Ibm FloatFacts RoundFacts IbmFacts IbmArith Spec_Packing PackFacts CompileFacts HeaderFacts PackingFacts FormatFacts
  Spec_Text TextFacts TextIOFacts ExtReadFacts Spec_Segy Float32Facts Spec_Reader ToolkitFacts ReaderFacts OpenFacts Spec_Writer WriterFacts Spec_Copy.
Import ListNotations.
Local Open Scope string_scope.
Open Scope list_scope.
Open Scope Z_scope.

Lemma decode_inj x a b s : supported x -> all_bytes a -> all_bytes b -> decode x a = Ok s -> decode x b = Ok s -> a = b.
Proof.
  intros [->| ->] A B DA DB.
  - destruct (decode_ascii a A) as (PA & QA). destruct (decode_ascii b B) as (PB & QB).
    destruct (Forall_dec (fun y => y < 128) (fun y => Z_lt_dec y 128) a) as [F|N]; [|rewrite (QA N) in DA; discriminate].
    destruct (Forall_dec (fun y => y < 128) (fun y => Z_lt_dec y 128) b) as [G|N]; [|rewrite (QB N) in DB; discriminate].
    destruct (PA F) as (EA & _). destruct (PB G) as (EB & _). congruence.
  - destruct (decode_encode_ebcdic a A) as (s1 & D1 & _ & _ & E1). destruct (decode_encode_ebcdic b B) as (s2 & D2 & _ & _ & E2). congruence.
Qed.

Lemma single_inj a b f : is_single a f -> is_single b f -> f <> S754_nan -> a = b.
Proof.
  intros A B N. assert (RA := proj1 A). assert (RB := proj1 B).
  assert (EA := single_unique a f _ A (decode_single a RA)). assert (EB := single_unique b f _ B (decode_single b RB)).
  assert (Ok a = Ok b); [|congruence].
  rewrite <- (encode_decode a RA), <- (encode_decode b RB) by congruence. congruence.
Qed.

(* bytes of a stored value *)
Lemma stored_bytes e d p b q n v : stored_at e d p n v -> stored_at e b q n v -> forall i, 0 <= i < n -> byte_at b (q + i) = byte_at d (p + i).
Proof.
  intros (_ & _ & A) (_ & _ & B) i I. destruct e.
  - specialize (A i ltac:(lia)). specialize (B i ltac:(lia)). cbn in A, B. congruence.
  - specialize (A (n - 1 - i) ltac:(lia)). specialize (B (n - 1 - i) ltac:(lia)). cbn in A, B.
    replace (p + i) with (p + (n - 1 - (n - 1 - i))) by lia. replace (q + i) with (q + (n - 1 - (n - 1 - i))) by lia. congruence.
Qed.

Lemma sample_bytes t e d p b q r : sample_at t e d p r -> sample_at t e b q r -> r <> RFloat S754_nan ->
  forall i, 0 <= i < sample_size t -> byte_at b (q + i) = byte_at d (p + i).
Proof.
  destruct t; cbn [sample_at].
  1-6: (intros (n & -> & _ & A) (n' & [= <-] & _ & B) _; exact (stored_bytes _ _ _ _ _ _ _ A B)).
  - intros (m & f & -> & A & IA) (m' & f' & [= <-] & B & IB) N i I. rewrite (single_inj m' m f IB IA) in B by congruence. exact (stored_bytes _ _ _ _ _ _ _ A B i I).
  - intros (w & -> & _ & _ & _ & A0 & A1 & A2 & A3) (w' & [= <-] & _ & _ & _ & B0 & B1 & B2 & B3) _ i I. cbn in I.
    assert (i = 0 \/ i = 1 \/ i = 2 \/ i = 3) as [-> |[-> |[-> | ->]]] by lia; rewrite ?Z.add_0_r in *; congruence.
Qed.

(* fields *)
Lemma covered_dec c i : class_ok c -> {covered c i} + {~ covered c i}.
Proof.
  intros (C & _).
  set (hits n := match class_field c n with Some f => (field_pos c f <=? i) && (i <? field_pos c f + field_size f) | None => false end).
  destruct (existsb hits (flat_map (fun l => map fd_name (snd l)) (fmt_levels c))) eqn:E; [left|right].
  - apply existsb_exists in E. destruct E as (n & _ & H). unfold hits in H. destruct (class_field c n) as [f|] eqn:F; [|discriminate].
    apply class_field_spec in F; [|exact C]. exists f. split; [apply F|lia].
  - intros (f & F & R). assert (F' : class_field c (fd_name f) = Some f) by (apply class_field_spec; auto).
    assert (T : existsb hits (flat_map (fun l => map fd_name (snd l)) (fmt_levels c)) = true); [|congruence].
    apply existsb_exists. exists (fd_name f). split.
    + destruct F as (ls1 & l & ls2 & EL & I & _). apply in_flat_map. exists l. split; [rewrite EL; apply in_or_app; right; now left|]. now apply in_map.
    + unfold hits. rewrite F'. lia.
Qed.

Lemma header_bytes c e h a b : holds_buffer c e a h -> holds_buffer c e b h -> forall i, covered c i -> byte_at b i = byte_at a i.
Proof.
  intros (_ & A) (_ & B) i (f & F & R). destruct (A f F) as (v & GA & _ & _ & SA). destruct (B f F) as (w & GB & _ & _ & SB).
  rewrite GA in GB. injection GB as <-. replace i with (field_pos c f + (i - field_pos c f)) by lia.
  apply (stored_bytes _ _ _ _ _ _ _ SA SB). lia.
Qed.

Lemma byte_at_block d p n i : 0 <= p -> 0 <= i < n -> byte_at (block d p n) i = byte_at d (p + i).
Proof. intros P I. unfold byte_at, block. rewrite nth_firstn', nth_skipn' by lia. f_equal. lia. Qed.
Lemma byte_at_mid pre b post i : 0 <= i < zlen b -> byte_at (pre ++ b ++ post) (zlen pre + i) = byte_at b i.
Proof. intros I. rewrite byte_at_app2 by lia. replace (zlen pre + i - zlen pre) with i by lia. now apply byte_at_app1. Qed.

Lemma header_block_copied c e h d p n pre hb post : class_ok c -> 0 <= p -> zlen pre = p -> header_block c e h n hb -> holds_buffer c e (block d p n) h ->
  header_copied c d (pre ++ hb ++ post) p n.
Proof.
  intros C P L (HL & _ & HH & HZ) HD i I. subst p. rewrite byte_at_mid by lia. split.
  - intros K. rewrite <- byte_at_block with (n := n) by lia. now apply (header_bytes c e h).
  - intros K. now apply HZ.
Qed.

Lemma block_copied d n m pre post : 0 <= n -> zlen pre = n -> zlen (block d n m) = m -> bytes_copied d (pre ++ block d n m ++ post) n (n + m).
Proof.
  intros N L LB k K. subst n. replace k with (zlen pre + (k - zlen pre)) by lia. rewrite byte_at_mid by lia. apply byte_at_block; lia.
Qed.

(* text *)
Lemma pages_copied x d : supported x -> all_bytes d -> forall pages pbs, Forall2 (text_block x) pages pbs -> forall s pre post, 0 <= s ->
  (forall k, 0 <= k < zlen pages -> page_at x d (s + k) (nth (Z.to_nat k) pages [])) -> zlen pre = 3600 + 3200 * s ->
  bytes_copied d (pre ++ concat pbs ++ post) (3600 + 3200 * s) (3600 + 3200 * (s + zlen pages)).
Proof.
  intros S B pages pbs F. induction F as [|p pb pages pbs (LB & AB & DB) F IH]; intros s pre post N P L.
  { intros k K. change (zlen (@nil (list text))) with 0 in K. lia. }
  rewrite zlen_cons in P |- *. pose proof (zlen_nonneg pages).
  assert (E : pb = block d (3600 + 3200 * s) 3200).
  { destruct (P 0 ltac:(lia)) as (_ & _ & _ & D). rewrite Z.add_0_r in D. apply (decode_inj x _ _ (concat p)); auto. now apply block_bytes. }
  assert (ZB : zlen (block d (3600 + 3200 * s) 3200) = 3200) by (rewrite <- E; exact LB).
  cbn [concat]. rewrite <- app_assoc. intros k K. destruct (Z_lt_dec k (3600 + 3200 * s + 3200)) as [Y|Y].
  - rewrite E. apply block_copied with (n := 3600 + 3200 * s) (m := 3200); auto; lia.
  - rewrite app_assoc. apply (IH (s + 1) (pre ++ pb) post); [lia| |rewrite zlen_app; lia|lia].
    intros j J. specialize (P (j + 1) ltac:(lia)). replace (Z.to_nat (j + 1)) with (Datatypes.S (Z.to_nat j)) in P by lia.
    cbn [nth] in P. now replace (s + 1 + j) with (s + (j + 1)) by lia.
Qed.

(* traces *)
Definition seen (tc : fmt) (e : endian) (t : segytype) (d : list Z) (tr : trace) (i : tinfo) : Prop :=
  holds_buffer tc e (block d (t_pos i) 240) (fst tr) /\ zlen (snd tr) = t_count i /\ samples_at t e d (t_pos i + 240) (snd tr) /\
  Forall (exact_sample t) (snd tr) /\ t_pos i + 240 + sample_size t * t_count i <= zlen d.

Lemma samples_copied t e d p pre sb post rs : zlen pre = p -> zlen sb = sample_size t * zlen rs -> samples_at t e d p rs -> samples_at t e sb 0 rs ->
  forall k, 0 <= k < zlen rs -> ~ sample_at t e d (p + sample_size t * k) (RFloat S754_nan) ->
  bytes_copied d (pre ++ sb ++ post) (p + sample_size t * k) (p + sample_size t * k + sample_size t).
Proof.
  intros <- L SD SB k K N i I. specialize (SD k K). specialize (SB k K). pose proof (sample_size_pos t).
  replace i with (zlen pre + (sample_size t * k + (i - (zlen pre + sample_size t * k)))) by lia. rewrite byte_at_mid by nia.
  replace (sample_size t * k) with (0 + sample_size t * k) at 1 by lia.
  replace (zlen pre + (sample_size t * k + (i - (zlen pre + sample_size t * k)))) with (zlen pre + sample_size t * k + (i - (zlen pre + sample_size t * k))) by lia.
  apply (sample_bytes t e _ _ _ _ (nth (Z.to_nat k) rs (RInt 0))); auto; [|lia]. intros Q. rewrite Q in SD. contradiction.
Qed.

Lemma traces_copied tc e t d : class_ok tc -> forall trs tbs, Forall2 (trace_block tc e t) trs tbs -> forall ts p q, scan tc e (sample_size t) d p ts q ->
  Forall2 (seen tc e t d) trs ts -> forall pre, 0 <= p -> zlen pre = p ->
  zlen (pre ++ concat tbs) = q /\
  (forall i, In i ts -> header_copied tc d (pre ++ concat tbs) (t_pos i) 240) /\
  (forall i k, In i ts -> 0 <= k < t_count i -> let p := t_pos i + 240 + sample_size t * k in
    ~ sample_at t e d p (RFloat S754_nan) -> bytes_copied d (pre ++ concat tbs) p (p + sample_size t)).
Proof.
  intros C trs tbs F. induction F as [|tr tb trs tbs (hb & sb & rs & -> & HB & LS & _ & SS & SA) F IH]; intros ts p q SC SN pre P L.
  - inversion SN; subst ts. inversion SC; subst. cbn [concat]. rewrite app_nil_r. split; [auto|]. split; intros i I; [destruct I|]. now intros [].
  - inversion SN as [|? i ? ts' (S1 & S2 & S3 & S4 & _) SN']; subst. inversion SC as [|? ? ? s FL F1 F2 F3 F4 F5 SC' E1 E2]; subst.
    rewrite (exact_kept t _ _ S4 SS) in SA. pose proof (sample_size_pos t). pose proof (zlen_nonneg (snd tr)).
    assert (HL : zlen hb = 240) by apply HB.
    destruct (IH ts' _ q SC' SN' (pre ++ hb ++ sb)) as (A1 & A2 & A3); [nia|rewrite !zlen_app; lia|].
    assert (EQ : pre ++ concat ((hb ++ sb) :: tbs) = (pre ++ hb ++ sb) ++ concat tbs) by (cbn [concat]; now rewrite <- !app_assoc).
    rewrite EQ. split; [exact A1|]. split.
    + intros j [<-|J]; [|now apply A2]. rewrite <- !app_assoc. apply (header_block_copied tc e (fst tr)); auto; lia.
    + intros j k [<-|J]; [|now apply A3]. intros K. cbv zeta. intros N. replace ((pre ++ hb ++ sb) ++ concat tbs) with ((pre ++ hb) ++ sb ++ concat tbs) by now rewrite <- !app_assoc.
      apply (samples_copied t e d (t_pos i + 240) _ _ _ (snd tr)); auto; [rewrite zlen_app; lia|lia].
Qed.

Lemma scan_unique c e bps d p ts q q' : scan c e bps d p ts q -> scan c e bps d p ts q' -> q = q'.
Proof. intros A. revert q'. induction A; intros q' B; inversion B; subst; auto. Qed.

Lemma scan_within c e bps d p ts q : scan c e bps d p ts q -> ts <> [] -> (forall i, In i ts -> t_pos i + 240 + bps * t_count i <= zlen d) -> q <= zlen d.
Proof.
  induction 1 as [|i ts q s L F1 F2 F3 F4 F5 S IH]; intros N H; [congruence|]. destruct ts as [|j ts].
  - inversion S; subst. apply H. now left.
  - apply IH; [discriminate|]. intros k K. apply H. now right.
Qed.
Lemma Forall2_by_nth {A B} (P : A -> B -> Prop) : forall l m, zlen l = zlen m ->
  (forall k a b, nth_error l k = Some a -> nth_error m k = Some b -> P a b) -> Forall2 P l m.
Proof.
  induction l as [|a l IH]; intros [|b m] L H; unfold zlen in L; cbn [length] in L; try lia; constructor.
  - now apply (H 0%nat).
  - apply IH; [unfold zlen; lia|]. intros k. apply (H (Datatypes.S k)).
Qed.

Section Copy.
Variables (d : list Z) (enc : option encoding) (bc tc : fmt) (e : endian) (dim : option Z) (r : reader) (native : endian) (t : segytype) (ts : list tinfo).
Hypothesis RD : readable d enc bc tc.
Hypothesis OP : opens d enc bc tc e dim r.
Hypothesis AR : all_readable native d r.
Hypothesis AB : coincident_alike bc.
Hypothesis AT : coincident_alike tc.
Hypothesis TR : traces_of d tc e r t ts.

Lemma own_text : supported (rd_encoding r) /\ text_encodable r (rd_encoding r).
Proof.
  destruct (opens_opened _ _ _ _ _ _ _ RD OP) as (x & ts' & t' & X & O). assert (E := op_encoding _ _ _ _ _ _ _ _ _ O). destruct RD as (HB & _ & _ & SE).
  assert (S : supported x) by (eapply guessed_supported; eauto). rewrite E. split; [exact S|].
  destruct O as [((_ & _ & DT) & _ & n & _ & EO) _ _ _ _ _ _ _ _ _ _ _ _]. split.
  - apply encodable_lines. apply (decoded_encodable x (block d 0 3200)); auto. now apply block_bytes.
  - apply Forall_forall. intros p I. apply In_nth with (d := []) in I. destruct I as (i & Hi & <-).
    destruct (ext_pages x d n _ EO (Z.of_nat i) ltac:(unfold zlen; lia)) as (_ & _ & _ & D). rewrite Nat2Z.id in D.
    apply encodable_lines. apply (decoded_encodable x (page_bytes d (Z.of_nat i))); auto.
    change (page_bytes d (Z.of_nat i)) with (block d (3600 + 3200 * Z.of_nat i) 3200). now apply block_bytes.
Qed.

Lemma copy wenc pr log : wenc = None \/ wenc = Some (rd_encoding r) -> pr <> NotCallable -> exists b w,
  write_segy (reader_dataset native r (mk_file d 0)) wenc tc e pr (mk_world (mk_file [] 0) log) = (Ok tt, w) /\ f_data (w_file w) = b /\
  copied bc tc e t (first_trace (rd_ext r)) ts d b.
Proof.
  intros WE P. destruct own_text as (S & TE).
  destruct (reader_writable d enc bc tc e dim r native (rd_encoding r) RD OP AR AB AT S TE) as (t' & trs & W & CO & NT & EX & LN & RE).
  assert (XF : encoding_for wenc (reader_dataset native r (mk_file d 0)) (rd_encoding r)) by (destruct WE as [->| ->]; reflexivity).
  destruct (write_contents _ wenc _ bc tc e t' trs pr [] log W XF P) as (b & SC & WR). rewrite skipn_nil, app_nil_r in WR.
  exists b. eexists. split; [exact WR|]. split; [reflexivity|]. clear WR.
  assert (T1 := co_type _ _ _ _ _ CO). cbn in T1. assert (T2 := proj1 TR). rewrite (sample_type_unique _ _ _ T1 T2) in *. clear T1 T2 t'.
  destruct (opens_opened _ _ _ _ _ _ _ RD OP) as (x & ts' & t' & X & O). assert (E := op_encoding _ _ _ _ _ _ _ _ _ O).
  destruct O as [((R1 & R2 & R3) & RB & n & GN & EO) _ _ _ _ _ _ _ _ _ _ _ _]. clear ts' t'. subst x.
  destruct (contents_bytes _ _ _ _ _ _ _ _ SC) as (BB & _).
  assert (RD' := RD). destruct RD' as (HB & BF & TF & _). assert (BC : class_ok bc) by apply BF. assert (TC : class_ok tc) by apply TF.
  assert (PG := ext_pages _ _ _ _ EO).
  destruct (counts_ok d enc bc tc e dim r t ts RD OP TR) as (C1 & C2 & _). assert (LL : zlen trs = zlen ts) by congruence.
  assert (L3 := opens_length _ _ _ _ _ _ _ OP).
  assert (SN : Forall2 (seen tc e t d) trs ts).
  { apply Forall2_by_nth; [exact LL|]. intros k tr i EK EI. destruct (RE k tr EK) as (RH & RS).
    assert (TI : trace_of ts (Z.of_nat k) i). { split; [|now rewrite Nat2Z.id]. assert (K : (k < length ts)%nat) by (apply nth_error_Some; congruence). unfold zlen. lia. }
    destruct (header_ok_read d enc bc tc e dim r t ts RD OP TR (Z.of_nat k) 0) as (_ & _ & HO). rewrite RH in HO.
    destruct (samples_ok d enc bc tc e dim r t ts RD OP TR native (Z.of_nat k) None None 0) as (_ & _ & SO). rewrite RS in SO.
    inversion HO as [| |i1 h1 TI1 HH]; subst h1. inversion SO as [| | |i2 ss2 TI2 B1 B2 B3 SL SA]; subst ss2.
    rewrite (trace_of_unique _ _ _ _ TI1 TI), (trace_of_unique _ _ _ _ TI2 TI) in *. cbn [or_else] in *. rewrite Z.mul_0_r, Z.add_0_r in SA.
    assert (PL := trace_layout tc e (sample_size t) d _ ts (proj2 TR)). destruct PL as (_ & _ & PL & _). destruct (PL _ i TI) as (P1 & _).
    split; [exact HH|]. split; [lia|]. split; [exact SA|]. split; [|destruct B3 as [B3|B3]; [rewrite <- B3; lia|exact B3]].
    rewrite Forall_forall in EX. apply EX. eapply nth_error_In; eauto. }
  assert (NTS : ts <> []) by (intros ->; destruct trs; [congruence|]; rewrite zlen_cons in LL; pose proof (zlen_nonneg trs); change (zlen (@nil tinfo)) with 0 in LL; lia).
  destruct SC as (tx & tb & bb & pbs & tbs & EB & FT & TB & HBB & FP & FTB). cbn [ds_text ds_binary ds_ext reader_dataset] in *.
  apply fitted_same in FT; [|exact R1|exact R2]. subst tx. pose proof (zlen_nonneg (rd_ext r)).
  assert (LTB : zlen tb = 3200) by apply TB. assert (LBB : zlen bb = 400) by apply HBB.
  destruct (blocks_bytes _ _ _ FP) as (_ & LPB).
  destruct TR as (_ & q & SCN & QL).
  assert (EB' : b = (tb ++ bb ++ concat pbs) ++ concat tbs) by now rewrite EB, <- !app_assoc.
  destruct (traces_copied tc e t d TC trs tbs FTB ts (first_trace (rd_ext r)) q SCN SN (tb ++ bb ++ concat pbs)) as (Q1 & Q2 & Q3).
  { unfold first_trace. lia. } { rewrite !zlen_app. unfold first_trace. lia. }
  rewrite <- EB' in Q1, Q2, Q3.
  constructor; auto.
  - rewrite Q1. exact SCN.
  - rewrite Q1. apply (scan_within _ _ _ _ _ _ _ SCN NTS). intros i I.
    clear -SN I. induction SN as [|tr j trs ts (_ & _ & _ & _ & H) _ IH]; [destruct I|]. destruct I as [<-|I]; auto.
  - assert (ET : tb = block d 0 3200). { apply (decode_inj (rd_encoding r) _ _ (concat (rd_text r))); auto; [apply TB|now apply block_bytes|apply TB]. }
    rewrite EB, ET. apply (block_copied d 0 3200 [] _); [lia|reflexivity|]. rewrite <- ET. exact LTB.
  - rewrite EB. apply (header_block_copied bc e (rd_binary r)); auto. lia.
  - rewrite EB. rewrite app_assoc. replace 3600 with (3600 + 3200 * 0) by lia. replace (first_trace (rd_ext r)) with (3600 + 3200 * (0 + zlen (rd_ext r))) by (unfold first_trace; lia).
    apply (pages_copied (rd_encoding r)); auto; [lia|rewrite zlen_app; lia].
Qed.

Lemma copy_same wenc pr log : reproducible bc tc e t (first_trace (rd_ext r)) ts d -> wenc = None \/ wenc = Some (rd_encoding r) -> pr <> NotCallable -> exists w,
  write_segy (reader_dataset native r (mk_file d 0)) wenc tc e pr (mk_world (mk_file [] 0) log) = (Ok tt, w) /\ f_data (w_file w) = d.
Proof.
  intros [RE RB RH RS] WE P. destruct (copy wenc pr log WE P) as (b & w & W & DB & [CL CW CB CT CBN CE CH CS]). exists w. split; [exact W|]. rewrite DB. clear W DB.
  assert (RD' := RD). destruct RD' as (HB & BF & TF & _). assert (BC : class_ok bc) by apply BF. assert (TC : class_ok tc) by apply TF.
  assert (L : zlen b = zlen d) by exact (scan_unique _ _ _ _ _ _ _ _ CL RE).
  apply byte_ext; [exact L|]. intros i I. rewrite L in I.
  assert (HC : forall c p n, class_ok c -> header_copied c d b p n -> rest_zero c d p n -> forall j, p <= j < p + n -> byte_at b j = byte_at d j).
  { intros c p n C H1 H2 j J. specialize (H1 (j - p) ltac:(lia)). specialize (H2 (j - p) ltac:(lia)). replace (p + (j - p)) with j in * by lia.
    destruct (covered_dec c (j - p) C) as [Y|Y]; [now apply H1|]. rewrite (H2 Y). now apply H1. }
  destruct (Z_lt_dec i 3200) as [Y|Y]; [apply CT; lia|]. destruct (Z_lt_dec i 3600) as [Y1|Y1]; [apply (HC bc 3200 400); auto; lia|].
  destruct (Z_lt_dec i (first_trace (rd_ext r))) as [Y2|Y2]; [apply CE; lia|].
  assert (IN : exists j, In j ts /\ t_pos j <= i < t_pos j + 240 + sample_size t * t_count j).
  { clear -RE I Y2. revert RE Y2. generalize (first_trace (rd_ext r)). intros p RE Y2. remember (zlen d) as q eqn:Q. destruct I as (_ & I).
    clear Q. induction RE as [|j ts q s L F1 F2 F3 F4 F5 S IH]; [lia|]. destruct (Z_lt_dec i (t_pos j + 240 + sample_size t * t_count j)) as [Y|Y].
    - exists j. split; [now left|lia].
    - destruct (IH I Y) as (k & K & R). exists k. split; [now right|exact R]. }
  destruct IN as (j & J & R). destruct (Z_lt_dec i (t_pos j + 240)) as [Y3|Y3]; [apply (HC tc (t_pos j) 240); auto; lia|].
  pose proof (sample_size_pos t) as SP. set (k := (i - (t_pos j + 240)) / sample_size t).
  assert (E : i - (t_pos j + 240) = sample_size t * k + (i - (t_pos j + 240)) mod sample_size t) by (apply Z.div_mod; lia).
  assert (M := Z.mod_pos_bound (i - (t_pos j + 240)) (sample_size t) ltac:(lia)).
  assert (K : 0 <= k < t_count j) by (split; [apply Z.div_pos; lia|apply Z.div_lt_upper_bound; lia]).
  apply (CS j k J K (RS j k J K)). lia.
Qed.
End Copy.

Lemma same_needs bc tc e t first ts d : copied bc tc e t first ts d d ->
  scan tc e (sample_size t) d first ts (zlen d) /\ rest_zero bc d 3200 400 /\ forall i, In i ts -> rest_zero tc d (t_pos i) 240.
Proof.
  intros [CL _ _ _ CB _ CH _]. split; [exact CL|]. split.
  - intros i I N. now apply (CB i I).
  - intros j J i I N. now apply (CH j J i I).
Qed.
