(* Proofs for C151. *)
From Coq Require Import String ZArith List Bool Lia ZifyBool ZifyNat SpecFloat.
From Verif Require Import Py PyFloat IbmFloat Packing Formats FileIO Text Float32 Toolkit Reader Transform
  Spec_Ibm FloatFacts IbmFacts IbmNumberProps Spec_Packing Spec_Text Spec_Segy Float32Facts Spec_Reader ReaderFacts OpenFacts
  Spec_Writer WriterFacts Spec_Fields Spec_Transform TransformFacts CoordFacts BothWaysFacts Spec_TypesBack TypesBackFacts Spec_ScaleBack ScaleBackFacts Spec_CoordsBack.
Import ListNotations.
Local Open Scope string_scope.
Open Scope list_scope.
Open Scope Z_scope.

Lemma whole_exact v f p m : m * unit = v * units f -> - 2 ^ 31 <= m < 2 ^ 31 -> product (v * unit) (units f) p -> units p = m * unit.
Proof.
  intros E B (_ & _ & H). destruct (f_of_int_exact m) as (g & _ & W & F & U); [lia|]. destruct (H g W F) as (A & _). rewrite U in A.
  assert (Q : v * unit * units f = m * unit * unit) by (rewrite E; ring). rewrite Q in A. revert A. pose proof unit_pos as P. revert P. generalize unit (units p). intros z y P A. nia.
Qed.
Lemma unit_quot m : Z.quot (m * unit) unit = m.
Proof. apply Z.quot_mul. pose proof unit_pos as PU. revert PU. generalize unit. lia. Qed.
Lemma whole_fits f n h : whole_product f n h -> coordinate_fits f n h.
Proof. intros H v p G P. destruct (H v G) as (m & E & B). rewrite (whole_exact v f p m E B P), unit_quot. exact B. Qed.
Lemma whole_times f h h' : whole_product f "source_x" h -> whole_product f "source_y" h -> coordinates_scaled f h h' -> coordinates_times f h h'.
Proof.
  assert (O : forall n, whole_product f n h -> coordinate_scaled f n h h' -> exists v m, hdr_get h n = Ok v /\ hdr_get h' n = Ok m /\ m * unit = v * units f).
  { intros n H (v & p & G & P & G'). destruct (H v G) as (m & E & B). exists v, m. split; [exact G|]. split; [|exact E].
    now rewrite (whole_exact v f p m E B P), unit_quot in G'. }
  intros X Y (SB & CX & CY). split; [exact SB|]. intros n [-> | ->]; auto.
Qed.
Lemma times_whole f g h h' n : units f * units g = unit * unit -> good_header TraceHeaderRev1 h -> coordinates_times f h h' -> source_field n -> whole_product g n h'.
Proof.
  intros E (HC & HO & _) (_ & T) S m G. destruct (T n S) as (v & m' & G1 & G2 & V). assert (m' = m) as -> by congruence.
  destruct (source_fields n S) as (fd & I & N & TY). destruct (HO fd ltac:(rewrite HC; exact I)) as (v' & G3 & A). rewrite N in G3. assert (v' = v) as -> by congruence.
  rewrite TY in A. exists v. split; [|cbn in A; lia].
  apply unit_cancel. transitivity (v * (units f * units g)); [rewrite E; ring|]. transitivity (v * units f * units g); [ring|]. rewrite <- V. ring.
Qed.
Lemma coordinates_back f g h h' h'' : units f * units g = unit * unit -> coordinates_times f h h' -> coordinates_times g h' h'' -> same_fields h h''.
Proof.
  intros E ((C & S) & T) ((C' & S') & T'). split; [congruence|]. intros fd I.
  assert (O : source_field (fd_name fd) -> hdr_get h'' (fd_name fd) = hdr_get h (fd_name fd)).
  { intros SF. destruct (T _ SF) as (v & m & G & G' & V). destruct (T' _ SF) as (m' & k & G1 & G2 & V'). assert (m' = m) as -> by congruence.
    rewrite G, G2. f_equal. do 2 apply unit_cancel. rewrite V'. transitivity (m * unit * units g); [ring|]. rewrite V. transitivity (v * (units f * units g)); [ring|]. rewrite E. ring. }
  destruct (string_dec (fd_name fd) "source_x") as [X|X]; [apply O; now left|]. destruct (string_dec (fd_name fd) "source_y") as [Y|Y]; [apply O; now right|].
  assert (NI : ~ In (fd_name fd) ["source_x"; "source_y"]) by (intros [Q|[Q|[]]]; [now elim X|now elim Y]).
  rewrite S' by (rewrite ?C; assumption). now apply S.
Qed.

(* one scaling *)
Lemma rescale_coords d enc e dim r native f x1 e1 : readable d enc BinaryReelHeader TraceHeaderRev1 -> opens d enc BinaryReelHeader TraceHeaderRev1 e dim r ->
  moderate f -> all_readable native d r -> supported x1 -> text_encodable r x1 ->
  (forall k h, 0 <= k < rd_num_traces r -> fst (rd_trace_header r k None (mk_file d 0)) = Ok h -> whole_product f "source_x" h /\ whole_product f "source_y" h) ->
  forall pr log, pr <> NotCallable -> exists b w,
  write_segy (scaling_coords (reader_dataset native r (mk_file d 0)) f) (Some x1) TraceHeaderRev1 e1 pr (mk_world (mk_file [] 0) log) = (Ok tt, w) /\ f_data (w_file w) = b /\ all_bytes b /\
  (exists r', opens b (Some x1) BinaryReelHeader TraceHeaderRev1 e1 dim r') /\
  forall dim' r', opens b (Some x1) BinaryReelHeader TraceHeaderRev1 e1 dim' r' -> transformed same_fields (coordinates_times f) eq d r b r'.
Proof.
  intros RD OP MO AR S1 TE1 HW pr log P.
  destruct (scale_coords d enc e dim r native x1 f RD OP MO e1 pr log AR S1 TE1) as (b & w & W & D & BB & H); [|exact P|].
  { intros k h K E. destruct (HW k h K E) as (X & Y). split; now apply whole_fits. }
  exists b, w. do 3 (split; [assumption|]). split.
  { destruct OP as (a & pr' & log' & w' & CR). destruct (create_args _ _ _ _ _ _ _ _ _ _ _ CR) as (V1 & V2 & V3).
    destruct (H a pr' dim log' V1 V2 V3) as (r' & w2 & C2 & _). exists r', a, pr', log', w2. exact C2. }
  intros dim' r' (a & pr' & log' & w' & CR). destruct (create_args _ _ _ _ _ _ _ _ _ _ _ CR) as (V1 & V2 & V3).
  destruct (H a pr' dim' log' V1 V2 V3) as (r2 & w2 & C2 & T). rewrite CR in C2. injection C2 as <- _.
  destruct T as (T1 & T2 & T3 & T4 & T5 & T6). do 5 (split; [assumption|]).
  intros k nat q q' K. destruct (T6 k nat q q' K) as (h & h' & ss & ss' & A1 & A2 & A3 & A4 & A5 & A6). exists h, h', ss, ss'.
  split; [exact A1|]. split; [exact A2|]. split; [|do 2 (split; [assumption|]); exact A6].
  assert (A0 : fst (rd_trace_header r k None (mk_file d 0)) = Ok h) by (rewrite <- A1; apply positionless_header).
  destruct (HW k h K A0) as (X & Y). now apply whole_times.
Qed.

Lemma coords_back d enc e dim r native f g x1 e1 x2 e2 :
  readable d enc BinaryReelHeader TraceHeaderRev1 -> opens d enc BinaryReelHeader TraceHeaderRev1 e dim r -> all_readable native d r ->
  moderate f -> moderate g -> units f * units g = unit * unit ->
  (forall k h, 0 <= k < rd_num_traces r -> fst (rd_trace_header r k None (mk_file d 0)) = Ok h -> whole_product f "source_x" h /\ whole_product f "source_y" h) ->
  supported x1 -> text_encodable r x1 -> supported x2 -> text_encodable r x2 ->
  forall pr log pr2 log2, pr <> NotCallable -> pr2 <> NotCallable ->
  exists b w, write_segy (scaling_coords (reader_dataset native r (mk_file d 0)) f) (Some x1) TraceHeaderRev1 e1 pr (mk_world (mk_file [] 0) log) = (Ok tt, w) /\ f_data (w_file w) = b /\
    (exists r', opens b (Some x1) BinaryReelHeader TraceHeaderRev1 e1 dim r') /\
    forall native' dim' r', opens b (Some x1) BinaryReelHeader TraceHeaderRev1 e1 dim' r' ->
      transformed same_fields (coordinates_times f) eq d r b r' /\
      exists c w2, write_segy (scaling_coords (reader_dataset native' r' (mk_file b 0)) g) (Some x2) TraceHeaderRev1 e2 pr2 (mk_world (mk_file [] 0) log2) = (Ok tt, w2) /\ f_data (w_file w2) = c /\
        (exists r'', opens c (Some x2) BinaryReelHeader TraceHeaderRev1 e2 dim' r'') /\
        forall dim'' r'', opens c (Some x2) BinaryReelHeader TraceHeaderRev1 e2 dim'' r'' -> same_readings d r c r''.
Proof.
  intros RD OP AR MF MG FG HW S1 TE1 S2 TE2 pr log pr2 log2 P P2.
  destruct (rescale_coords d enc e dim r native f x1 e1 RD OP MF AR S1 TE1 HW pr log P) as (b & w & W & D & BB & R1 & H).
  exists b, w. do 3 (split; [assumption|]). intros native' dim' r' OP'. assert (T := H dim' r' OP'). split; [exact T|].
  assert (RD' : readable b (Some x1) BinaryReelHeader TraceHeaderRev1).
  { destruct RD as (_ & A & B & _). split; [exact BB|]. split; [exact A|]. split; [exact B|]. intros y [= <-]. exact S1. }
  assert (HW' : forall k h, 0 <= k < rd_num_traces r' -> fst (rd_trace_header r' k None (mk_file b 0)) = Ok h -> whole_product g "source_x" h /\ whole_product g "source_y" h).
  { intros k h' K E. destruct T as (_ & _ & _ & N & _ & T6). rewrite N in K. destruct (T6 k native 0 0 K) as (h & h2 & _ & _ & E1 & E2 & TM & _). assert (h2 = h') as -> by congruence.
    destruct (header_good d enc e dim r native x1 RD OP AR S1 TE1 k h K E1) as (GH & _). split; apply (times_whole f g h h'); auto; [now left|now right]. }
  destruct (rescale_coords b (Some x1) e1 dim' r' native' g x2 e2 RD' OP' MG (transformed_readable _ _ _ _ _ _ _ native' T) S2 (transformed_encodable _ _ _ _ _ _ _ x2 T TE2) HW' pr2 log2 P2)
    as (c & w2 & W2 & D2 & _ & R2 & H2).
  exists c, w2. do 3 (split; [assumption|]). intros dim'' r'' OP''. assert (T2 := H2 dim'' r'' OP'').
  destruct T as (A1 & A2 & A3 & A4 & A5 & A6). destruct T2 as (B1 & B2 & B3 & B4 & B5 & B6).
  split; [congruence|]. split.
  { destruct A2 as (U1 & U2), B2 as (V1 & V2). split; [congruence|]. intros fd I. rewrite V2 by (rewrite U1; exact I). now apply U2. }
  split; [congruence|]. split; [congruence|]. split; [congruence|].
  intros k nat q q' K. destruct (A6 k nat q 0 K) as (h & h' & ss & ss' & E1 & E2 & E3 & E4 & E5 & E6).
  destruct (B6 k nat 0 q' ltac:(rewrite A4; exact K)) as (h1 & h2 & s1 & s2 & F1 & F2 & F3 & F4 & F5 & F6).
  assert (h1 = h') as -> by congruence. assert (s1 = ss') as -> by congruence.
  assert (EQ : forall l m : list real, Forall2 eq l m -> m = l) by (induction 1; congruence).
  apply EQ in E6, F6. subst. exists h, h2, ss. split; [exact E1|]. split; [exact F2|]. split; [exact (coordinates_back f g h h' h2 FG E3 F3)|]. split; [exact E4|exact F5].
Qed.
