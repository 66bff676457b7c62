(* Proofs about comparing the traces of any two files. *)
From Coq Require Import String ZArith List Bool Lia ZifyBool ZifyNat.
From Verif Require Import Py PyFacts PyFloat IbmFloat Spec_Ibm FloatFacts IbmFacts Util Catalog Packing Spec_Packing PackingFacts Formats FileIO Text
  Float32 Toolkit Spec_Segy Reader Spec_Reader ReaderFacts OpenFacts Spec_Writer WriterFacts Spec_Transform Checks Spec_Check CheckFacts.
Import ListNotations.
Open Scope list_scope.
Open Scope Z_scope.

Lemma reduced_int u n d m : reduced_fraction u n d -> (n = m * d <-> u = m * unit).
Proof.
  unfold reduced_fraction, unit. assert (0 < 2 ^ 1074) as P by (apply Z.pow_pos_nonneg; lia). revert P. generalize (2 ^ 1074). intros U P (D & _ & E). split; intros H.
  - subst n. nia.
  - subst u. nia.
Qed.
Lemma int_float n f : float_wf f -> exists b, Ok (int_eq_float n f) = Ok b /\ (b = true <-> finite f /\ n * unit = units f).
Proof.
  intros W. exists (int_eq_float n f). split; [reflexivity|]. unfold int_eq_float.
  assert (D : finite f \/ (~ finite f /\ exists y, f_as_integer_ratio f = Err y)) by (destruct f; cbn; eauto).
  destruct D as [F|(F & y & ->)]; [|split; [discriminate|tauto]].
  destruct (f_ratio_spec f W F) as (num & den & -> & R). rewrite Z.eqb_eq, (reduced_int _ _ _ n R). split; [intros ->; now split|intros (_ & <-); reflexivity].
Qed.
Lemma float_float f g : float_wf f -> float_wf g -> f_eq f g = true <-> same_number (RFloat f) (RFloat g).
Proof.
  intros Wf Wg. unfold same_number. cbn [finite_number value].
  assert (D : forall f, finite f \/ f = S754_nan \/ exists s, f = S754_infinity s) by (intros []; cbn; eauto).
  destruct (D f) as [Ff|[->|(s & ->)]]; destruct (D g) as [Fg|[->|(s' & ->)]].
  - rewrite f_eq_units by assumption. rewrite Z.eqb_eq. split; [auto|]. intros [(_ & _ & E)|(s & [= ->] & _)]; [exact E|destruct Ff].
  - split; [destruct f as [[]|[]| |[]]; discriminate|]. intros [(_ & [] & _)|(s & _ & [=])].
  - split; [destruct f as [[]|[]| |[]], s'; try discriminate; destruct Ff|]. intros [(_ & [] & _)|(s & [= ->] & _)]. destruct Ff.
  - split; [discriminate|]. intros [([] & _)|(s & [=] & _)].
  - split; [discriminate|]. intros [([] & _)|(s & [=] & _)].
  - split; [discriminate|]. intros [([] & _)|(s & [=] & _)].
  - split; [destruct g as [[]|[]| |[]], s; try discriminate; destruct Fg|]. intros [([] & _)|(s0 & _ & [= ->])]. destruct Fg.
  - split; [destruct s; discriminate|]. intros [([] & _)|(s0 & _ & [=])].
  - split.
    + destruct s, s'; try discriminate; intros _; right; eauto.
    + intros [([] & _)|(s0 & [= ->] & [= ->])]. now destruct s0.
Qed.

Lemma real_eq_spec x y : number x -> number y -> exists b, real_eq x y = Ok b /\
  (b = true -> same_number x y \/ mistaken x y) /\ (same_number x y -> b = true \/ mistaken x y).
Proof.
  assert (SF : forall x n, (match x with RFloat _ => False | _ => True end) -> (same_number x n <-> finite_number n /\ value x = value n)).
  { intros a n A. unfold same_number. split; [intros [(H1 & H2 & H3)|(s & -> & _)]; [auto|destruct A]|]. intros (H1 & H2). left. split; [destruct a; [destruct A|exact I|exact I]|auto]. }
  assert (SY : forall x y, same_number x y -> same_number y x).
  { intros a b [(H1 & H2 & H3)|(s & H1 & H2)]; [left; auto|right; eauto]. }
  destruct x as [f|m|v], y as [g|n|w]; cbn [number real_eq]; intros X Y.
  - exists (f_eq f g). split; [reflexivity|]. pose proof (float_float f g X Y). tauto.
  - destruct (int_float n f X) as (b & E & H). exists b. split; [exact E|]. pose proof (SF (RInt n) (RFloat f) I) as K. cbn [finite_number value] in K.
    pose proof (SY (RInt n) (RFloat f)). pose proof (SY (RFloat f) (RInt n)). tauto.
  - destruct (ibm_eq_float_spec w f Y X) as (b & E & H). exists b. split; [exact E|]. pose proof (SF (RIbm w) (RFloat f) I) as K. cbn [finite_number value] in K.
    pose proof (SY (RIbm w) (RFloat f)). pose proof (SY (RFloat f) (RIbm w)). tauto.
  - destruct (int_float m g Y) as (b & E & H). exists b. split; [exact E|]. pose proof (SF (RInt m) (RFloat g) I) as K. cbn [finite_number value] in K. tauto.
  - exists (m =? n). split; [reflexivity|]. pose proof (SF (RInt m) (RInt n) I) as K. cbn [finite_number value] in K. rewrite K, Z.eqb_eq.
    assert (0 < unit) as P by apply unit_pos. revert P. generalize unit. intros u P. split; [intros ->; auto|]. intros (_ & H). left. nia.
  - exists (ibm_eq_rational w m 1). split; [reflexivity|]. pose proof (ibm_eq_rational_spec w m 1 Y ltac:(lia) (Z.gcd_1_r m)) as H. rewrite Z.mul_1_r in H.
    pose proof (SF (RInt m) (RIbm w) I) as K. cbn [finite_number value] in K. unfold unit in K. tauto.
  - destruct (ibm_eq_float_spec v g X Y) as (b & E & H). exists b. split; [exact E|]. pose proof (SF (RIbm v) (RFloat g) I) as K. cbn [finite_number value] in K. tauto.
  - exists (ibm_eq_rational v n 1). split; [reflexivity|]. pose proof (ibm_eq_rational_spec v n 1 X ltac:(lia) (Z.gcd_1_r n)) as H. rewrite Z.mul_1_r in H.
    pose proof (SF (RInt n) (RIbm v) I) as K. cbn [finite_number value] in K. unfold unit in K.
    pose proof (SY (RInt n) (RIbm v)). pose proof (SY (RIbm v) (RInt n)). tauto.
  - destruct (ibm_eq_spec v w X Y) as (b & E & H1 & H2). exists b. split; [exact E|]. pose proof (SF (RIbm v) (RIbm w) I) as K. cbn [finite_number value] in K. split.
    + intros B. destruct (H1 B) as [H|H]; [left; apply K; auto|right]. exists v, w. auto.
    + intros S. apply K in S. destruct S as (_ & S). destruct (H2 S) as [H|(Z0 & H)]; [auto|right]. exists v, w. split; [reflexivity|]. split; [reflexivity|]. right. split; [exact Z0|]. split; [congruence|exact H].
Qed.

Lemma elements_spec xs : forall ys, length xs = length ys -> Forall number xs -> Forall number ys -> exists b,
  elements_eq xs ys = Ok b /\ (b = true <-> Forall2 (fun x y => real_eq x y = Ok true) xs ys).
Proof.
  induction xs as [|x xs IH]; intros [|y ys] L NX NY; try discriminate.
  - exists true. split; [reflexivity|]. split; [constructor|reflexivity].
  - inversion NX as [|? ? X NX' E1]; subst. inversion NY as [|? ? Y NY' E2]; subst. cbn [elements_eq]. destruct (real_eq_spec x y X Y) as (b & E & _). rewrite E. cbn [bind].
    destruct b.
    + destruct (IH ys ltac:(now injection L) NX' NY') as (b & E' & H). exists b. split; [exact E'|]. rewrite H. split; [now constructor|]. intros F. now inversion F.
    + exists false. split; [reflexivity|]. split; [discriminate|]. intros F. inversion F; congruence.
Qed.
Lemma samples_eq_spec xs ys : Forall number xs -> Forall number ys -> exists b,
  samples_eq xs ys = Ok b /\ (b = true <-> Forall2 (fun x y => real_eq x y = Ok true) xs ys).
Proof.
  intros X Y. unfold samples_eq. destruct (zlen xs =? zlen ys) eqn:L.
  - apply elements_spec; auto. unfold zlen in L. lia.
  - exists false. split; [reflexivity|]. split; [discriminate|]. intros F. assert (length xs = length ys) by (clear -F; induction F; cbn; congruence). unfold zlen in L. lia.
Qed.
Lemma sample_number t e d pos x : sample_at t e d pos x -> number x.
Proof. destruct t; cbn [sample_at]; try (now intros (n & -> & _)). - intros (bits & f & -> & _ & H). apply H. - intros (w & -> & H & _). exact H. Qed.
Lemma samples_numbers t e d pos xs : samples_at t e d pos xs -> Forall number xs.
Proof.
  intros S. apply Forall_forall. intros x I. apply (In_nth _ _ (RInt 0)) in I. destruct I as (i & L & <-). specialize (S (Z.of_nat i)). unfold zlen in S. rewrite Nat2Z.id in S.
  eapply sample_number. apply S. lia.
Qed.

Section Reading.
Variables (native : endian) (tc : fmt) (d : list Z) (r : reader) (w : world).
Hypothesis HB : all_bytes d.
Hypothesis TF : trace_format tc.
Hypothesis OD : open_default tc d = (Ok r, w).
Hypothesis AR : all_readable native d r.

Lemma reading k : 0 <= k < rd_num_traces r ->
  (exists o, cat1_get (rd_offsets r) k = Ok o) /\ exists h ss,
  (fst (rd_trace_header r k None (mk_file d 0)) = Ok h /\ fst (rd_trace_samples native r k None None (mk_file d 0)) = Ok ss) /\ h_cls h = tc /\ Forall number ss /\
  (forall q, exists q', rd_trace_header r k None (mk_file d q) = (Ok h, mk_file d q')) /\
  forall q, exists q', rd_trace_samples native r k None None (mk_file d q) = (Ok ss, mk_file d q').
Proof.
  intros K. pose proof (open_readable _ _ HB TF) as RD. pose proof (open_opens _ _ _ _ OD) as OP.
  destruct (opens_opened _ _ _ _ _ _ _ RD OP) as (x & ts & t & X & O).
  assert (TR : traces_of d tc Big r t ts) by (split; [exact (op_type _ _ _ _ _ _ _ _ _ O)|exact (op_traces _ _ _ _ _ _ _ _ _ O)]).
  destruct (counts_ok d None BinaryReelHeader tc Big None r t ts RD OP TR) as (C1 & _).
  destruct (trace_of_exists ts k ltac:(lia)) as (tr & TK). split; [eexists; exact (rd_offset _ _ _ _ _ _ _ _ _ O k tr TK)|].
  destruct (AR k K) as (h & ss & H & S). exists h, ss. split; [now split|].
  destruct (header_ok_read d None BinaryReelHeader tc Big None r t ts RD OP TR k 0) as (q1 & _ & HO). rewrite H in HO. inversion HO as [| |tr1 h1 T1 HH]; subst h1.
  destruct (samples_ok d None BinaryReelHeader tc Big None r t ts RD OP TR native k None None 0) as (q2 & _ & SO). rewrite S in SO. inversion SO as [| | |tr2 ss2 T2 A1 A2 A3 A4 SA]; subst ss2.
  split; [apply HH|]. split; [eapply samples_numbers; exact SA|]. split.
  - intros q. destruct (header_ok_read d None BinaryReelHeader tc Big None r t ts RD OP TR k q) as (q' & Q & _). exists q'.
    rewrite (surjective_pairing (rd_trace_header r k None (mk_file d q))), Q, (proj1 (positionless_header r k None d q 0)), H. reflexivity.
  - intros q. destruct (samples_ok d None BinaryReelHeader tc Big None r t ts RD OP TR native k None None q) as (q' & Q & _). exists q'.
    rewrite (surjective_pairing (rd_trace_samples native r k None None (mk_file d q))), Q, (proj1 (positionless_samples native r k None None d q 0)), S. reflexivity.
Qed.

Lemma opened_file : exists q, w_file w = mk_file d q.
Proof.
  pose proof (open_readable _ _ HB TF) as RD. pose proof (open_opens _ _ _ _ OD) as OP. assert (L := opens_length _ _ _ _ _ _ _ OP).
  destruct (opens_opened _ _ _ _ _ _ _ RD OP) as (x & ts & t & X & O).
  destruct (create_reader_total (mk_attrs false false true) None BinaryReelHeader tc Big NoProgress None d [] x RD (conj eq_refl (conj eq_refl eq_refl)) L ltac:(discriminate) ltac:(discriminate) X)
    as (rr & q & log' & E & _). unfold open_default in OD. rewrite OD in E. injection E as _ ->. now exists q.
Qed.
End Reading.

Section Compare.
Variables (native : endian) (tc : fmt) (d : list Z) (r : reader) (w : world) (d' : list Z) (r' : reader) (w' : world).
Hypothesis HB : all_bytes d.
Hypothesis HB' : all_bytes d'.
Hypothesis TF : trace_format tc.
Hypothesis OD : open_default tc d = (Ok r, w).
Hypothesis OD' : open_default tc d' = (Ok r', w').
Hypothesis AR : all_readable native d r.
Hypothesis AR' : all_readable native d' r'.
Hypothesis LE : rd_num_traces r <= rd_num_traces r'.

Lemma compare_spec ks : (forall k, In k ks -> 0 <= k < rd_num_traces r) -> forall q q',
  let result := compare_traces native r (mk_file d q) r' (mk_file d' q') ks in
  (result = Ok tt /\ Forall (equal_traces native d r d' r') ks) \/ (result = Err AssertionError /\ Exists (fun k => ~ equal_traces native d r d' r' k) ks).
Proof.
  induction ks as [|k ks IH]; intros IN q q'; cbv zeta.
  { left. split; [reflexivity|constructor]. }
  assert (K := IN k (or_introl eq_refl)).
  destruct (reading native tc d r w HB TF OD AR k K) as ((o & CO) & h & ss & (H0 & S0) & CH & NS & RH & RS).
  destruct (reading native tc d' r' w' HB' TF OD' AR' k ltac:(lia)) as (_ & h' & ss' & (H0' & S0') & CH' & NS' & RH' & RS').
  cbn [compare_traces]. rewrite CO. cbn [bind]. destruct (RH q) as (q1 & ->). destruct (RH' q') as (q1' & ->). cbn [bind].
  destruct (are_equal_iff h h') as (eq & EQ & EI); [rewrite CH; apply TF|congruence|]. rewrite EQ. cbn [bind].
  assert (NE : ~ (same_fields h h' /\ Forall2 (fun x y => real_eq x y = Ok true) ss ss') -> ~ equal_traces native d r d' r' k).
  { intros N (h1 & h1' & ss1 & ss1' & E1 & E2 & E3 & E4 & E5 & E6). apply N. split; congruence. }
  destruct eq; cbn [negb].
  2:{ right. split; [reflexivity|]. left. apply NE. intros (N & _). apply EI in N. discriminate. }
  destruct (RS q1) as (q2 & ->). destruct (RS' q1') as (q2' & ->). cbn [bind].
  destruct (samples_eq_spec ss ss' NS NS') as (b & EB & BI). rewrite EB. cbn [bind]. destruct b; cbn [negb].
  2:{ right. split; [reflexivity|]. left. apply NE. intros (_ & N). apply BI in N. discriminate. }
  destruct (IH (fun k' I => IN k' (or_intror I)) q2 q2') as [(A & B)|(A & B)]; [left|right]; (split; [exact A|]).
  - constructor; [|exact B]. exists h, h', ss, ss'. split; [exact H0|]. split; [exact H0'|]. split; [now apply EI|]. split; [exact S0|]. split; [exact S0'|]. now apply BI.
  - now right.
Qed.

Lemma compare_files : let result := compare_traces native r (w_file w) r' (w_file w') (rd_trace_indexes r) in
  (result = Ok tt /\ forall k, 0 <= k < rd_num_traces r -> equal_traces native d r d' r' k) \/
  (result = Err AssertionError /\ exists k, 0 <= k < rd_num_traces r /\ ~ equal_traces native d r d' r' k).
Proof.
  destruct (opened_file tc d r w HB TF OD) as (q & ->). destruct (opened_file tc d' r' w' HB' TF OD') as (q' & ->).
  pose proof (open_readable _ _ HB TF) as RD. pose proof (open_opens _ _ _ _ OD) as OP.
  destruct (opens_opened _ _ _ _ _ _ _ RD OP) as (x & ts & t & X & O).
  assert (TR : traces_of d tc Big r t ts) by (split; [exact (op_type _ _ _ _ _ _ _ _ _ O)|exact (op_traces _ _ _ _ _ _ _ _ _ O)]).
  assert (IX : forall k, In k (rd_trace_indexes r) <-> 0 <= k < rd_num_traces r).
  { destruct (counts_ok d None BinaryReelHeader tc Big None r t ts RD OP TR) as (C1 & C2 & _). intros k. rewrite C1, C2, in_map_iff. unfold zlen. split.
    - intros (n & <- & I). apply in_seq in I. lia.
    - intros K. exists (Z.to_nat k). split; [lia|]. apply in_seq. lia. }
  destruct (compare_spec (rd_trace_indexes r) (fun k I => proj1 (IX k) I) q q') as [(A & B)|(A & B)]; [left|right]; (split; [exact A|]).
  - intros k K. rewrite Forall_forall in B. apply B. now apply IX.
  - apply Exists_exists in B. destruct B as (k & I & N). exists k. split; [now apply IX|exact N].
Qed.
End Compare.
