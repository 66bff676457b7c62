(* Proofs about the commands that write one SEG Y file from another. *)
From Coq Require Import String ZArith List Bool Lia ZifyBool ZifyNat.
From Verif Require Import Py PyFloat IbmFloat Spec_Ibm Packing Spec_Packing Formats FileIO Text Spec_Text Toolkit Spec_Segy Reader Spec_Reader ReaderFacts OpenFacts
  FormatFacts PositionFacts Spec_Writer WriterFacts CopyFacts Transform Spec_Transform TransformFacts Commands Spec_Commands.
Import ListNotations.
Local Open Scope string_scope.
Open Scope list_scope.
Open Scope Z_scope.

Lemma write_progress ds enc tc e pr w : pr <> NotCallable -> write_segy ds enc tc e pr w = write_segy ds enc tc e NoProgress w.
Proof. now destruct pr. Qed.
Lemma create_progress a enc bc tc e pr dim w : pr <> NotCallable -> create_reader a enc bc tc e pr dim w = create_reader a enc bc tc e NoProgress dim w.
Proof. now destruct pr. Qed.
Lemma write_own ds x tc e pr w : ds_encoding ds = Some (Some x) -> write_segy ds None tc e pr w = write_segy ds (Some x) tc e pr w.
Proof. intros E. unfold write_segy. now rewrite E. Qed.

Lemma reads_opens d r : reads d r -> opens d None BinaryReelHeader TraceHeaderRev1 Big None r.
Proof. intros (w & E). do 4 eexists. exact E. Qed.
Lemma default_formats d : all_bytes d -> readable d None BinaryReelHeader TraceHeaderRev1.
Proof.
  intros B. destruct (readable_by []) as (_ & FB & FT & _); [reflexivity|]. split; [exact B|]. split; [exact FB|]. split; [exact FT|]. discriminate.
Qed.
Lemma reads_empty r : ~ reads [] r.
Proof. intros E. assert (L := opens_length _ _ _ _ _ _ _ (reads_opens _ _ E)). cbn in L. lia. Qed.

Lemma only_created s out o : open_wb s out = inl o -> only_written s out o [] (fs_create s out o).
Proof.
  intros H. unfold only_written, fs_create. cbn [fs_data fs_place]. rewrite Z.eqb_refl. split; [reflexivity|]. split.
  - intros j N. now rewrite (proj2 (Z.eqb_neq j o) N).
  - split; [|now rewrite String.eqb_refl]. intros n N. now rewrite (proj2 (String.eqb_neq n out) N).
Qed.
Lemma only_overwritten s out o b b' s' : only_written s out o b s' -> only_written s out o b' (fs_write s' o b').
Proof.
  intros (D & J & N & P). unfold only_written, fs_write. cbn [fs_data fs_place]. rewrite Z.eqb_refl. split; [reflexivity|]. split; [|split; assumption].
  intros j H. rewrite (proj2 (Z.eqb_neq j o) H). now apply J.
Qed.

(* what is read once the output has been opened *)
Lemma seen s out o i : fs_data (fs_create s out o) i = if i =? o then [] else fs_data s i.
Proof. reflexivity. Qed.

Section Transfer.
Variables (native : endian) (pr : progress_arg) (make : dataset -> res dataset) (s : fs) (inn out : string).
Hypothesis PR : pr <> NotCallable.

Lemma transfer_no_input e : open_rb s inn = inr e -> transfer native pr make s inn out = (NotOpened e, s).
Proof. intros H. unfold transfer. now rewrite H. Qed.
Lemma transfer_no_output i e : open_rb s inn = inl i -> open_wb s out = inr e -> transfer native pr make s inn out = (NotOpened e, s).
Proof. intros H H'. unfold transfer. now rewrite H, H'. Qed.

(* the rest, once both files are open *)
Lemma transfer_open i o : open_rb s inn = inl i -> open_wb s out = inl o ->
  let d := if i =? o then [] else fs_data s i in
  exists x b, fst (transfer native pr make s inn out) = x /\ only_written s out o b (snd (transfer native pr make s inn out)) /\
    ((x = Finished /\ produces native make d b) \/ ((exists y, x = Raised y) /\ (forall b', ~ produces native make d b') /\
       ((forall r, reads d r -> exists y, make (reader_dataset native r (mk_file d 0)) = Err y) -> b = []))).
Proof.
  intros I O d. unfold transfer. rewrite I, O. cbv zeta. rewrite seen, (seen s out o o), Z.eqb_refl. fold d. rewrite (create_progress _ _ _ _ _ pr _ _ PR).
  assert (C := only_created s out o O).
  assert (RD : forall r, reads d r -> fst (create_reader file_opened None BinaryReelHeader TraceHeaderRev1 (Some Big) NoProgress None (mk_world (mk_file d 0) [])) = Ok r).
  { intros r (w & E). unfold file_opened. now rewrite E. }
  destruct (fst (create_reader file_opened None BinaryReelHeader TraceHeaderRev1 (Some Big) NoProgress None (mk_world (mk_file d 0) []))) as [r|y] eqn:E.
  2: { cbn [fst snd]. exists (Raised y), []. split; [reflexivity|]. split; [exact C|]. right. split; [now exists y|]. split; [|easy].
       intros b' (r & _ & _ & R & _). specialize (RD r R). discriminate. }
  assert (R : reads d r).
  { unfold reads, file_opened in *. destruct (create_reader _ None BinaryReelHeader TraceHeaderRev1 _ _ _ _) as (x, w). cbn [fst] in E. subst x. now exists w. }
  assert (U : forall r', reads d r' -> r' = r) by (intros r' H; specialize (RD r' H); congruence).
  destruct (make (reader_dataset native r (mk_file d 0))) as [ds|y] eqn:M.
  2: { cbn [fst snd]. exists (Raised y), []. split; [reflexivity|]. split; [exact C|]. right. split; [now exists y|]. split; [|easy].
       intros b' (r' & ds & w & H & M' & _). rewrite (U r' H), M in M'. discriminate. }
  rewrite (write_progress _ _ _ _ pr _ PR).
  destruct (write_segy ds None TraceHeaderRev1 Big NoProgress (mk_world (mk_file [] 0) [])) as (x, w) eqn:W. cbn [fst snd].
  exists (match x with Ok _ => Finished | Err y => Raised y end), (f_data (w_file w)). split; [reflexivity|]. split; [exact (only_overwritten _ _ _ _ _ _ C)|].
  destruct x as [[]|y].
  - left. split; [reflexivity|]. exists r, ds, w. auto.
  - right. split; [now exists y|]. split; [|intros H; destruct (H r R) as (z & H'); congruence].
    intros b' (r' & ds' & w' & H & M' & W' & _). rewrite (U r' H), M in M'. injection M' as <-. rewrite W in W'. discriminate.
Qed.
End Transfer.

Lemma produces_one native make d b b' : produces native make d b -> produces native make d b' -> b = b'.
Proof.
  intros (r & ds & w & (v & R) & M & W & B) (r' & ds' & w' & (v' & R') & M' & W' & B'). rewrite R in R'. injection R' as <- _.
  rewrite M in M'. injection M' as <-. rewrite W in W'. injection W' as <-. congruence.
Qed.
Lemma produces_empty native make b : ~ produces native make [] b.
Proof. intros (r & _ & _ & R & _). now apply (reads_empty r). Qed.

Lemma type_named_spec n t : type_named n = Some t <-> In (n, t) type_names.
Proof.
  unfold type_named, type_names. split.
  - repeat match goal with |- context [String.eqb n ?k] => destruct (String.eqb_spec n k) as [->|?]; [intros [= <-]; cbn; tauto|] end. discriminate.
  - cbn [In]. intros H. repeat match type of H with _ \/ _ => destruct H as [H|H] end; try contradiction; injection H as <- <-; reflexivity.
Qed.

(* main is a transfer, or refuses its arguments *)
Lemma main_cases native parse c argv s :
  (main native parse c argv s = (64, s) /\ forall make inn out, ~ asks parse c argv make inn out) \/
  exists make inn out pr, asks parse c argv make inn out /\ pr <> NotCallable /\
    main native parse c argv s = (exit_code (fst (transfer native pr make s inn out)), snd (transfer native pr make s inn out)).
Proof.
  assert (T : forall make inn out pr, asks parse c argv make inn out -> pr <> NotCallable ->
    main native parse c argv s = (let (x, s') := transfer native pr make s inn out in (exit_code x, s')) ->
    exists make inn out pr, asks parse c argv make inn out /\ pr <> NotCallable /\
      main native parse c argv s = (exit_code (fst (transfer native pr make s inn out)), snd (transfer native pr make s inn out))).
  { intros make inn out pr A P M. exists make, inn, out, pr. split; [exact A|]. split; [exact P|]. rewrite M. now destruct (transfer native pr make s inn out). }
  destruct c.
  - destruct argv as [|inn [|out more]]; [left; split; [reflexivity|inversion 1]..|right]. eapply T; [constructor| |reflexivity]. discriminate.
  - destruct argv as [|n [|inn [|out more]]]; [left; split; [reflexivity|inversion 1]..|].
    cbn [main] in *. destruct (type_named n) as [t|] eqn:N.
    + destruct (String.eqb_spec out inn) as [->|D].
      * left. split; [reflexivity|]. inversion 1; subst. contradiction.
      * right. apply (T (convert_ibm t) inn out NoProgress); [apply asks_convert; [now apply type_named_spec|exact D]|discriminate|reflexivity].
    + left. split; [reflexivity|]. inversion 1; subst. match goal with H : In _ type_names |- _ => apply type_named_spec in H; congruence end.
  - destruct argv as [|n [|inn [|out more]]]; [left; split; [reflexivity|inversion 1]..|].
    cbn [main] in *. destruct (parse n) as [f|] eqn:N.
    + right. eapply T; [first [apply asks_scale|apply asks_coords]; exact N| |reflexivity]. discriminate.
    + left. split; [reflexivity|]. inversion 1; subst. congruence.
  - destruct argv as [|n [|inn [|out more]]]; [left; split; [reflexivity|inversion 1]..|].
    cbn [main] in *. destruct (parse n) as [f|] eqn:N.
    + right. eapply T; [first [apply asks_scale|apply asks_coords]; exact N| |reflexivity]. discriminate.
    + left. split; [reflexivity|]. inversion 1; subst. congruence.
Qed.

Lemma asks_one parse c argv make inn out make' inn' out' : asks parse c argv make inn out -> asks parse c argv make' inn' out' -> make = make' /\ inn = inn' /\ out = out'.
Proof.
  intros A B. destruct A as [?|n t inn out more N D|n f inn out more N|n f inn out more N]; inversion B as [?|n' t' ? ? ? N' D'|n' f' ? ? ? N'|n' f' ? ? ? N']; subst.
  - auto.
  - apply type_named_spec in N, N'. assert (t = t') as <- by congruence. auto.
  - assert (f = f') as <- by congruence. auto.
  - assert (f = f') as <- by congruence. auto.
Qed.

Section Main.
Variables (native : endian) (parse : string -> option float) (c : command) (argv : list string) (s : fs).

Lemma main_usage : (forall make inn out, ~ asks parse c argv make inn out) -> main native parse c argv s = (64, s).
Proof. intros N. destruct (main_cases native parse c argv s) as [(M & _)|(make & inn & out & pr & A & _)]; [exact M|]. now destruct (N _ _ _ A). Qed.

Variables (make : dataset -> res dataset) (inn out : string).
Hypothesis A : asks parse c argv make inn out.

Lemma main_transfer : exists pr, pr <> NotCallable /\
  main native parse c argv s = (exit_code (fst (transfer native pr make s inn out)), snd (transfer native pr make s inn out)).
Proof.
  destruct (main_cases native parse c argv s) as [(_ & N)|(make' & inn' & out' & pr & A' & P & M)]; [now destruct (N _ _ _ A)|].
  destruct (asks_one _ _ _ _ _ _ _ _ _ A' A) as (-> & -> & ->). now exists pr.
Qed.
Lemma main_no_input e : open_rb s inn = inr e -> main native parse c argv s = (refusal e, s).
Proof. intros H. destruct main_transfer as (pr & P & ->). rewrite (transfer_no_input native pr make s inn out e H). now destruct e. Qed.
Lemma main_no_output i e : open_rb s inn = inl i -> open_wb s out = inr e -> main native parse c argv s = (refusal e, s).
Proof. intros H H'. destruct main_transfer as (pr & P & ->). rewrite (transfer_no_output native pr make s inn out i e H H'). now destruct e. Qed.

Lemma main_open i o : open_rb s inn = inl i -> open_wb s out = inl o ->
  exists code b s', main native parse c argv s = (code, s') /\ only_written s out o b s' /\
    ((code = 0 /\ i <> o /\ produces native make (fs_data s i) b) \/
     (code = 70 /\ (i <> o -> forall b', ~ produces native make (fs_data s i) b') /\ 
      ((i = o \/ forall r, reads (fs_data s i) r -> exists y, make (reader_dataset native r (mk_file (fs_data s i) 0)) = Err y) -> b = []))).
Proof.
  intros I O. destruct main_transfer as (pr & P & M). destruct (transfer_open native pr make s inn out P i o I O) as (x & b & X & W & H).
  rewrite X in M. exists (exit_code x), b. eexists. split; [exact M|]. split; [exact W|]. destruct H as [(-> & H)|((y & ->) & N & E)].
  - left. split; [reflexivity|]. destruct (Z.eqb_spec i o) as [->|D]; [now apply produces_empty in H|]. split; assumption.
  - right. split; [reflexivity|]. destruct (Z.eqb_spec i o) as [->|D].
    + split; [contradiction|]. intros _. apply E. intros r H. now destruct (reads_empty r).
    + split; [intros _; exact N|]. intros [H|H]; [contradiction|]. now apply E.
Qed.
End Main.

(* --- what the output holds --- *)

Lemma block_first d : block d 0 3200 = firstn (Z.to_nat 3200) d.
Proof. reflexivity. Qed.

(* a file with the same text is taken to have the same encoding *)
Lemma same_guess d b r r' : all_bytes d -> all_bytes b -> reads d r -> opens b (Some (rd_encoding r)) BinaryReelHeader TraceHeaderRev1 Big None r' ->
  rd_text r' = rd_text r -> encoding_used None b (rd_encoding r).
Proof.
  intros BD BB R O T. apply reads_opens in R. assert (RD := default_formats d BD).
  destruct (opens_opened _ _ _ _ _ _ _ RD R) as (x & ts & t & X & OD). assert (E := op_encoding _ _ _ _ _ _ _ _ _ OD).
  assert (S : supported x) by (eapply guessed_supported; [|exact X]; discriminate). rewrite E in *.
  assert (RB : readable b (Some x) BinaryReelHeader TraceHeaderRev1).
  { destruct (default_formats b BB) as (_ & FB & FT & _). split; [exact BB|]. split; [exact FB|]. split; [exact FT|]. intros y [= <-]. exact S. }
  destruct (opens_opened _ _ _ _ _ _ _ RB O) as (x' & ts' & t' & X' & OB). cbn [encoding_used] in X'. subst x'.
  destruct OD as [((_ & _ & DD) & _) _ _ _ _ _ _ _ _ _ _ _ _]. destruct OB as [((_ & _ & DB) & _) _ _ _ _ _ _ _ _ _ _ _ _].
  rewrite T in DB. assert (Q : block d 0 3200 = block b 0 3200) by (apply (decode_inj x _ _ (concat (rd_text r)) S); auto using block_bytes).
  rewrite !block_first in Q. unfold encoding_used in *. now rewrite <- Q.
Qed.
Lemma reads_guess d b r r' w' : all_bytes d -> all_bytes b -> reads d r ->
  create_reader file_opened (Some (rd_encoding r)) BinaryReelHeader TraceHeaderRev1 (Some Big) NoProgress None (mk_world (mk_file b 0) []) = (Ok r', w') ->
  rd_text r' = rd_text r -> reads b r'.
Proof.
  intros BD BB R C T. assert (G : encoding_used None b (rd_encoding r)) by (eapply (same_guess d b r r'); eauto; do 4 eexists; exact C).
  exists w'. change (mk_attrs false false true) with file_opened. now rewrite (create_reader_guess _ None _ _ _ _ _ _ 0 _ _ ltac:(lia) G).
Qed.

Lemma opened_attrs : attrs_ok file_opened.
Proof. repeat split. Qed.

Section Meaning.
Variables (native : endian) (d : list Z) (r : reader).
Hypothesis BD : all_bytes d.
Hypothesis R : reads d r.
Hypothesis AR : all_readable native d r.
Let src := reader_dataset native r (mk_file d 0).

Lemma own : supported (rd_encoding r) /\ text_encodable r (rd_encoding r).
Proof.
  destruct (opens_opened _ _ _ _ _ _ _ (default_formats d BD) (reads_opens _ _ R)) as (x & ts & t & X & O).
  assert (TR : traces_of d TraceHeaderRev1 Big r t ts) by (destruct O; now split).
  exact (own_text d None BinaryReelHeader TraceHeaderRev1 Big None r (default_formats d BD) (reads_opens _ _ R)).
Qed.

(* what is common to the transforming commands *)
Lemma meaning make ds bin hd sm : make src = Ok ds -> ds_encoding ds = Some (Some (rd_encoding r)) ->
  (exists b w, write_segy ds (Some (rd_encoding r)) TraceHeaderRev1 Big NoProgress (mk_world (mk_file [] 0) []) = (Ok tt, w) /\ f_data (w_file w) = b /\ all_bytes b /\
    forall a pr' dim' log', attrs_ok a -> pr' <> NotCallable -> (forall k, dim' = Some k -> In k [1; 2; 3]) ->
    exists r' w', create_reader a (Some (rd_encoding r)) BinaryReelHeader TraceHeaderRev1 (Some Big) pr' dim' (mk_world (mk_file b 0) log') = (Ok r', w') /\ transformed bin hd sm d r b r') ->
  exists b r', produces native make d b /\ reads b r' /\ transformed bin hd sm d r b r'.
Proof.
  intros M E (b & w & W & D & BB & H). destruct (H file_opened NoProgress None [] opened_attrs) as (r' & w' & C & T); [discriminate|discriminate|].
  exists b, r'. split; [|split; [|exact T]].
  - exists r, ds, w. split; [exact R|]. split; [exact M|]. split; [|exact D]. now rewrite (write_own _ _ _ _ _ _ E).
  - apply (reads_guess d b r r' w' BD BB R C). apply T.
Qed.

Lemma copy_meaning : exists b r', produces native (fun ds => Ok ds) d b /\ reads b r' /\ same_readings d r b r'.
Proof.
  destruct own as (S & TE).
  destruct (convert d None BinaryReelHeader TraceHeaderRev1 Big None r native (rd_encoding r) (default_formats d BD) (reads_opens _ _ R) AR binary_alike rev1_alike S TE
    Big NoProgress []) as (b & W & H); [discriminate|].
  destruct (H file_opened NoProgress None [] opened_attrs) as (r' & w' & C & T); [discriminate|discriminate|].
  destruct (opens_opened _ _ _ _ _ _ _ (default_formats d BD) (reads_opens _ _ R)) as (x & ts & t & X & O).
  assert (TR : traces_of d TraceHeaderRev1 Big r t ts) by (destruct O; now split).
  destruct (copy d None BinaryReelHeader TraceHeaderRev1 Big None r native t ts (default_formats d BD) (reads_opens _ _ R) AR binary_alike rev1_alike TR (Some (rd_encoding r)) NoProgress [])
    as (b' & w2 & W2 & D2 & CP); [now right|discriminate|]. rewrite W in W2. injection W2 as <-. cbn [w_file f_data] in D2. subst b'.
  exists b, r'. split; [|split; [|exact T]].
  - eexists r, _, _. split; [exact R|]. split; [reflexivity|]. rewrite (write_own _ (rd_encoding r)) by reflexivity. split; [exact W|reflexivity].
  - apply (reads_guess d b r r' w' BD); [apply CP|exact R|exact C|apply T].
Qed.

Lemma convert_meaning t code : sample_type (rd_binary r) T_IBM -> format_code code t -> all_samples native d r (convertible t) ->
  exists b r', produces native (convert_ibm t) d b /\ reads b r' /\
    transformed (fun h h' => same_but ["data_sample_format"] h h' /\ hdr_get h' "data_sample_format" = Ok code) same_fields (converted t) d r b r'.
Proof.
  intros ST FC AS. destruct own as (S & TE).
  destruct (convert_type d None TraceHeaderRev1 Big None r native (rd_encoding r) t code (default_formats d BD) (reads_opens _ _ R) AR rev1_alike S TE FC AS Big NoProgress [])
    as (ds & M & H); [discriminate|]. fold src in M.
  apply (meaning (convert_ibm t) ds).
  - unfold convert_ibm. replace (ds_sample_format src) with (Ok T_IBM) by (symmetry; exact (sample_format_ok _ _ ST)). exact M.
  - unfold converting in M. destruct (format_for t); [|discriminate]. cbn [bind] in M. destruct (hdr_copy _ _); [|discriminate]. cbn [bind] in M. now injection M as <-.
  - exact H.
Qed.

Lemma scale_meaning t f : sample_type (rd_binary r) t -> moderate f -> all_samples native d r (scalable t f) ->
  exists b r', produces native (fun ds => scaling ds f) d b /\ reads b r' /\ transformed same_fields same_fields (scaled t f) d r b r'.
Proof.
  intros ST MF AS. destruct own as (S & TE).
  destruct (scale_all d None TraceHeaderRev1 Big None r native (rd_encoding r) t f (default_formats d BD) (reads_opens _ _ R) AR rev1_alike S TE ST MF Big NoProgress [] AS)
    as (ds & M & H); [discriminate|]. fold src in M.
  apply (meaning (fun x => scaling x f) ds); [exact M| |exact H].
  unfold scaling in M. destruct (ds_sample_format src); [|discriminate]. cbn [bind] in M. now injection M as <-.
Qed.

Lemma coords_meaning f : moderate f ->
  (forall k h, 0 <= k < rd_num_traces r -> fst (rd_trace_header r k None (mk_file d 0)) = Ok h -> coordinate_fits f "source_x" h /\ coordinate_fits f "source_y" h) ->
  exists b r', produces native (fun ds => Ok (scaling_coords ds f)) d b /\ reads b r' /\ transformed same_fields (coordinates_scaled f) eq d r b r'.
Proof.
  intros MF CF. destruct own as (S & TE).
  apply (meaning (fun x => Ok (scaling_coords x f)) (scaling_coords src f)); [reflexivity|reflexivity|].
  exact (scale_coords d None Big None r native (rd_encoding r) f (default_formats d BD) (reads_opens _ _ R) MF Big NoProgress [] AR S TE CF ltac:(discriminate)).
Qed.
End Meaning.

(* a command whose output is known *)
Lemma main_done native parse c argv s make inn out i o b : asks parse c argv make inn out -> open_rb s inn = inl i -> open_wb s out = inl o -> i <> o ->
  produces native make (fs_data s i) b -> exists s', main native parse c argv s = (0, s') /\ only_written s out o b s'.
Proof.
  intros A I O N P. destruct (main_open native parse c argv s make inn out A i o I O) as (code & b' & s' & M & W & [(-> & _ & P')|(_ & H & _)]); [|now destruct (H N b)].
  rewrite (produces_one _ _ _ _ _ P P') in *. eauto.
Qed.

(* which files can be opened *)
Lemma opening s n :
  (forall i, open_rb s n = inl i <-> exists w, fs_place s n = Regular i true w) /\
  (forall e, open_rb s n = inr e <->
     (e = IsADirectory /\ fs_place s n = Directory) \/ (e = NotFound /\ exists m, fs_place s n = Nothing m) \/
     (e = NoPermission /\ exists i w, fs_place s n = Regular i false w)) /\
  (forall o, open_wb s n = inl o <-> (exists r, fs_place s n = Regular o r true) \/ fs_place s n = Nothing (inl o)) /\
  (forall e, open_wb s n = inr e <->
     (e = IsADirectory /\ fs_place s n = Directory) \/ fs_place s n = Nothing (inr e) \/
     (e = NoPermission /\ exists o r, fs_place s n = Regular o r false)).
Proof.
  unfold open_rb, open_wb. destruct (fs_place s n) as [|i [] []|[o|y]];
    (split; [|split; [|split]]); intros z; (split; [intros [= <-]|]); eauto 8;
    repeat match goal with
    | |- _ \/ _ -> _ => intros [?|?]
    | |- (exists _, _) -> _ => intros (? & ?)
    | H : _ \/ _ |- _ => destruct H
    | H : _ /\ _ |- _ => destruct H
    | H : exists _, _ |- _ => destruct H
    end; congruence.
Qed.
