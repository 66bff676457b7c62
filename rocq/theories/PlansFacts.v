(* Proofs for C139: commands that are stopped while they write a file. *)
From Coq Require Import String ZArith List Bool Lia ZifyBool ZifyNat.
From Verif Require Import Py PyFacts PyFloat IbmFloat Spec_Ibm Util Catalog Packing Spec_Packing PackingFacts FormatFacts Formats FileIO Text Spec_Text TextIO
  Float32 Toolkit Spec_Segy Reader Spec_Reader ReaderFacts OpenFacts Transform Spec_Writer WriterFacts Spec_Cut Commands Spec_Commands CommandsFacts
  Stops Spec_Stops StopsFacts Plans Spec_Plans.
Import ListNotations.
Local Open Scope string_scope.
Open Scope list_scope.
Open Scope Z_scope.

Lemma main_plan_cases native parse c argv s :
  (main_plan native parse c argv s = (64, None) /\ main native parse c argv s = (64, s)) \/
  exists make inn out pr, asks parse c argv make inn out /\ pr <> NotCallable /\
    main_plan native parse c argv s = (exit_code (fst (transfer_plan native pr make s inn out)), snd (transfer_plan native pr make s inn out)) /\
    main native parse c argv s = (exit_code (fst (transfer native pr make s inn out)), snd (transfer native pr make s inn out)).
Proof.
  assert (T : forall make inn out pr, asks parse c argv make inn out -> pr <> NotCallable ->
    main native parse c argv s = (let (x, s') := transfer native pr make s inn out in (exit_code x, s')) ->
    main_plan native parse c argv s = (let (x, p) := transfer_plan native pr make s inn out in (exit_code x, p)) ->
    exists make inn out pr, asks parse c argv make inn out /\ pr <> NotCallable /\
      main_plan native parse c argv s = (exit_code (fst (transfer_plan native pr make s inn out)), snd (transfer_plan native pr make s inn out)) /\
      main native parse c argv s = (exit_code (fst (transfer native pr make s inn out)), snd (transfer native pr make s inn out))).
  { intros make inn out pr A P M M'. exists make, inn, out, pr. split; [exact A|]. split; [exact P|]. rewrite M, M'.
    destruct (transfer native pr make s inn out), (transfer_plan native pr make s inn out). auto. }
  destruct c.
  - destruct argv as [|inn [|out more]]; [left; split; reflexivity..|right]. apply (T (fun ds => Ok ds) inn out Callable); [constructor|discriminate|reflexivity..].
  - destruct argv as [|n [|inn [|out more]]]; [left; split; reflexivity..|].
    cbn [main main_plan] in *. destruct (type_named n) as [t|] eqn:N; [|left; split; reflexivity].
    destruct (String.eqb_spec out inn) as [->|D]; [left; split; reflexivity|].
    right. apply (T (convert_ibm t) inn out NoProgress); [apply asks_convert; [now apply type_named_spec|exact D]|discriminate|reflexivity..].
  - destruct argv as [|n [|inn [|out more]]]; [left; split; reflexivity..|].
    cbn [main main_plan] in *. destruct (parse n) as [f|] eqn:N; [|left; split; reflexivity].
    right. apply (T (fun ds => scaling ds f) inn out NoProgress); [now apply asks_scale|discriminate|reflexivity..].
  - destruct argv as [|n [|inn [|out more]]]; [left; split; reflexivity..|].
    cbn [main main_plan] in *. destruct (parse n) as [f|] eqn:N; [|left; split; reflexivity].
    right. apply (T (fun ds => Ok (scaling_coords ds f)) inn out Callable); [now apply asks_coords|discriminate|reflexivity..].
Qed.

Lemma created s out o b : open_wb s out = inl o -> only_written s out o b (fs_write (fs_create s out o) o b).
Proof.
  intros O. unfold only_written. cbn [fs_write fs_create fs_data fs_place]. rewrite Z.eqb_refl. split; [reflexivity|]. split.
  - intros j J. apply Z.eqb_neq in J. now rewrite J.
  - split; [|now rewrite String.eqb_refl]. intros n N. apply String.eqb_neq in N. now rewrite N.
Qed.

(* the ending is the same, and so are the files *)
Lemma transfer_planned native pr make s inn out :
  fst (transfer native pr make s inn out) = fst (transfer_plan native pr make s inn out) /\
  match snd (transfer_plan native pr make s inn out) with
  | None => snd (transfer native pr make s inn out) = s
  | Some (n, o, l) => n = out /\ open_wb s out = inl o /\ (exists i, open_rb s inn = inl i) /\ only_written s out o (made l) (snd (transfer native pr make s inn out))
  end.
Proof.
  unfold transfer, transfer_plan. destruct (open_rb s inn) as [i|e] eqn:I; [|split; reflexivity]. destruct (open_wb s out) as [o|e] eqn:O; [|split; reflexivity]. cbv zeta.
  assert (C := only_created s out o O).
  destruct (fst (create_reader _ _ _ _ _ _ _ _)) as [r|y]; [|cbn [fst snd]; split; [reflexivity|]; split; [reflexivity|]; split; [reflexivity|]; split; [eauto|exact C]].
  destruct (make _) as [ds|y]; [|cbn [fst snd]; split; [reflexivity|]; split; [reflexivity|]; split; [reflexivity|]; split; [eauto|exact C]].
  assert (E0 : fs_data (fs_create s out o) o = []) by (cbn [fs_create fs_data]; now rewrite Z.eqb_refl).
  rewrite operations_realized, E0. destruct (operations ds None TraceHeaderRev1 Big pr) as (l, x). cbn [fst snd].
  split; [reflexivity|]. split; [reflexivity|]. split; [reflexivity|]. split; [eauto|]. apply created. exact O.
Qed.

Lemma set_cls h n v h' : hdr_set h n v = Ok h' -> h_cls h' = h_cls h.
Proof. unfold hdr_set. destruct (class_field _ n) as [f|]; [destruct (ft_new (fd_type f) v); [|discriminate]|]; cbn [bind]; now intros [= <-]. Qed.
Lemma keywords_cls kws : forall h h', set_keywords h kws = Ok h' -> h_cls h' = h_cls h.
Proof.
  induction kws as [|(n, v) kws IH]; intros h h' H; cbn [set_keywords] in H; [now injection H as <-|]. destruct (has_attr h n); [|discriminate].
  destruct (hdr_set h n v) as [h1|] eqn:E; [|discriminate]. cbn [bind] in H. rewrite (IH _ _ H). now apply set_cls in E.
Qed.
Lemma hdr_copy_cls h kws h' : hdr_copy h kws = Ok h' -> h_cls h' = h_cls h.
Proof.
  unfold hdr_copy. destruct (field_dict _ _) as [fields|]; [|discriminate]. cbn [bind]. unfold hdr_init. destruct (ordered_field_names (h_cls h)); cbn [set_positional bind]; intros H; now rewrite (keywords_cls _ _ _ H).
Qed.

Lemma plan_operations native pr make s inn out n o l c parse argv : sound s -> asks parse c argv make inn out -> pr <> NotCallable ->
  snd (transfer_plan native pr make s inn out) = Some (n, o, l) ->
  l = [] \/ exists ds, l = fst (operations ds None TraceHeaderRev1 Big pr) /\ format_ok (h_cls (ds_binary ds)) 400.
Proof.
  intros S A PN. unfold transfer_plan. destruct (open_rb s inn) as [i|e] eqn:I; [|discriminate]. destruct (open_wb s out) as [o'|e] eqn:O; [|discriminate]. cbv zeta.
  set (d := fs_data (fs_create s out o') i). assert (BD : all_bytes d). { unfold d. cbn [fs_create fs_data]. destruct (i =? o'); [constructor|apply S]. }
  clearbody d. destruct (create_reader file_opened None BinaryReelHeader TraceHeaderRev1 (Some Big) pr None (mk_world (mk_file d 0) [])) as [[r|y] w] eqn:E; cbn [fst snd];
    [|intros [= _ _ <-]; auto].
  assert (OP : opens d None BinaryReelHeader TraceHeaderRev1 Big None r) by (exists file_opened, pr, [], w; exact E).
  destruct (make (reader_dataset native r (mk_file d 0))) as [ds|y] eqn:M; cbn [snd]; [|intros [= _ _ <-]; auto].
  assert (K : h_cls (ds_binary ds) = BinaryReelHeader).
  { destruct (opens_opened d None _ _ _ None r (default_formats d BD) OP) as (x' & ts' & t' & X' & O'). destruct (op_headers _ _ _ _ _ _ _ _ _ O') as (_ & (HB & _) & _).
    rewrite <- HB. clear -A M. change (rd_binary r) with (ds_binary (reader_dataset native r (mk_file d 0))). revert M. generalize (reader_dataset native r (mk_file d 0)). intros src M.
    destruct A as [?|nm t inn out more N D|nm f inn out more N|nm f inn out more N].
    - now injection M as <-.
    - unfold convert_ibm in M. destruct (ds_sample_format src) as [t0|]; [|discriminate]. cbn [bind] in M. destruct t0; try discriminate.
      unfold converting in M. destruct (format_for t) as [code|]; [|discriminate]. cbn [bind] in M.
      destruct (hdr_copy (ds_binary src) _) as [bin|] eqn:HC; [|discriminate]. cbn [bind] in M. injection M as <-. cbn [ds_binary]. now apply hdr_copy_cls in HC.
    - unfold scaling in M. destruct (ds_sample_format src); [|discriminate]. now injection M as <-.
    - now injection M as <-. }
  destruct (operations ds None TraceHeaderRev1 Big pr) as (l', x) eqn:EO. cbn [snd]. intros [= _ _ <-]. right. exists ds. rewrite EO. split; [reflexivity|].
  rewrite K. exact (proj1 binary_reel_format).
Qed.

Lemma made_new ds pr : made (fst (operations ds None TraceHeaderRev1 Big pr)) =
  f_data (w_file (snd (write_segy ds None TraceHeaderRev1 Big pr (mk_world (mk_file [] 0) [])))).
Proof. unfold made. now rewrite operations_realized. Qed.
Lemma left_new b : f_data (overwritten [] b) = b.
Proof. unfold overwritten. cbn [f_data]. now rewrite skipn_nil, app_nil_r. Qed.

Theorem command_left native parse c argv s s' : sound s -> command_stopped (snd (main_plan native parse c argv s)) s s' ->
  s' = s \/ exists make inn out i o b n, asks parse c argv make inn out /\ open_rb s inn = inl i /\ open_wb s out = inl o /\
    only_written s out o b (snd (main native parse c argv s)) /\ 0 <= n <= zlen b /\ only_written s out o (firstn (Z.to_nat n) b) s'.
Proof.
  intros SO [->|(out' & o & l & w & PL & ST & ->)]; [auto|right].
  destruct (main_plan_cases native parse c argv s) as [(P & _)|(make & inn & out & pr & A & PN & P & M)]; [rewrite P in PL; discriminate|].
  rewrite P in PL. cbn [snd] in PL. rewrite M. cbn [snd]. destruct (transfer_planned native pr make s inn out) as (_ & T). rewrite PL in T.
  destruct T as (-> & O & (i & I) & W).
  assert (N : exists n, 0 <= n <= zlen (made l) /\ f_data (w_file w) = firstn (Z.to_nat n) (made l)).
  { destruct (plan_operations native pr make s inn out out o l c parse argv SO A PN PL) as [->|(ds & -> & F)].
    - exists 0. split; [cbn; lia|]. destruct ST as (l' & B & ->). inversion B. reflexivity.
    - rewrite made_new. destruct (stop_prefix ds None TraceHeaderRev1 Big pr F [] [] [] w ST) as (n & L & E). exists n. split; [exact L|]. rewrite E. apply left_new. }
  destruct N as (n & L & E). exists make, inn, out, i, o, (made l), n. rewrite E.
  split; [exact A|]. split; [exact I|]. split; [exact O|]. split; [exact W|]. split; [exact L|]. now apply created.
Qed.

Theorem command_left_anywhere native parse c argv s make inn out i o b n : sound s -> asks parse c argv make inn out ->
  open_rb s inn = inl i -> open_wb s out = inl o -> only_written s out o b (snd (main native parse c argv s)) -> 0 <= n <= zlen b ->
  exists s', command_stopped (snd (main_plan native parse c argv s)) s s' /\ only_written s out o (firstn (Z.to_nat n) b) s'.
Proof.
  intros SO A I O W L.
  destruct (main_plan_cases native parse c argv s) as [(P & M)|(make' & inn' & out' & pr & A' & PN & P & M)].
  { exfalso. destruct (main_open native parse c argv s make inn out A i o I O) as (code & b' & s' & M' & _ & [(E & _)|(E & _)]); rewrite M in M'; injection M' as <- _; discriminate. }
  destruct (asks_one _ _ _ _ _ _ _ _ _ A' A) as (-> & -> & ->). rewrite P. rewrite M in W. cbn [snd] in *.
  destruct (transfer_planned native pr make s inn out) as (_ & T).
  destruct (snd (transfer_plan native pr make s inn out)) as [((out', o'), l)|] eqn:PL.
  2: { exfalso. unfold transfer_plan in PL. rewrite I, O in PL. cbv zeta in PL. destruct (fst (create_reader _ _ _ _ _ _ _ _)); [|discriminate]. destruct (make _); [|discriminate].
       destruct (operations _ _ _ _ _). discriminate. }
  destruct T as (-> & O' & _ & W'). rewrite O in O'. injection O' as <-.
  assert (b = made l) as -> by (destruct W as (<- & _), W' as (<- & _); reflexivity).
  assert (N : exists w, stopped l (mk_world (mk_file [] 0) []) w /\ f_data (w_file w) = firstn (Z.to_nat n) (made l)).
  { destruct (plan_operations native pr make s inn out out o l c parse argv SO A PN PL) as [->|(ds & -> & F)].
    - eexists. split; [exists []; split; [constructor|reflexivity]|]. cbn. now rewrite firstn_nil.
    - rewrite made_new in *. destruct (stop_anywhere ds None TraceHeaderRev1 Big pr F [] [] [] n L) as (w & ST & E). exists w. split; [exact ST|]. rewrite E. apply left_new. }
  destruct N as (w & ST & E). exists (fs_write (fs_create s out o) o (f_data (w_file w))). split; [right; exists out, o, l, w; auto|]. rewrite E. now apply created.
Qed.

Theorem main_planned native parse c argv s : fst (main native parse c argv s) = fst (main_plan native parse c argv s) /\
  match snd (main_plan native parse c argv s) with
  | None => snd (main native parse c argv s) = s
  | Some (out, o, l) => (exists make inn i, asks parse c argv make inn out /\ open_rb s inn = inl i) /\ open_wb s out = inl o /\
      only_written s out o (made l) (snd (main native parse c argv s))
  end.
Proof.
  destruct (main_plan_cases native parse c argv s) as [(P & M)|(make & inn & out & pr & A & PN & P & M)]; rewrite P, M; cbn [fst snd]; [auto|].
  destruct (transfer_planned native pr make s inn out) as (-> & T). split; [reflexivity|].
  destruct (snd (transfer_plan native pr make s inn out)) as [((out', o), l)|]; [|exact T]. destruct T as (-> & O & (i & I) & W). eauto 10.
Qed.
