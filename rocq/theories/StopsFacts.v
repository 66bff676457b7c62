(* Proofs for C137. *)
From Coq Require Import String ZArith List Bool Lia ZifyBool ZifyNat.
From Verif Require Import Py PyFacts PyFloat IbmFloat Spec_Ibm Util Catalog Spec_Catalog Packing Spec_Packing PackFacts CompileFacts HeaderFacts Formats FileIO Text Spec_Text
  TextIO Float32 Toolkit Spec_Segy ToolkitFacts Reader Spec_Reader ReaderFacts OpenFacts PackingFacts FormatFacts Spec_Writer WriterFacts Spec_Written WrittenFacts
  Spec_Cut CutFacts InPlaceFacts Stops Spec_Stops.
Import ListNotations.
Local Open Scope string_scope.
Open Scope list_scope.
Open Scope Z_scope.

(* ---------------- the operations are those of write_segy ---------------- *)
Definition realizes {A} (m : ops A) (g : wio A) : Prop := forall w, g w = (snd m, perform (fst m) w).

Lemma perform_app l l' w : perform (l ++ l') w = perform l' (perform l w).
Proof. apply fold_left_app. Qed.
Lemma realizes_bind {A B} (m : ops A) (g : wio A) (k : A -> ops B) (h : A -> wio B) :
  realizes m g -> (forall a, realizes (k a) (h a)) -> realizes (obind m k) (wbind g h).
Proof.
  intros M K w. unfold wbind, obind. rewrite M. destruct m as [l [a|y]]; cbn [fst snd]; [|reflexivity].
  rewrite K. destruct (k a) as [l' r]. cbn [fst snd]. now rewrite perform_app.
Qed.
Lemma realizes_lift {A} (r : res A) : realizes (olift r) (on_file (lift r)).
Proof. intros [f l]. reflexivity. Qed.
Lemma realizes_raise {A} y : realizes (@oraise A y) (wraise y).
Proof. intros w. reflexivity. Qed.
Lemma realizes_put b : realizes (odo (Put b)) (on_file (write b)).
Proof. intros [f l]. unfold on_file. cbn. destruct b; reflexivity. Qed.
Lemma realizes_seek p : 0 <= p -> realizes (odo (Seek_to p)) (on_file (seek p)).
Proof. intros P [f l]. unfold on_file, seek. cbn. now replace (p <? 0) with false by lia. Qed.
Lemma realizes_report k n : realizes (if n =? 0 then oraise ZeroDivisionError else odo (Report k n)) (report k n).
Proof. intros [f l]. unfold report. destruct (n =? 0); reflexivity. Qed.
Lemma realizes_ext {A} (m : ops A) g g' : (forall w, g' w = g w) -> realizes m g -> realizes m g'.
Proof. intros E R w. now rewrite E. Qed.

Lemma on_file_bind {A B} (m : io A) (k : A -> io B) w : on_file (ibind m k) w = wbind (on_file m) (fun a => on_file (k a)) w.
Proof. destruct w as [f l]. unfold on_file, ibind, wbind. cbn [w_file w_log]. destruct (m f) as [[a|y] f']; reflexivity. Qed.
Lemma realizes_seq {A B} (m : ops A) (g : io A) (k : A -> ops B) (h : A -> io B) :
  realizes m (on_file g) -> (forall a, realizes (k a) (on_file (h a))) -> realizes (obind m k) (on_file (ibind g h)).
Proof. intros M K. eapply realizes_ext; [apply on_file_bind|]. now apply realizes_bind. Qed.
Lemma realizes_fraise {A} y : realizes (@oraise A y) (on_file (raise y)).
Proof. intros [f l]. reflexivity. Qed.

Lemma text_realized lines x : realizes (text_ops lines x) (on_file (write_textual_reel_header lines x)).
Proof.
  unfold text_ops, write_textual_reel_header. destruct (negb _); [apply realizes_fraise|]. apply realizes_seq; [apply realizes_lift|].
  intros padded. cbv zeta. destruct (negb _); [apply realizes_fraise|apply realizes_put].
Qed.
Lemma binary_realized h e : realizes (binary_ops h e) (on_file (write_binary_reel_header h e)).
Proof.
  unfold binary_ops, write_binary_reel_header. apply realizes_seq; [apply realizes_lift|]. intros p. apply realizes_seq; [apply realizes_lift|]. intros b. apply realizes_put.
Qed.
Lemma pages_realized pages : realizes (pages_ops pages) (on_file (write_pages pages)).
Proof.
  induction pages as [|p pages IH]; cbn [pages_ops write_pages]; [intros [f l]; reflexivity|]. destruct (negb _); [apply realizes_fraise|].
  apply realizes_seq; [apply realizes_put|]. intros []. exact IH.
Qed.
Lemma ext_realized pages x : realizes (ext_ops pages x) (on_file (write_extended_textual_headers pages x)).
Proof.
  unfold ext_ops, write_extended_textual_headers. destruct (negb _); [apply realizes_fraise|].
  apply realizes_seq; [apply realizes_seek; vm_compute; discriminate|]. intros []. apply realizes_seq; [apply realizes_lift|]. intros c. apply pages_realized.
Qed.
Lemma obind_assoc {A B C} (m : ops A) (k : A -> ops B) (h : B -> ops C) : obind (obind m k) h = obind m (fun a => obind (k a) h).
Proof.
  unfold obind. destruct m as [l [a|y]]; [|reflexivity]. destruct (k a) as [l' [b|y]]; [|reflexivity]. destruct (h b) as [l2 r]. now rewrite app_assoc.
Qed.
Lemma put_realized {B} (r : res (list Z)) (k : ops B) (h : Datatypes.unit -> wio B) : realizes k (h tt) ->
  realizes (act b <- olift r ;; act _ <- odo (Put b) ;; k) (wbind (on_file (run b <- lift r ;; write b)) h).
Proof.
  intros K. rewrite <- obind_assoc. apply realizes_bind; [|intros []; exact K]. apply realizes_seq; [apply realizes_lift|]. intros b. apply realizes_put.
Qed.
Lemma traces_realized ds p e n : forall ks, realizes (traces_ops ds p e n ks) (write_traces ds p e n ks).
Proof.
  induction ks as [|k ks IH]; cbn [traces_ops write_traces]; [intros w; reflexivity|].
  apply realizes_bind; [apply realizes_lift|]. intros h. unfold write_trace_header. apply put_realized.
  apply realizes_bind; [apply realizes_lift|]. intros ss. apply realizes_bind; [apply realizes_lift|]. intros t. unfold write_binary_values. apply put_realized.
  apply realizes_bind; [apply realizes_report|]. intros []. exact IH.
Qed.

Theorem operations_realized ds enc tc e pr w :
  write_segy ds enc tc e pr w = (snd (operations ds enc tc e pr), perform (fst (operations ds enc tc e pr)) w).
Proof.
  revert w. change (realizes (operations ds enc tc e pr) (write_segy ds enc tc e pr)). unfold operations, write_segy.
  destruct pr; try apply realizes_raise; (cbv zeta; destruct (negb _); [apply realizes_raise|];
  apply realizes_bind; [apply text_realized|]; intros []; apply realizes_bind; [apply binary_realized|]; intros [];
  apply realizes_bind; [apply ext_realized|]; intros []; apply realizes_bind; [apply realizes_lift|]; intros p;
  apply realizes_bind; [apply traces_realized|]; intros []; intros w; reflexivity).
Qed.

(* ---------------- they go through the file from its start ---------------- *)
Fixpoint puts (l : list op) : list Z := match l with [] => [] | Put b :: l => b ++ puts l | _ :: l => puts l end.
Fixpoint reports (l : list op) : list (Z * Z) := match l with [] => [] | Report a b :: l => (a, b) :: reports l | _ :: l => reports l end.
Fixpoint onward (q : Z) (l : list op) : Prop :=
  match l with [] => True | Seek_to p :: l => p = q /\ onward q l | Put b :: l => onward (q + zlen b) l | _ :: l => onward q l end.

Lemma puts_app l l' : puts (l ++ l') = puts l ++ puts l'.
Proof. induction l as [|[p|b|x y] l IH]; cbn [puts app]; auto. now rewrite IH, app_assoc. Qed.
Lemma reports_app l l' : reports (l ++ l') = reports l ++ reports l'.
Proof. induction l as [|[p|b|x y] l IH]; cbn [reports app]; auto. now rewrite IH. Qed.
Lemma onward_app l : forall q l', onward q (l ++ l') <-> onward q l /\ onward (q + zlen (puts l)) l'.
Proof.
  induction l as [|[p|b|x y] l IH]; intros q l'; cbn [onward puts app].
  - replace (q + zlen []) with q by (cbn; lia). tauto.
  - rewrite IH. tauto.
  - rewrite IH, zlen_app, Z.add_assoc. tauto.
  - rewrite IH. tauto.
Qed.
Lemma perform_onward old : forall l pre log, onward (zlen pre) l ->
  perform l (mk_world (upon old pre) log) = mk_world (upon old (pre ++ puts l)) (log ++ reports l).
Proof.
  induction l as [|[p|b|x y] l IH]; intros pre log; cbn [onward puts reports].
  - intros _. now rewrite !app_nil_r.
  - intros (-> & O). change (perform (Seek_to (zlen pre) :: l) (mk_world (upon old pre) log)) with (perform l (mk_world (upon old pre) log)). auto.
  - intros O. change (perform (Put b :: l) (mk_world (upon old pre) log)) with (perform l (mk_world (snd (write b (upon old pre))) log)).
    rewrite write_upon. cbn [snd]. rewrite IH by (rewrite zlen_app; exact O). now rewrite app_assoc.
  - intros O. change (perform (Report x y :: l) (mk_world (upon old pre) log)) with (perform l (mk_world (upon old pre) (log ++ [(x, y)]))).
    rewrite IH by exact O. now rewrite <- app_assoc.
Qed.
Lemma onward_begins : forall l' l, begins l' l -> forall q, onward q l -> onward q l'.
Proof. induction 1 as [l|b m l|[p|b|x y] l' l B IH]; intros q; cbn [onward]; auto. intros (-> & O). auto. Qed.
Lemma begins_puts : forall l' l, begins l' l -> exists n, 0 <= n <= zlen (puts l) /\ puts l' = firstn (Z.to_nat n) (puts l).
Proof.
  induction 1 as [l|b m l|[p|b|x y] l' l B (n & N & E)]; cbn [puts]; eauto.
  - exists 0. pose proof (zlen_nonneg (puts l)). split; [lia|reflexivity].
  - exists (zlen (firstn m b)). rewrite app_nil_r. pose proof (zlen_nonneg (puts l)). pose proof (zlen_nonneg (firstn m b)).
    assert (M : (length (firstn m b) <= length b)%nat) by (rewrite firstn_length; lia). split; [rewrite zlen_app; unfold zlen; lia|].
    unfold zlen. rewrite Nat2Z.id, firstn_app. replace (length (firstn m b) - length b)%nat with 0%nat by lia. cbn [firstn]. rewrite app_nil_r.
    rewrite firstn_length. rewrite <- (firstn_all b) at 1. rewrite firstn_firstn. reflexivity.
  - exists (zlen b + n). pose proof (zlen_nonneg b). split; [rewrite zlen_app; lia|].
    rewrite E. rewrite firstn_app. unfold zlen. replace (Z.to_nat (Z.of_nat (length b) + n) - length b)%nat with (Z.to_nat n) by lia.
    rewrite (firstn_all2 b) by lia. reflexivity.
Qed.
Lemma puts_begins : forall l n, 0 <= n <= zlen (puts l) -> exists l', begins l' l /\ puts l' = firstn (Z.to_nat n) (puts l).
Proof.
  induction l as [|o l IH]; intros n N.
  - exists []. split; [constructor|]. cbn. now rewrite firstn_nil.
  - destruct o as [p|b|x y]; cbn [puts] in *.
    + destruct (IH n N) as (l' & B & E). exists (Seek_to p :: l'). split; [now constructor|exact E].
    + rewrite zlen_app in N. destruct (Z_le_dec n (zlen b)) as [L|L].
      * exists [Put (firstn (Z.to_nat n) b)]. split; [constructor|]. cbn [puts]. rewrite app_nil_r, firstn_app. unfold zlen in L.
        replace (Z.to_nat n - length b)%nat with 0%nat by lia. cbn [firstn]. now rewrite app_nil_r.
      * destruct (IH (n - zlen b) ltac:(lia)) as (l' & B & E). exists (Put b :: l'). split; [now constructor|]. cbn [puts]. rewrite E, firstn_app. unfold zlen in *.
        rewrite (firstn_all2 b) by lia. do 2 f_equal. lia.
    + destruct (IH n N) as (l' & B & E). exists (Report x y :: l'). split; [now constructor|exact E].
Qed.

(* operations without seeking *)
Fixpoint straight (l : list op) : Prop := match l with [] => True | Seek_to _ :: _ => False | _ :: l => straight l end.
Lemma straight_onward l : straight l -> forall q, onward q l.
Proof. induction l as [|[p|b|x y] l IH]; cbn; auto. tauto. Qed.
Lemma straight_app l l' : straight l -> straight l' -> straight (l ++ l').
Proof. induction l as [|[p|b|x y] l IH]; cbn; auto; tauto. Qed.
Lemma straight_bind {A B} (m : ops A) (k : A -> ops B) : straight (fst m) -> (forall a, straight (fst (k a))) -> straight (fst (obind m k)).
Proof. intros M K. unfold obind. destruct m as [l [a|y]]; [|exact M]. specialize (K a). destruct (k a) as [l' r]. now apply straight_app. Qed.
Lemma pages_straight pages : straight (fst (pages_ops pages)).
Proof.
  induction pages as [|p pages IH]; cbn [pages_ops]; [exact I|]. destruct (negb _); [exact I|]. apply straight_bind; [exact I|]. intros _. exact IH.
Qed.
Lemma traces_straight ds p e n ks : straight (fst (traces_ops ds p e n ks)).
Proof.
  induction ks as [|k ks IH]; cbn [traces_ops]; [exact I|].
  repeat (apply straight_bind; [first [exact I|now destruct (n =? 0)]|intros ?]). exact IH.
Qed.

Lemma pack_length c len e p h b : format_ok c len -> make_header_packer c e = Ok p -> pk_pack p h = Ok b -> zlen b = len.
Proof.
  intros (K & _ & S & _ & FL & _) M. destruct (make_packer_ok _ _ _ M) as (d & len' & -> & C & LB & TB).
  assert (FI : forall f, In f (class_fields c) <-> is_field c f) by (intros; apply class_fields_In; auto using class_ok_levels).
  assert (L : laid_out 0 (items_of d) len').
  { apply (compiled_laid_out _ _ _ _ _ C).
    - intros f Hf. apply S. now apply FI.
    - intros E. apply TB. now left. }
  assert (EL : len' = len) by (destruct C as (_ & _ & _ & _ & Q); rewrite FL in Q; exact Q).
  unfold pk_pack. cbn [pk_endian pk_chunks pk_bijective pk_cls pk_alloc]. destruct (negb _); [discriminate|].
  destruct (if _ : bool then _ else _) as [[]|]; [|discriminate]. cbn [bind]. destruct (map_res _ _) as [vs|]; [|discriminate]. cbn [bind].
  destruct (struct_pack_chunks e (items_of d) 0 len' vs L) as [(buf & E & _ & Z & _)|(E & _)]; rewrite E; [|discriminate]. intros [= <-]. lia.
Qed.

Lemma onward_bind {A B} (m : ops A) (k : A -> ops B) q : onward q (fst m) ->
  (forall a, snd m = Ok a -> onward (q + zlen (puts (fst m))) (fst (k a))) -> onward q (fst (obind m k)).
Proof.
  intros M K. unfold obind. destruct m as [l [a|y]]; [|exact M]. specialize (K a eq_refl). destruct (k a) as [l' r]. cbn [fst] in *. apply onward_app. auto.
Qed.
Lemma text_size lines x : snd (text_ops lines x) = Ok tt -> zlen (puts (fst (text_ops lines x))) = 3200.
Proof.
  unfold text_ops. destruct (negb _); [discriminate|]. destruct (map_res _ _) as [cards|]; [|discriminate]. cbn [olift obind app].
  destruct (negb _) eqn:L; [discriminate|]. intros _. cbn [odo fst puts]. rewrite app_nil_r. apply Bool.negb_false_iff, Z.eqb_eq in L. exact L.
Qed.
Lemma binary_size h e : format_ok (h_cls h) 400 -> snd (binary_ops h e) = Ok tt -> zlen (puts (fst (binary_ops h e))) = 400.
Proof.
  intros F. unfold binary_ops. destruct (make_header_packer (h_cls h) e) as [p|] eqn:MP; [|discriminate]. cbn [olift obind].
  destruct (pk_pack p h) as [b|] eqn:PK; [|discriminate]. intros _. cbn [olift obind odo app fst puts]. rewrite app_nil_r. exact (pack_length _ _ _ _ _ _ F MP PK).
Qed.
Lemma text_straight lines x : straight (fst (text_ops lines x)).
Proof. unfold text_ops. destruct (negb _); [exact I|]. apply straight_bind; [exact I|]. intros c. cbv zeta. destruct (negb _); exact I. Qed.
Lemma binary_straight h e : straight (fst (binary_ops h e)).
Proof. unfold binary_ops. repeat (apply straight_bind; [exact I|intros ?]). exact I. Qed.

Lemma operations_onward ds enc tc e pr : format_ok (h_cls (ds_binary ds)) 400 -> onward 0 (fst (operations ds enc tc e pr)).
Proof.
  intros F. unfold operations. destruct pr; try exact I;
  (cbv zeta; destruct (negb (is_supported_encoding _)); [exact I|];
   apply onward_bind; [apply straight_onward, text_straight|]; intros [] T; rewrite (text_size _ _ T);
   apply onward_bind; [apply straight_onward, binary_straight|]; intros [] B; rewrite (binary_size _ _ F B);
   apply onward_bind;
   [unfold ext_ops; destruct (negb _); [exact I|]; apply onward_bind; [cbn; auto|]; intros [] _; apply straight_onward, straight_bind; [exact I|]; intros c; apply pages_straight
   |intros [] _; apply straight_onward; apply straight_bind; [exact I|]; intros p; apply straight_bind; [apply traces_straight|]; intros _; exact I]).
Qed.

Section Stop.
Variables (ds : dataset) (enc : option encoding) (tc : fmt) (e : endian) (pr : progress_arg).
Hypothesis F : format_ok (h_cls (ds_binary ds)) 400.
Let l := fst (operations ds enc tc e pr).

Lemma new_contents log : f_data (w_file (snd (write_segy ds enc tc e pr (mk_world (mk_file [] 0) log)))) = puts l.
Proof.
  rewrite operations_realized. cbn [snd]. fold l. rewrite <- upon_nil, perform_onward by (apply operations_onward; exact F).
  cbn [w_file upon f_data app]. unfold over. now rewrite skipn_nil, app_nil_r.
Qed.
Theorem stop_prefix old log log0 w : let b := f_data (w_file (snd (write_segy ds enc tc e pr (mk_world (mk_file [] 0) log0)))) in
  stopped l (mk_world (mk_file old 0) log) w ->
  exists n, 0 <= n <= zlen b /\ w_file w = overwritten old (firstn (Z.to_nat n) b).
Proof.
  cbv zeta. rewrite new_contents. intros (l' & B & ->). destruct (begins_puts _ _ B) as (n & N & E). exists n. split; [exact N|].
  rewrite <- upon_nil, perform_onward by (eapply onward_begins; [exact B|apply operations_onward; exact F]). cbn [w_file app]. now rewrite E.
Qed.
Theorem stop_anywhere old log log0 n : let b := f_data (w_file (snd (write_segy ds enc tc e pr (mk_world (mk_file [] 0) log0)))) in
  0 <= n <= zlen b -> exists w, stopped l (mk_world (mk_file old 0) log) w /\ w_file w = overwritten old (firstn (Z.to_nat n) b).
Proof.
  cbv zeta. rewrite new_contents. intros N. destruct (puts_begins _ _ N) as (l' & B & E). exists (perform l' (mk_world (mk_file old 0) log)).
  split; [exists l'; auto|]. rewrite <- upon_nil, perform_onward by (eapply onward_begins; [exact B|apply operations_onward; exact F]). cbn [w_file app]. now rewrite E.
Qed.
End Stop.

(* ---------------- what has been reported is there ---------------- *)
Lemma begins_app a : forall l' b, begins l' (a ++ b) -> begins l' a \/ exists l2, l' = a ++ l2 /\ begins l2 b.
Proof.
  induction a as [|o a IH]; intros l' b B.
  - right. exists l'. auto.
  - cbn [app] in B. inversion B as [l|c m l|o' l2 l B']; subst.
    + left. constructor.
    + left. constructor.
    + destruct (IH _ _ B') as [L|(l3 & -> & R)]; [left; now constructor|right; exists l3; auto].
Qed.
Lemma begins_straight_puts l' l : begins l' l -> zlen (puts l') <= zlen (puts l).
Proof.
  intros B. destruct (begins_puts _ _ B) as (n & N & ->). unfold zlen in *. rewrite firstn_length. lia.
Qed.
Lemma begins_reports l' l : begins l' l -> reports l = [] -> reports l' = [].
Proof. induction 1 as [l|b m l|[p|b|x y] l' l B IH]; cbn [reports]; auto. discriminate. Qed.

Definition sizes (t : segytype) (trs : list trace) : Z := fold_right (fun tr n => trace_size t tr + n) 0 trs.
Lemma trace_size_pos t tr : 0 <= trace_size t tr.
Proof. unfold trace_size. pose proof (zlen_nonneg (snd tr)). pose proof (sample_size_pos t). nia. Qed.
Lemma sizes_nonneg t trs : 0 <= sizes t trs.
Proof. unfold sizes. induction trs as [|tr trs IH]; cbn [fold_right]; [lia|]. pose proof (trace_size_pos t tr). lia. Qed.

Lemma traces_begun ds tc e t p n : format_ok tc 240 -> make_header_packer tc e = Ok p -> ds_sample_format ds = Ok t -> forall ks trs,
  Forall2 (fun k tr => ds_trace_header ds k = Ok (fst tr) /\ ds_trace_samples ds k None None = Ok (snd tr)) ks trs ->
  Forall (fun tr => good_header tc (fst tr) /\ Forall (storable t) (snd tr)) trs -> trs = [] \/ n <> 0 ->
  snd (traces_ops ds p e n ks) = Ok tt /\
  forall l', begins l' (fst (traces_ops ds p e n ks) ++ [Report 1 1]) ->
  exists j, (j <= length trs)%nat /\ sizes t (firstn j trs) <= zlen (puts l') <= sizes t (firstn (Datatypes.S j) trs) /\
    (reports l' = map (fun k => (k, n)) (firstn j ks) \/ j = length trs /\ reports l' = map (fun k => (k, n)) ks ++ [(1, 1)]).
Proof.
  intros F EP HT ks trs P. induction P as [|k tr ks trs (HH & HS) P IH]; intros G N.
  - split; [reflexivity|]. intros l' B. exists 0%nat. split; [cbn; lia|]. inversion B as [l|c m l|o' l2 l B']; subst.
    + cbn. split; [lia|auto].
    + inversion B'; subst; cbn; split; try lia; auto.
  - inversion G as [|? ? (G1 & G2) G']; subst. destruct N as [N|N]; [discriminate|]. destruct (IH G' (or_intror N)) as (OK & W). clear IH.
    destruct (header_written tc 240 e (fst tr) F G1) as (p' & hb & EP' & PK & (HL & _)). rewrite EP in EP'. injection EP' as <-.
    destruct (store_all e t (snd tr) G2) as (sb & rs & PS & L & _).
    cbn [traces_ops]. rewrite HH. cbn [olift obind]. rewrite PK. cbn [olift obind]. rewrite HS. cbn [olift obind odo]. rewrite HT. cbn [olift obind]. rewrite PS.
    cbn [olift obind]. replace (n =? 0) with false by lia. cbn [obind odo].
    destruct (traces_ops ds p e n ks) as [tl r]. cbn [fst snd] in *. split; [exact OK|]. intros l' B. cbn [app] in B.
    assert (TS : trace_size t tr = zlen hb + zlen sb) by (unfold trace_size; lia).
    pose proof (zlen_nonneg hb). pose proof (zlen_nonneg sb). pose proof (sizes_nonneg t trs) as SN.
    assert (Z0 : sizes t (firstn 0 (tr :: trs)) = 0) by reflexivity.
    assert (Z1 : sizes t (firstn 1 (tr :: trs)) = zlen hb + zlen sb) by (unfold sizes; cbn [firstn fold_right]; lia).
    inversion B as [l|c m l|o' l2 l B2]; subst.
    + exists 0%nat. rewrite Z0, Z1. cbn [puts length]. change (zlen []) with 0. split; [lia|]. split; [lia|]. left. reflexivity.
    + exists 0%nat. rewrite Z0, Z1. cbn [puts length]. rewrite app_nil_r. pose proof (zlen_nonneg (firstn m hb)).
      assert (zlen (firstn m hb) <= zlen hb) by (unfold zlen; rewrite firstn_length; lia). split; [lia|]. split; [lia|]. left. reflexivity.
    + inversion B2 as [l|c m l|o' l3 l B3]; subst.
      * exists 0%nat. rewrite Z0, Z1. cbn [puts length]. rewrite app_nil_r. split; [lia|]. split; [lia|]. left. reflexivity.
      * exists 0%nat. rewrite Z0, Z1. cbn [puts length]. rewrite app_nil_r, zlen_app. pose proof (zlen_nonneg (firstn m sb)).
        assert (zlen (firstn m sb) <= zlen sb) by (unfold zlen; rewrite firstn_length; lia). split; [lia|]. split; [lia|]. left. reflexivity.
      * inversion B3 as [l|c m l|o' l4 l B4]; subst.
        { exists 0%nat. rewrite Z0, Z1. cbn [puts length]. rewrite app_nil_r, zlen_app. split; [lia|]. split; [lia|]. left. reflexivity. }
        destruct (W l4 B4) as (j & J & (S1 & S2) & R). exists (Datatypes.S j). split; [cbn; lia|].
        cbn [puts]. rewrite !zlen_app.
        assert (EQ : forall i, sizes t (firstn (Datatypes.S i) (tr :: trs)) = zlen hb + zlen sb + sizes t (firstn i trs)).
        { intros i. cbn [firstn sizes fold_right]. rewrite TS. reflexivity. }
        rewrite (EQ j), (EQ (Datatypes.S j)). split; [lia|]. cbn [reports firstn map length app].
        destruct R as [->|(-> & ->)]; [left; reflexivity|right; auto].
Qed.

(* operations without reports *)
Lemma silent_bind {A B} (m : ops A) (k : A -> ops B) : reports (fst m) = [] -> (forall a, reports (fst (k a)) = []) -> reports (fst (obind m k)) = [].
Proof. intros M K. unfold obind. destruct m as [l [a|y]]; [|exact M]. specialize (K a). destruct (k a) as [l' r]. cbn [fst] in *. now rewrite reports_app, M, K. Qed.
Lemma text_silent lines x : reports (fst (text_ops lines x)) = [].
Proof. unfold text_ops. destruct (negb _); [reflexivity|]. apply silent_bind; [reflexivity|]. intros c. cbv zeta. now destruct (negb _). Qed.
Lemma binary_silent h e : reports (fst (binary_ops h e)) = [].
Proof. unfold binary_ops. repeat (apply silent_bind; [reflexivity|intros ?]). reflexivity. Qed.
Lemma pages_silent pages : reports (fst (pages_ops pages)) = [].
Proof. induction pages as [|p pages IH]; cbn [pages_ops]; [reflexivity|]. destruct (negb _); [reflexivity|]. apply silent_bind; [reflexivity|]. intros _. exact IH. Qed.
Lemma ext_silent pages x : reports (fst (ext_ops pages x)) = [].
Proof.
  unfold ext_ops. destruct (negb _); [reflexivity|]. apply silent_bind; [reflexivity|]. intros _. apply silent_bind; [reflexivity|]. intros c. apply pages_silent.
Qed.

Lemma obind_ok {A B} (m : ops A) (k : A -> ops B) b : snd (obind m k) = Ok b -> exists a, snd m = Ok a /\ snd (k a) = Ok b /\ fst (obind m k) = fst m ++ fst (k a).
Proof. unfold obind. destruct m as [l [a|y]]; [|discriminate]. destruct (k a) as [l' r] eqn:E. cbn [snd fst]. intros ->. exists a. rewrite E. auto. Qed.

Lemma operations_split ds enc tc e pr : snd (operations ds enc tc e pr) = Ok tt -> exists p reel,
  make_header_packer tc e = Ok p /\ reports reel = [] /\
  fst (operations ds enc tc e pr) = reel ++ fst (traces_ops ds p e (ds_num_traces ds) (ds_trace_indexes ds)) ++ [Report 1 1].
Proof.
  unfold operations. destruct pr; try discriminate; (cbv zeta; destruct (negb _); [discriminate|];
  set (x := match enc with Some x => x | None => _ end); clearbody x; intros H;
  apply obind_ok in H; destruct H as ([] & _ & H & ->); apply obind_ok in H; destruct H as ([] & _ & H & ->); apply obind_ok in H; destruct H as ([] & _ & H & ->);
  apply obind_ok in H; destruct H as (p & P & H & ->); apply obind_ok in H; destruct H as ([] & _ & _ & ->); exists p;
  exists (fst (text_ops (ds_text ds) x) ++ fst (binary_ops (ds_binary ds) e) ++ fst (ext_ops (ds_ext ds) x)); split; [exact P|];
  split; [now rewrite !reports_app, text_silent, binary_silent, ext_silent|]; cbn [olift fst app odo]; now rewrite <- !app_assoc).
Qed.

Lemma overwritten_pos old b : f_pos (overwritten old b) = zlen b.
Proof. reflexivity. Qed.

Theorem stop_progress ds enc x bc tc e t trs pr old log w : writable ds x bc tc t trs -> encoding_for enc ds x -> pr <> NotCallable ->
  stopped (fst (operations ds enc tc e pr)) (mk_world (mk_file old 0) log) w ->
  exists j, (j <= length trs)%nat /\ f_pos (w_file w) <= trace_start ds t trs (Datatypes.S j) /\
    ((w_log w = log ++ map (fun k => (k, ds_num_traces ds)) (firstn j (ds_trace_indexes ds)) /\ (j = 0%nat \/ trace_start ds t trs j <= f_pos (w_file w))) \/
     (j = length trs /\ w_log w = log ++ map (fun k => (k, ds_num_traces ds)) (ds_trace_indexes ds) ++ [(1, 1)] /\ trace_start ds t trs j <= f_pos (w_file w))).
Proof.
  intros W X P (l' & B & ->).
  assert (F : format_ok (h_cls (ds_binary ds)) 400) by (destruct W as [_ _ BC (-> & _) _ _ _ _ _ _]; exact BC).
  assert (ON := operations_onward ds enc tc e pr F). pose proof (onward_begins _ _ B 0 ON) as ON'.
  rewrite <- upon_nil, perform_onward by exact ON'. cbn [w_file w_log app upon f_pos].
  destruct (write_contents ds enc x bc tc e t trs pr [] [] W X P) as (b & SC & E). rewrite operations_realized in E.
  assert (OK : snd (operations ds enc tc e pr) = Ok tt) by congruence.
  rewrite <- upon_nil, perform_onward in E by exact ON. cbn [app] in E.
  assert (LB : zlen (puts (fst (operations ds enc tc e pr))) = zlen b).
  { injection E as _ _ E _. exact E. }
  clear E. rewrite (contents_length _ _ _ _ _ _ _ _ SC) in LB.
  change (fold_right _ 0 trs) with (sizes t trs) in LB.
  destruct (operations_split _ _ _ _ _ OK) as (p & reel & MP & RR & EQ). rewrite EQ in B, LB. rewrite !puts_app, !zlen_app in LB.
  destruct W as [S TX BC BH EX TC TY N PR G]. destruct (traces_begun ds tc e t p (ds_num_traces ds) TC MP TY _ _ PR G N) as (_ & TB).
  assert (ALL : forall l, begins l l) by (intros l; induction l; constructor; auto).
  assert (RL : zlen (puts reel) = 3600 + 3200 * zlen (ds_ext ds)).
  { destruct (TB _ (ALL _)) as (j & J & (S1 & S2) & R). rewrite puts_app, zlen_app in S1, S2. cbn [puts] in *. change (zlen []) with 0 in *. 
    assert (j = length trs).
    { destruct R as [R|(R & _)]; [|exact R]. exfalso. rewrite reports_app in R. cbn [reports] in R.
      assert (In (1, 1) (map (fun k => (k, ds_num_traces ds)) (firstn j (ds_trace_indexes ds)))) as I1 by (rewrite <- R; apply in_or_app; right; now left).
      assert (L := f_equal (@length _) R). rewrite app_length, map_length, firstn_length in L. cbn [length] in L.
      assert (RC : forall ks trs0, Forall2 (fun k tr => ds_trace_header ds k = Ok (fst tr) /\ ds_trace_samples ds k None None = Ok (snd tr)) ks trs0 ->
        Forall (fun tr => good_header tc (fst tr) /\ Forall (storable t) (snd tr)) trs0 -> trs0 = [] \/ ds_num_traces ds <> 0 ->
        reports (fst (traces_ops ds p e (ds_num_traces ds) ks)) = map (fun k => (k, ds_num_traces ds)) ks).
      { clear -TC MP TY. intros ks trs0 F0. induction F0 as [|k tr ks trs0 (HH & HS) F0 IH]; intros G N; [reflexivity|].
        inversion G as [|? ? (G1 & G2) G']; subst. destruct N as [N|N]; [discriminate|]. specialize (IH G' (or_intror N)).
        destruct (header_written tc 240 e (fst tr) TC G1) as (p' & hb & EP' & PK & _). rewrite MP in EP'. injection EP' as <-.
        destruct (store_all e t (snd tr) G2) as (sb & rs & PS & _). cbn [traces_ops]. rewrite HH. cbn [olift obind]. rewrite PK. cbn [olift obind]. rewrite HS. cbn [olift obind odo].
        rewrite TY. cbn [olift obind]. rewrite PS. cbn [olift obind]. replace (ds_num_traces ds =? 0) with false by lia. cbn [obind odo].
        destruct (traces_ops ds p e (ds_num_traces ds) ks) as [tl r]. cbn [fst] in *. cbn [app reports map]. now rewrite IH. }
      rewrite (RC _ _ PR G N), ?map_length in L. clear -L. pose proof (Nat.le_min_r j (length (ds_trace_indexes ds))). lia. }
    subst j. rewrite firstn_all in S1. rewrite firstn_all2 in S2 by apply Nat.le_succ_diag_r. cbn [app] in *. lia. }
  assert (ST : forall j, trace_start ds t trs j = 3600 + 3200 * zlen (ds_ext ds) + sizes t (firstn j trs)) by reflexivity.
  destruct (begins_app _ _ _ B) as [BR|(l2 & -> & B2)].
  - exists 0%nat. split; [lia|]. rewrite ST. pose proof (begins_straight_puts _ _ BR). pose proof (sizes_nonneg t (firstn 1 trs)). split; [lia|].
    left. split; [|now left]. rewrite (begins_reports _ _ BR RR). reflexivity.
  - destruct (TB _ B2) as (j & J & (S1 & S2) & R). exists j. split; [exact J|]. rewrite puts_app, zlen_app, !ST, reports_app, RR. cbn [app].
    rewrite RL. split; [apply Z.add_le_mono_l; exact S2|]. destruct R as [->|(-> & ->)]; [left|right].
    + split; [reflexivity|]. right. apply Z.add_le_mono_l. exact S1.
    + split; [reflexivity|]. split; [reflexivity|]. apply Z.add_le_mono_l. exact S1.
Qed.
