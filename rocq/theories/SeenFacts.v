(* Trace header formats whose fields are in any order. *)
From Coq Require Import String ZArith List Bool Sorted ListDec Permutation Lia ZifyBool ZifyNat.
From Verif Require Import Py PyFloat IbmFloat Util Catalog Packing Formats FileIO Text TextIO Float32 Toolkit
  PyFacts Spec_Catalog CatalogFacts Spec_Ibm FloatFacts RoundFacts IbmFacts IbmArith Spec_Packing CompileFacts PackFacts HeaderFacts PackingFacts FormatFacts
  Spec_Text TextIOFacts ExtReadFacts Spec_Segy Float32Facts ToolkitFacts Reader Spec_Reader ReaderFacts OpenFacts Spec_Order OrderFacts Spec_Custom CustomFacts.
Import ListNotations.
Local Open Scope string_scope.
Open Scope list_scope.
Open Scope Z_scope.

Lemma Forall2_nth_both {A B} (R : A -> B -> Prop) l l' : Forall2 R l l' -> forall n a b, nth_error l n = Some a -> nth_error l' n = Some b -> R a b.
Proof. induction 1; intros [|n] u v E E'; cbn in *; try discriminate; [congruence|eauto]. Qed.
Lemma Forall2_nth_left {A B} (R : A -> B -> Prop) l l' : Forall2 R l l' -> forall n a, nth_error l n = Some a -> exists b, nth_error l' n = Some b.
Proof. induction 1; intros [|n] u E; cbn in *; try discriminate; eauto. Qed.
Lemma nth_same {A B} (l : list A) (l' : list B) n a : length l = length l' -> nth_error l n = Some a -> exists b, nth_error l' n = Some b.
Proof.
  intros L E. destruct (nth_error l' n) as [b|] eqn:N; [eauto|]. apply nth_error_None in N. assert (n < length l)%nat by (apply nth_error_Some; congruence). lia.
Qed.
Lemma sorted_nth {A} (R : A -> A -> Prop) l : StronglySorted R l <-> forall i j a b, (i < j)%nat -> nth_error l i = Some a -> nth_error l j = Some b -> R a b.
Proof.
  split.
  - induction 1 as [|x l S IH F]; intros [|i] [|j] a b L E E'; cbn in *; try discriminate; try lia.
    + injection E as <-. rewrite Forall_forall in F. apply F. eapply nth_error_In; eauto.
    + apply (IH i j a b); auto; lia.
  - induction l as [|x l IH]; intros H; constructor.
    + apply IH. intros i j a b L E E'. apply (H (S i) (S j) a b); auto; lia.
    + apply Forall_forall. intros y I. apply In_nth_error in I. destruct I as (n & E). apply (H 0%nat (S n) x y); auto; lia.
Qed.

Lemma wbind_same {A B} (m : wio A) (k k' : A -> wio B) w : (forall a w', m w = (Ok a, w') -> k a w' = k' a w') -> wbind m k w = wbind m k' w.
Proof. intros H. unfold wbind. destruct (m w) as [[a|x] w'] eqn:E; [now apply H|reflexivity]. Qed.

Section Seen.
Variables (c c' : fmt) (e : endian) (pk pk' : packer).
Hypothesis K : class_ok c.
Hypothesis ST : starts_ok c.
Hypothesis LEN : fmt_length c = Some 240.
Hypothesis MK : make_header_packer c e = Ok pk.
Hypothesis K' : class_ok c'.
Hypothesis ST' : starts_ok c'.
Hypothesis LEN' : fmt_length c' = Some 240.
Hypothesis MK' : make_header_packer c' e = Ok pk'.
Hypothesis SEEN : seen_as c c'.

Lemma seen_packers : exists sub p sub' p', sub_format "CatalogSubFormat" c catalog_field_names = Ok sub /\ make_header_packer sub e = Ok p /\
  sub_format "CatalogSubFormat" c' catalog_field_names = Ok sub' /\ make_header_packer sub' e = Ok p' /\
  forall buf, all_bytes buf -> zlen buf = 240 ->
    (exists h h', pk_unpack p buf = Ok h /\ pk_unpack p' buf = Ok h' /\ forall n, In n looked_at -> exists v, hdr_get h n = Ok v /\ hdr_get h' n = Ok v) \/
    (pk_unpack p buf = Err ValueError /\ pk_unpack p' buf = Err ValueError).
Proof.
  destruct SEEN as (chosen & placed & chosen' & CH & PL & CH' & SA).
  assert (LC : length chosen = length looked_at) by (destruct CH as (<- & _); now rewrite map_length).
  assert (LC' : length chosen' = length looked_at) by (destruct CH' as (<- & _); now rewrite map_length).
  assert (LP : length placed = length chosen) by (destruct PL as (P & _); symmetry; now apply Permutation_length).
  assert (PL' : placed_as chosen' chosen').
  { split; [apply Permutation_refl|]. apply sorted_nth. intros i j a b L E E'.
    destruct (nth_same chosen' chosen i a ltac:(lia) E) as (f1 & F1). destruct (nth_same chosen' placed i a ltac:(lia) E) as (g1 & G1).
    destruct (nth_same chosen' chosen j b ltac:(lia) E') as (f2 & F2). destruct (nth_same chosen' placed j b ltac:(lia) E') as (g2 & G2).
    destruct (SA i f1 g1 a F1 G1 E) as (Q1 & _). destruct (SA j f2 g2 b F2 G2 E') as (Q2 & _).
    destruct PL as (_ & SS). rewrite sorted_nth in SS. specialize (SS i j g1 g2 L G1 G2). unfold field_pos in *. lia. }
  assert (NE : looked_at <> []) by discriminate.
  destruct (sub_order_cases "CatalogSubFormat" c looked_at e pk 240 [] chosen placed K ST LEN NE CH PL MK ltac:(constructor)) as (sub & p & E1 & _ & _ & E2 & _).
  destruct (sub_order_cases "CatalogSubFormat" c' looked_at e pk' 240 [] chosen' chosen' K' ST' LEN' NE CH' PL' MK' ltac:(constructor)) as (sub' & p' & E1' & _ & _ & E2' & _).
  exists sub, p, sub', p'. do 4 (split; [assumption|]). intros buf B L.
  destruct (sub_order_cases "CatalogSubFormat" c looked_at e pk 240 buf chosen placed K ST LEN NE CH PL MK B) as (s1 & p1 & F1 & _ & _ & F2 & D).
  destruct (sub_order_cases "CatalogSubFormat" c' looked_at e pk' 240 buf chosen' chosen' K' ST' LEN' NE CH' PL' MK' B) as (s2 & p2 & G1 & _ & _ & G2 & D').
  assert (s1 = sub) as -> by congruence. assert (p1 = p) as -> by congruence. assert (s2 = sub') as -> by congruence. assert (p2 = p') as -> by congruence.
  clear F1 F2 G1 G2 E1 E2 E1' E2'.
  assert (V : forall n f g f' v v', nth_error chosen n = Some f -> nth_error placed n = Some g -> nth_error chosen' n = Some f' ->
    value_at c e buf g v -> value_at c' e buf f' v' -> v' = v /\ (accepts (fd_type f') v <-> accepts (fd_type f) v)).
  { intros n f g f' v v' F G F' (I & S) (I' & S'). destruct (SA n f g f' F G F') as (Q1 & Q2 & Q3). split; [|now apply Q3].
    unfold field_size in *. rewrite Q1, Q2 in S'. rewrite Q2 in I'. rewrite <- ctype_size_spec in *. exact (stored_unique e buf _ _ v' v I' I S' S). }
  destruct D as [(h & U & _ & R)|(U & R)], D' as [(h' & U' & _ & R')|(U' & R')].
  - left. exists h, h'. split; [exact U|]. split; [exact U'|]. intros m I. destruct CH as (CN & CF). destruct CH' as (CN' & CF').
    apply In_nth_error in I. destruct I as (n & N).
    assert (exists f, nth_error chosen n = Some f /\ fd_name f = m) as (f & F & FN).
    { rewrite <- CN, nth_error_map in N. destruct (nth_error chosen n) as [f|]; [|discriminate]. injection N as <-. eauto. }
    assert (exists f, nth_error chosen' n = Some f /\ fd_name f = m) as (f' & F' & FN').
    { rewrite <- CN', nth_error_map in N. destruct (nth_error chosen' n) as [f1|]; [|discriminate]. injection N as <-. eauto. }
    destruct (nth_same chosen placed n f ltac:(lia) F) as (g & G).
    destruct (Forall2_nth_both _ _ _ R n f g F G) as (v & V1 & A1 & H1). destruct (Forall2_nth_both _ _ _ R' n f' f' F' F') as (v' & V2 & A2 & H2).
    destruct (V n f g f' v v' F G F' V1 V2) as (-> & _). exists v. rewrite FN in H1. rewrite FN' in H2. auto.
  - exfalso. destruct R' as [R'|(n & f' & g' & v' & F' & G' & V' & A')]; [lia|]. assert (g' = f') as -> by congruence.
    destruct (nth_same chosen' chosen n f' ltac:(lia) F') as (f & F). destruct (nth_same chosen' placed n f' ltac:(lia) F') as (g & G).
    destruct (Forall2_nth_both _ _ _ R n f g F G) as (v & V1 & A1 & _). destruct (V n f g f' v v' F G F' V1 V') as (-> & A). apply A'. now apply A.
  - exfalso. destruct R as [R|(n & f & g & v & F & G & V1 & A1)]; [lia|].
    destruct (nth_same chosen chosen' n f ltac:(lia) F) as (f' & F').
    destruct (Forall2_nth_both _ _ _ R' n f' f' F' F') as (v' & V2 & A2 & _). destruct (V n f g f' v v' F G F' V1 V2) as (-> & A). apply A1. now apply A.
  - right. auto.
Qed.

Lemma loop_seen d p p' bps : all_bytes d -> (forall buf, all_bytes buf -> zlen buf = 240 ->
    (exists h h', pk_unpack p buf = Ok h /\ pk_unpack p' buf = Ok h' /\ forall n, In n looked_at -> exists v, hdr_get h n = Ok v /\ hdr_get h' n = Ok v) \/
    (pk_unpack p buf = Err ValueError /\ pk_unpack p' buf = Err ValueError)) ->
  d <> [] -> forall fuel k pos b x log, catalog_loop fuel p bps (zlen d) k pos b (mk_world (mk_file d x) log) = catalog_loop fuel p' bps (zlen d) k pos b (mk_world (mk_file d x) log).
Proof.
  intros HB HP ND. assert (DL : 0 < zlen d) by (destruct d as [|d0 dr]; [congruence|rewrite zlen_cons; pose proof (zlen_nonneg dr); lia]).
  induction fuel as [|fuel IH]; intros k pos b x log; [reflexivity|].
  cbn [catalog_loop]. rewrite !report_ok by lia. cbn [w_file w_log].
  destruct (Z_lt_dec pos 0) as [NG|Hp].
  { apply wbind_same. intros u w'. unfold on_file, seek. destruct (pos <? 0) eqn:E; [discriminate|lia]. }
  apply wbind_same. intros u w' SK. assert (w' = mk_world (mk_file d pos) (log ++ [(3 * pos, 4 * zlen d)])) as ->.
  { unfold on_file, seek in SK. destruct (pos <? 0) eqn:E; [lia|]. cbn [w_file w_log f_data] in SK. congruence. }
  apply wbind_same. intros buf0 w' RD. unfold on_file, read in RD. cbn [w_file w_log f_data f_pos] in RD. injection RD as <- <-.
  set (buf := py_slice d pos (pos + TRACE_HEADER_NUM_BYTES)).
  assert (LB : zlen buf = Z.max 0 (Z.min (pos + 240) (zlen d) - pos)).
  { subst buf. unfold TRACE_HEADER_NUM_BYTES. rewrite zlen_py_slice by lia. reflexivity. }
  destruct (zlen buf <? TRACE_HEADER_NUM_BYTES) eqn:E; unfold TRACE_HEADER_NUM_BYTES in E; [reflexivity|].
  assert (BB : all_bytes buf) by now apply all_bytes_slice.
  destruct (HP buf BB ltac:(lia)) as [(h & h' & U & U' & G)|(U & U')]; rewrite U, U'; [|now rewrite !on_lift_err].
  rewrite !on_lift_ok.
  destruct (G "num_samples") as (ns & -> & ->); [cbn; tauto|]. destruct (G "inline_number") as (il & -> & ->); [cbn; tauto|].
  destruct (G "crossline_number") as (xl & -> & ->); [cbn; tauto|]. destruct (G "ensemble_num") as (en & -> & ->); [cbn; tauto|].
  rewrite !on_lift_ok. apply IH.
Qed.

Lemma catalog_seen bps d pos log : all_bytes d -> 0 <= pos -> 
  catalog_traces bps c e Callable (mk_world (mk_file d pos) log) = catalog_traces bps c' e Callable (mk_world (mk_file d pos) log).
Proof.
  intros HB Hp. destruct seen_packers as (sub & p & sub' & p' & E1 & E2 & E3 & E4 & HP). unfold catalog_traces, catalog_traces_fuel.
  rewrite E1, E3, !on_lift_ok, E2, E4, !on_lift_ok.
  apply wbind_same. intros n w' FL. rewrite (on_file_ok _ _ log _ _ (file_length_ok (mk_file d pos) Hp)) in FL. cbn [f_data] in FL. injection FL as <- <-.
  apply wbind_same. intros q w' TL. assert (q = pos /\ w' = mk_world (mk_file d pos) log) as (-> & ->) by (cbv in TL; split; congruence).
  destruct d as [|d0 dr] eqn:ED; [reflexivity|]. rewrite <- ED in *.
  unfold wbind at 1. symmetry. unfold wbind at 1. symmetry. cbn [w_file f_data]. rewrite (loop_seen d p p' bps HB HP ltac:(rewrite ED; discriminate)). reflexivity.
Qed.

Definition mapped {A B} (g : A -> B) (o : res A * world) : res B * world := (match fst o with Ok a => Ok (g a) | Err x => Err x end, snd o).
Lemma wbind_mapped {A B C} (g : B -> C) (m : wio A) (k : A -> wio C) (k' : A -> wio B) w :
  (forall a w', m w = (Ok a, w') -> k a w' = mapped g (k' a w')) -> wbind m k w = mapped g (wbind m k' w).
Proof. intros H. unfold wbind. destruct (m w) as [[a|x] w'] eqn:E; [now apply H|reflexivity]. Qed.

Lemma make_seen x bc dim d log : supported x -> binary_format bc -> all_bytes d -> 3600 <= zlen d ->
  make_reader (Some x) bc c e dim (mk_world (mk_file d 0) log) =
  mapped (reads_headers_with pk) (make_reader (Some x) bc c' e dim (mk_world (mk_file d 0) log)).
Proof.
  intros S B HB L. unfold make_reader. apply wbind_mapped. intros y w' E. cbv [wret] in E. injection E as <- <-.
  apply wbind_mapped. intros tx w' E.
  assert (L2 : 3200 <= zlen d) by lia. destruct (read_text_at x d S L2) as [(D & q & R)|(tx' & RT & R)]; rewrite (on_file_ok _ _ log _ _ R) in E; [discriminate|].
  injection E as <- <-. clear R. apply wbind_mapped. intros bin w' E.
  destruct (read_binary_at bc e d B HB L) as [(bin' & HO & R)|((n & BF) & R)]; rewrite (on_file_ok _ _ log _ _ R) in E; [|discriminate].
  injection E as <- <-. clear R. apply wbind_mapped. intros u w' E.
  rewrite (on_file_ok _ _ log _ _ (seek_ok REEL_HEADER_NUM_BYTES _ ltac:(discriminate))) in E. cbn [f_data] in E. injection E as _ <-.
  apply wbind_mapped. intros n w' E.
  assert (B' := B). destruct B' as (BF & FD & FN & FR). destruct (field_of_holds _ _ _ _ _ HO FN) as (n' & GN).
  unfold num_extended_textual_headers in E. rewrite GN in E. cbv [on_file lift] in E. cbn [w_file w_log] in E. injection E as <- <-.
  apply wbind_mapped. intros ext w' E. change REEL_HEADER_NUM_BYTES with 3600 in E.
  destruct (read_ext_total x d n' 3600 S) as (re & q & R & OE & QE). rewrite (on_file_ok _ _ log _ _ R) in E. injection E as -> <-.
  rewrite (QE ext eq_refl). clear QE q R OE.
  apply wbind_mapped. intros bps w' E. unfold on_file, lift in E. cbn [w_file w_log] in E. injection E as _ <-.
  unfold wbind at 1. symmetry. unfold mapped at 1. unfold wbind at 1 2. symmetry.
  rewrite (catalog_seen bps d (first_trace ext) log HB) by (unfold first_trace; pose proof (zlen_nonneg ext); lia).
  destruct (catalog_traces bps c' e Callable (mk_world (mk_file d (first_trace ext)) log)) as [[(((offsets, lengths), cdps), lines)|y] w1]; [|reflexivity].
  set (dm := match dim with Some d0 => d0 | None => _ end). destruct (negb ((1 <=? dm) && (dm <=? 3))); [reflexivity|].
  unfold reader_init. rewrite MK, MK'. cbn [bind]. destruct w1 as [f1 l1].
  destruct (extract_revision bin') as [rev|y]; [|reflexivity]. cbn [bind]. destruct (bytes_per_sample bin') as [b|y]; reflexivity.
Qed.

Lemma opened_seen a enc bc pr dim d log x : binary_format bc -> all_bytes d -> (forall y, enc = Some y -> supported y) -> encoding_used enc d x ->
  create_reader a enc bc c (Some e) pr dim (mk_world (mk_file d 0) log) =
  mapped (reads_headers_with pk) (create_reader a enc bc c' (Some e) pr dim (mk_world (mk_file d 0) log)).
Proof.
  intros B HB HE X. pose proof (guessed_supported enc d x HE X) as S. unfold create_reader.
  destruct (checks_cases a (Some e) pr dim (mk_file d 0) log ltac:(cbn; lia)) as [(e' & [= <-] & A & L & PR & D)|(y & E)].
  2:{ unfold wbind at 1. symmetry. unfold wbind at 1. rewrite E. reflexivity. }
  cbn [f_data] in L. apply wbind_mapped. intros e' w' E. rewrite (checks_pass a e pr dim d log A L PR D) in E. injection E as <- <-.
  unfold wbind. rewrite !(make_reader_enc _ _ _ _ _ _ _ _ X). rewrite (make_seen x bc dim d log S B HB L).
  destruct (make_reader (Some x) bc c' e dim (mk_world (mk_file d 0) log)) as [[r|y] w1]; reflexivity.
Qed.
End Seen.

(* ------------------------------------------------------------------ *)
(* such a second format *)
Definition ctype_lo (c : ctype) : Z := match c with C_i => - 2 ^ 31 | C_h => - 2 ^ 15 | C_b => - 2 ^ 7 | _ => 0 end.
Definition ctype_hi (c : ctype) : Z := match c with C_i => 2 ^ 31 | C_h => 2 ^ 15 | C_b => 2 ^ 7 | C_I => 2 ^ 32 | C_H => 2 ^ 16 | C_B => 2 ^ 8 end.
Lemma in_ctype_bounds c v : in_ctype c v <-> ctype_lo c <= v < ctype_hi c.
Proof. destruct c; cbn [in_ctype ctype_lo ctype_hi]; tauto. Qed.
Definition seen_type (f g : fieldd) : ftype :=
  let c := ft_ctype (fd_type g) in
  match ft_enum (fd_type f) with
  | Some members => mk_ftype (fd_name f) c 0 0 (Some (filter (fun v => (ctype_lo c <=? v) && (v <? ctype_hi c)) members))
  | None => mk_ftype (fd_name f) c (Z.max (ctype_lo c) (ft_min (fd_type f))) (Z.min (ctype_hi c - 1) (ft_max (fd_type f))) None
  end.
Lemma seen_type_ctype f g : ft_ctype (seen_type f g) = ft_ctype (fd_type g).
Proof. unfold seen_type. destruct (ft_enum (fd_type f)); reflexivity. Qed.
Lemma seen_type_name f g : ft_name (seen_type f g) = fd_name f.
Proof. unfold seen_type. destruct (ft_enum (fd_type f)); reflexivity. Qed.
Lemma seen_type_accepts f g v : accepts (seen_type f g) v <-> accepts (fd_type f) v /\ in_ctype (ft_ctype (fd_type g)) v.
Proof.
  rewrite in_ctype_bounds. unfold seen_type, accepts. destruct (ft_enum (fd_type f)) as [ms|]; cbn [ft_enum ft_min ft_max].
  - rewrite filter_In. intuition lia.
  - lia.
Qed.

Definition seen_field (f' f g : fieldd) : Prop :=
  fd_name f' = fd_name f /\ fd_offset f' = fd_offset g /\ fd_type f' = seen_type f g /\ accepts (fd_type f') (fd_default f').
Lemma seen_fields : forall chosen placed, length chosen = length placed ->
  (forall n f g, nth_error chosen n = Some f -> nth_error placed n = Some g -> exists v, in_ctype (ft_ctype (fd_type g)) v /\ accepts (fd_type f) v) ->
  exists fs, length fs = length chosen /\
    forall n f g f', nth_error chosen n = Some f -> nth_error placed n = Some g -> nth_error fs n = Some f' -> seen_field f' f g.
Proof.
  induction chosen as [|f chosen IH]; intros [|g placed] L H; try discriminate.
  - exists []. split; [reflexivity|]. now intros [|n].
  - destruct (IH placed) as (fs & LF & HF); [cbn in L; lia|intros n f0 g0 F G; exact (H (S n) f0 g0 F G)|].
    destruct (H 0%nat f g eq_refl eq_refl) as (v & I & A).
    exists (mk_field (fd_name f) (seen_type f g) (fd_offset g) v :: fs). split; [cbn; lia|].
    intros [|n] f0 g0 f' F G F'; cbn in F, G, F'; [|now apply (HF n)].
    injection F as <-. injection G as <-. injection F' as <-. unfold seen_field. cbn. rewrite seen_type_accepts. auto.
Qed.

Section Exists.
Variables (c : fmt) (chosen placed : list fieldd).
Hypothesis OK : format_ok c 240.
Hypothesis CH : chosen_as c looked_at chosen.
Hypothesis PL : placed_as chosen placed.
Hypothesis FIT : forall n f g, nth_error chosen n = Some f -> nth_error placed n = Some g -> exists v, in_ctype (ft_ctype (fd_type g)) v /\ accepts (fd_type f) v.
Hypothesis NN : forall f v, In f chosen -> fd_name f = "num_samples" -> accepts (fd_type f) v -> 0 <= v.

Lemma seen_exists : exists c', trace_format c' /\ seen_as c c'.
Proof.
  assert (LC : length chosen = length looked_at) by (destruct CH as (<- & _); now rewrite map_length).
  assert (LP : length chosen = length placed) by (destruct PL as (P & _); now apply Permutation_length).
  destruct (seen_fields chosen placed LP FIT) as (fs & LF & HF).
  set (c' := mk_fmt [("Seen", fs)] (fmt_start c) (Some 240) []).
  assert (IS : forall f, is_field c' f <-> In f fs).
  { intros f. unfold is_field. cbn [fmt_levels c']. split.
    - intros (ls1 & l & ls2 & E & I & _). destruct ls1 as [|l1 ls1]; cbn in E; [now injection E as <- _|]. injection E as _ E. destruct ls1; discriminate.
    - intros I. exists [], ("Seen", fs), []. split; [reflexivity|]. split; [exact I|]. intros l' g []. }
  assert (TRI : forall n f', nth_error fs n = Some f' -> exists f g, nth_error chosen n = Some f /\ nth_error placed n = Some g /\ seen_field f' f g).
  { intros n f' F'. destruct (nth_same fs chosen n f' LF F') as (f & F). destruct (nth_same fs placed n f' ltac:(lia) F') as (g & G). eauto 6. }
  assert (PF : forall g, In g placed -> is_field c g).
  { intros g I. apply (proj2 CH). destruct PL as (P & _). now apply (Permutation_in _ (Permutation_sym P)). }
  assert (NM : map fd_name fs = looked_at).
  { rewrite <- (proj1 CH). apply nth_ext with (d := EmptyString) (d' := EmptyString); [now rewrite !map_length|].
    intros n Hn. rewrite map_length in Hn. destruct (nth_error fs n) as [f'|] eqn:F'; [|apply nth_error_None in F'; lia].
    destruct (TRI n f' F') as (f & g & F & G & N & _).
    rewrite (nth_error_nth (map fd_name fs) n EmptyString (x := fd_name f')) by (now rewrite nth_error_map, F').
    rewrite (nth_error_nth (map fd_name chosen) n EmptyString (x := fd_name f)) by (now rewrite nth_error_map, F). exact N. }
  assert (ND : NoDup (map fd_name fs)).
  { rewrite NM. repeat constructor; cbn; intuition discriminate. }
  assert (UQ : forall f g, In f fs -> In g fs -> fd_name f = fd_name g -> f = g).
  { intros f g F G E. apply In_nth_error in F, G. destruct F as (n & F). destruct G as (m & G).
    assert (n = m); [|congruence]. rewrite NoDup_nth_error in ND. apply ND; [rewrite map_length; apply nth_error_Some; congruence|].
    rewrite !nth_error_map, F, G. cbn. now f_equal. }
  assert (SO : forall i j a b, (i < j)%nat -> nth_error fs i = Some a -> nth_error fs j = Some b -> fd_offset a < fd_offset b).
  { intros i j a b L E E'. destruct (TRI _ _ E) as (f1 & g1 & F1 & G1 & _ & O1 & _). destruct (TRI _ _ E') as (f2 & g2 & F2 & G2 & _ & O2 & _).
    destruct PL as (_ & SS). rewrite sorted_nth in SS. specialize (SS i j g1 g2 L G1 G2). cbn in SS. lia. }
  assert (PLACE : forall f', In f' fs -> exists f g, In f chosen /\ In g placed /\ seen_field f' f g).
  { intros f' I. apply In_nth_error in I. destruct I as (n & F'). destruct (TRI n f' F') as (f & g & F & G & H).
    exists f, g. split; [eapply nth_error_In; eauto|]. split; [eapply nth_error_In; eauto|exact H]. }
  assert (BF : forall i j n m, (i < j)%nat -> nth_error looked_at i = Some n -> nth_error looked_at j = Some m -> before c' n m).
  { intros i j n m L N M f g If Ig Nf Ng. apply IS in If, Ig. apply In_nth_error in If, Ig. destruct If as (i' & F). destruct Ig as (j' & G).
    rewrite <- NM, nth_error_map in N, M. destruct (nth_error fs i) as [fi|] eqn:FI; [|discriminate]. destruct (nth_error fs j) as [fj|] eqn:FJ; [|discriminate].
    cbn in N, M. injection N as N. injection M as M.
    assert (f = fi) as -> by (apply UQ; [eapply nth_error_In; eauto|eapply nth_error_In; eauto|congruence]).
    assert (g = fj) as -> by (apply UQ; [eapply nth_error_In; eauto|eapply nth_error_In; eauto|congruence]). exact (SO i j fi fj L FI FJ). }
  assert (HF' : forall n, In n looked_at -> has_field c' n).
  { intros n I. rewrite <- NM in I. apply in_map_iff in I. destruct I as (f & <- & I). exists f. split; [now apply IS|reflexivity]. }
  destruct OK as (K & TF & ST & CO & LEN & PK).
  assert (K' : class_ok c').
  { split; [|split].
    - intros l [<-|[]]. exact ND.
    - intros f I. apply IS, PLACE in I. destruct I as (f1 & g1 & _ & _ & H). apply H.
    - intros f g If Ig E. apply IS in If, Ig. f_equal. apply UQ; [assumption..|].
      destruct (PLACE f If) as (f1 & g1 & _ & _ & N1 & _ & T1 & _). destruct (PLACE g Ig) as (f2 & g2 & _ & _ & N2 & _ & T2 & _).
      rewrite T1, T2, !seen_type_name in E. congruence. }
  assert (FO : format_ok c' 240).
  { split; [exact K'|]. split; [|split; [|split; [|split; [reflexivity|]]]].
    - intros f v I A. apply IS in I. destruct (PLACE f I) as (f1 & g1 & _ & _ & _ & _ & T1 & _). rewrite T1 in A |- *. rewrite seen_type_ctype. now apply seen_type_accepts in A.
    - intros f I. apply IS, PLACE in I. destruct I as (f1 & g1 & _ & I & _ & O & _). rewrite O. exact (ST g1 (PF g1 I)).
    - right. intros ns1 n1 ns2 n2 ns3 f1 f2 E I1 N1 I2 N2. cbn [c' fmt_levels flat_map snd] in E. rewrite app_nil_r, NM in E.
      apply (BF (length ns1) (length (ns1 ++ n1 :: ns2)) n1 n2); try assumption.
      + rewrite app_length. cbn. lia.
      + rewrite E, nth_error_app2, Nat.sub_diag by lia. reflexivity.
      + rewrite E. change (n1 :: ns2 ++ n2 :: ns3) with ((n1 :: ns2) ++ n2 :: ns3). rewrite app_assoc, nth_error_app2, Nat.sub_diag by lia. reflexivity.
    - intros e. destruct (PK e) as (p & M).
      destruct (compile_iff c' (fmt_start c') (fmt_length c') (class_ok_levels _ K')) as (_ & _ & C').
      destruct (compile_iff c (fmt_start c) (fmt_length c) (class_ok_levels _ K)) as (_ & _ & Cp).
      assert (P : exists r, compile_struct c (fmt_start c) (fmt_length c) = Ok r).
      { unfold make_header_packer in M. destruct (compile_struct c _ _); [eauto|discriminate]. }
      apply Cp in P. destruct P as (P1 & P2). destruct (proj2 C') as (r & E).
      + assert (SZ : forall f' f g, seen_field f' f g -> fd_offset f' = fd_offset g /\ field_size f' = field_size g).
        { intros f' f g (_ & O & T & _). split; [exact O|]. unfold field_size. now rewrite T, seen_type_ctype. }
        split.
        * intros [A|[A|[(f & g & A & B & D)|(m & f & A & B & D)]]]; apply P1; unfold layout_invalid.
          -- left. exact A.
          -- right. left. rewrite LEN. exact A.
          -- right. right. left. apply IS, PLACE in A, B. destruct A as (f1 & g1 & _ & I1 & H1). destruct B as (f2 & g2 & _ & I2 & H2).
             apply SZ in H1, H2. exists g1, g2. split; [now apply PF|]. split; [now apply PF|]. unfold partial_overlap in *. destruct H1 as (O1 & Z1), H2 as (O2 & Z2).
             rewrite O1, O2, Z1, Z2 in D. exact D.
          -- right. right. right. apply IS, PLACE in B. destruct B as (f1 & g1 & _ & I1 & H1). apply SZ in H1. destruct H1 as (O1 & Z1).
             exists m, g1. split; [rewrite LEN; exact A|]. split; [now apply PF|]. rewrite O1, Z1 in D. exact D.
        * intros [A|(f & g & A & B & D1 & D2)].
          -- destruct (HF' "num_samples") as (f & F & _); [cbn; tauto|]. exact (A f F).
          -- apply IS in A, B. apply D2. f_equal. f_equal. apply In_nth_error in A, B. destruct A as (i & A). destruct B as (j & B).
             destruct (lt_eq_lt_dec i j) as [[L| ->]|L]; [pose proof (SO i j f g L A B); lia|congruence|pose proof (SO j i g f L B A); lia].
      + unfold make_header_packer. rewrite E. destruct r. cbn [bind]. eauto. }
  exists c'. split.
  - split; [exact FO|]. do 5 (split; [apply HF'; cbn; tauto|]).
    split; [apply (BF 0%nat 1%nat); [lia|reflexivity..]|]. split; [apply (BF 0%nat 2%nat); [lia|reflexivity..]|].
    split; [apply (BF 0%nat 3%nat); [lia|reflexivity..]|]. split; [apply (BF 0%nat 4%nat); [lia|reflexivity..]|].
    split; [apply (BF 1%nat 2%nat); [lia|reflexivity..]|]. split; [apply (BF 1%nat 3%nat); [lia|reflexivity..]|].
    split; [apply (BF 1%nat 4%nat); [lia|reflexivity..]|]. split; [apply (BF 2%nat 3%nat); [lia|reflexivity..]|].
    split; [apply (BF 2%nat 4%nat); [lia|reflexivity..]|]. split; [apply (BF 3%nat 4%nat); [lia|reflexivity..]|].
    intros f v I N A. apply IS in I. destruct (PLACE f I) as (f1 & g1 & I1 & _ & N1 & _ & T1 & _).
    rewrite T1 in A. apply seen_type_accepts in A. apply (NN f1 v I1); [congruence|tauto].
  - exists chosen, placed, fs. split; [exact CH|]. split; [exact PL|]. split; [split; [exact NM|intros f I; now apply IS]|].
    intros n f g f' F G F'. destruct (HF n f g f' F G F') as (N & O & T & _).
    split; [unfold field_pos; cbn [fmt_start c']; now rewrite O|]. rewrite T. split; [apply seen_type_ctype|]. intros v I. rewrite seen_type_accepts. tauto.
Qed.
End Exists.
