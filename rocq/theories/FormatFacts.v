(* The shipped formats satisfy the hypotheses of the general theorems. *)
From Coq Require Import String ZArith List Bool Lia ZifyBool ZifyNat Sorted.
From Verif Require Import Py Util Packing Formats PyFacts Spec_Packing Spec_Standard PackFacts CompileFacts HeaderFacts PackingFacts.
Import ListNotations.
Open Scope Z_scope.

Definition ctype_eqb (a b : ctype) : bool :=
  match a, b with C_i, C_i | C_I, C_I | C_h, C_h | C_H, C_H | C_b, C_b | C_B, C_B => true | _, _ => false end.
Fixpoint zlist_eqb (a b : list Z) : bool :=
  match a, b with [], [] => true | x :: a, y :: b => (x =? y) && zlist_eqb a b | _, _ => false end.
Definition enum_eqb (a b : option (list Z)) : bool :=
  match a, b with None, None => true | Some x, Some y => zlist_eqb x y | _, _ => false end.
Definition ftype_eqb (a b : ftype) : bool :=
  String.eqb (ft_name a) (ft_name b) && ctype_eqb (ft_ctype a) (ft_ctype b) &&
  (ft_min a =? ft_min b) && (ft_max a =? ft_max b) && enum_eqb (ft_enum a) (ft_enum b).

Lemma zlist_eqb_eq a : forall b, zlist_eqb a b = true -> a = b.
Proof. induction a as [|x a IH]; intros [|y b]; cbn; try easy. intros H. apply andb_true_iff in H. destruct H as (A & B). f_equal; [lia|auto]. Qed.
Lemma ftype_eqb_eq a b : ftype_eqb a b = true -> a = b.
Proof.
  destruct a as [n c lo hi e], b as [n' c' lo' hi' e']. unfold ftype_eqb. cbn. rewrite !andb_true_iff.
  intros ((((A & B) & C) & D) & E). apply String.eqb_eq in A. subst n'. assert (c' = c) as -> by (destruct c, c'; easy).
  assert (lo' = lo) as -> by lia. assert (hi' = hi) as -> by lia. f_equal.
  destruct e as [x|], e' as [y|]; cbn in E; try easy. f_equal. now apply zlist_eqb_eq.
Qed.

Fixpoint nodupb (l : list string) : bool :=
  match l with [] => true | x :: l => negb (smem x l) && nodupb l end.
Lemma nodupb_NoDup l : nodupb l = true -> NoDup l.
Proof.
  induction l as [|x l IH]; cbn; [constructor|]. intros H. apply andb_true_iff in H. destruct H as (A & B).
  constructor; auto. intros I. apply smem_In in I. rewrite I in A. discriminate.
Qed.

(* all types of a class, each once *)
Definition class_types (c : fmt) : list ftype :=
  fold_right (fun f ts => if existsb (ftype_eqb (fd_type f)) ts then ts else fd_type f :: ts) [] (class_fields c).
Lemma class_types_In c f : In f (class_fields c) -> In (fd_type f) (class_types c).
Proof.
  unfold class_types. induction (class_fields c) as [|g l IH]; [easy|]. intros H. cbn [fold_right].
  destruct (existsb _ _) eqn:E.
  - destruct H as [->|H]; auto. apply existsb_exists in E. destruct E as (t & I & E). apply ftype_eqb_eq in E. now rewrite E.
  - destruct H as [->|H]; [now left|right; auto].
Qed.

Definition acceptsb (t : ftype) (v : Z) : bool :=
  match ft_enum t with Some ms => zmem v ms | None => (ft_min t <=? v) && (v <=? ft_max t) end.
Definition fitsb (t : ftype) : bool :=
  match ft_enum t with
  | Some ms => forallb (fun v => (ctype_lo (ft_ctype t) <=? v) && (v <=? ctype_hi (ft_ctype t))) ms
  | None => (ctype_lo (ft_ctype t) <=? ft_min t) && (ft_max t <=? ctype_hi (ft_ctype t))
  end.
Fixpoint increasingb (l : list Z) : bool :=
  match l with [] => true | x :: l => match l with [] => true | y :: _ => x <? y end && increasingb l end.

Definition fmt_checks (c : fmt) : bool :=
  forallb (fun l => nodupb (map fd_name (snd l))) (fmt_levels c) &&
  forallb (fun f => acceptsb (fd_type f) (fd_default f)) (class_fields c) &&
  nodupb (map ft_name (class_types c)) &&
  forallb fitsb (class_types c) &&
  forallb (fun f => fmt_start c <=? fd_offset f) (class_fields c) &&
  increasingb (map fd_offset (class_fields c)).

Lemma acceptsb_spec t v : acceptsb t v = true <-> accepts t v.
Proof.
  unfold acceptsb, accepts. destruct (ft_enum t) as [ms|]; [apply zmem_In|]. rewrite andb_true_iff. lia.
Qed.
Lemma fitsb_spec t v : fitsb t = true -> accepts t v -> in_ctype (ft_ctype t) v.
Proof.
  unfold fitsb, accepts. intros H A. apply ctype_range_spec. destruct (ft_enum t) as [ms|].
  - rewrite forallb_forall in H. specialize (H v A). lia.
  - lia.
Qed.
Lemma increasingb_sorted l : increasingb l = true -> StronglySorted Z.lt l.
Proof.
  intros H. apply Sorted_StronglySorted; [intros x y z; lia|]. induction l as [|x l IH]; constructor.
  - apply IH. cbn in H. now apply andb_true_iff in H.
  - destruct l as [|y l]; constructor. cbn in H. apply andb_true_iff in H. lia.
Qed.

Lemma sorted_declared c : levels_ok c -> StronglySorted Z.lt (map fd_offset (class_fields c)) -> declared_in_order c.
Proof.
  intros K S ns1 n1 ns2 n2 ns3 f1 f2 E F1 E1 F2 E2.
  change (flat_map _ (fmt_levels c)) with (ordered_field_names c) in E. rewrite <- class_fields_names in E.
  apply map_app_inv in E. destruct E as (l1 & m1 & E & _ & Q). destruct m1 as [|x m1]; [discriminate|]. cbn in Q.
  injection Q as Q1 Q. apply map_app_inv in Q. destruct Q as (l2 & m2 & -> & _ & Q). destruct m2 as [|y l3]; [discriminate|].
  cbn in Q. injection Q as Q2 _.
  assert (F : forall f, In f (class_fields c) -> is_field c f) by (intros; now apply class_fields_In).
  assert (x = f1).
  { apply (is_field_name c); auto; [|congruence]. apply F. rewrite E. apply in_or_app. right. now left. }
  assert (y = f2).
  { apply (is_field_name c); auto; [|congruence]. apply F. rewrite E. apply in_or_app. right. right. apply in_or_app. right. now left. }
  subst x y. rewrite E, map_app, map_cons, map_app, map_cons in S.
  apply StronglySorted_app_inv in S. destruct S as (_ & S & _). apply StronglySorted_inv in S. destruct S as (_ & S).
  rewrite Forall_forall in S. apply S. apply in_or_app. right. now left.
Qed.

Lemma fmt_checks_ok c : fmt_checks c = true -> class_ok c /\ types_fit c /\ starts_ok c /\ declared_in_order c.
Proof.
  unfold fmt_checks. rewrite !andb_true_iff. intros (((((A & B) & C) & D) & E) & F).
  assert (K : levels_ok c).
  { intros l Hl. rewrite forallb_forall in A. apply nodupb_NoDup. now apply A. }
  assert (FI : forall f, is_field c f -> In f (class_fields c)) by (intros; now apply class_fields_In).
  rewrite forallb_forall in B, D, E. split; [|split; [|split]].
  - split; [exact K|]. split.
    + intros f Hf. apply acceptsb_spec. apply B. auto.
    + intros f g Hf Hg N. apply nodupb_NoDup in C. apply (NoDup_map_inj ft_name (class_types c)); auto using class_types_In.
  - intros f v Hf. apply fitsb_spec. apply D. auto using class_types_In.
  - intros f Hf. specialize (E f (FI f Hf)). lia.
  - apply sorted_declared; auto. now apply increasingb_sorted.
Qed.

Lemma shipped_ok c : In c shipped -> class_ok c /\ types_fit c /\ starts_ok c /\ declared_in_order c.
Proof. intros [<-|[<-|[<-|[]]]]; apply fmt_checks_ok; vm_compute; reflexivity. Qed.

Lemma shipped_packer c e : In c shipped -> exists p, make_header_packer c e = Ok p.
Proof. intros [<-|[<-|[<-|[]]]]; destruct e; eexists; vm_compute; reflexivity. Qed.

Definition entry (f : fieldd) : string * Z * Z := (fd_name f, fd_offset f, fd_offset f + size_of (fd_type f) - 1).

Lemma binary_table : map entry (class_fields BinaryReelHeader) = standard_binary_header.
Proof. vm_compute. reflexivity. Qed.
Lemma rev0_table : map entry (class_fields TraceHeaderRev0) = standard_trace_header_rev0.
Proof. vm_compute. reflexivity. Qed.
Lemma rev1_table : map entry (class_fields TraceHeaderRev1) =
  map (fun t => if String.eqb (fst (fst t)) "source_energy_direction"%string then (fst (fst t), snd (fst t), 222) else t)
    (standard_trace_header_rev0 ++ standard_trace_header_rev1_extension).
Proof. vm_compute. reflexivity. Qed.

Lemma shipped_round_trip c e : In c shipped -> exists p, make_header_packer c e = Ok p /\
  forall h, h_cls h = c -> header_ok h -> exists buf h', pk_pack p h = Ok buf /\ pk_unpack p buf = Ok h' /\ same_fields h h'.
Proof.
  intros Hc. destruct (shipped_packer c e Hc) as (p & M). destruct (shipped_ok c Hc) as (K & T & S & D).
  exists p. split; auto. intros h E H.
  destruct (pack_total c e p h K S T M E H) as [(buf & P & _)|(_ & f & g & Hf & Hg & O & N)].
  - destruct (round_trip c e p h K S T (or_intror D) M E H buf P) as (h' & U & Q). eauto.
  - exfalso. apply N. f_equal. f_equal. now apply (declared_no_coincident c K D).
Qed.

Lemma shipped_repack c e p buf h : In c shipped -> make_header_packer c e = Ok p -> all_bytes buf -> pk_unpack p buf = Ok h ->
  exists buf', pk_pack p h = Ok buf' /\ zlen buf' = zlen buf /\
    (forall i, covered c i -> byte_at buf' i = byte_at buf i) /\
    (forall i, 0 <= i < zlen buf -> ~ covered c i -> byte_at buf' i = 0) /\
    (buf' = buf <-> forall i, 0 <= i < zlen buf -> ~ covered c i -> byte_at buf i = 0).
Proof.
  intros Hc M B U. destruct (shipped_ok c Hc) as (K & T & S & D).
  destruct (repack c e p buf h K S T (or_intror D) M B U) as (buf' & P & L & C1 & C2). exists buf'.
  split; auto. split; auto. split; auto. split; auto. apply (repack_same c); auto.
  intros i _. apply covered_dec. now apply class_ok_levels.
Qed.

Lemma entry_In c t : class_ok c -> map entry (class_fields c) = t ->
  (forall f, is_field c f -> In (fd_name f, fd_offset f, fd_offset f + field_size f - 1) t) /\
  (forall n a b, In (n, a, b) t -> exists f, is_field c f /\ fd_name f = n /\ fd_offset f = a /\ fd_offset f + field_size f - 1 = b).
Proof.
  intros K <-. split.
  - intros f Hf. apply (class_fields_In c f (class_ok_levels _ K)) in Hf. rewrite <- size_of_field. exact (in_map entry _ f Hf).
  - intros n a b H. apply in_map_iff in H. destruct H as (f & E & Hf). apply (class_fields_In c f (class_ok_levels _ K)) in Hf.
    unfold entry in E. rewrite size_of_field in E. apply pair_equal_spec in E. destruct E as (E & E3). apply pair_equal_spec in E.
    destruct E as (E1 & E2). exists f. auto.
Qed.

Lemma shipped_layout c : In c shipped ->
  (forall f g, is_field c f -> is_field c g -> f <> g ->
     fd_offset f + field_size f <= fd_offset g \/ fd_offset g + field_size g <= fd_offset f) /\
  (forall f, is_field c f -> 0 <= field_pos c f /\ header_length c (if String.eqb (fmt_name c) "BinaryReelHeader"%string then 400 else 240) /\
     field_pos c f + field_size f <= (if String.eqb (fmt_name c) "BinaryReelHeader"%string then 400 else 240)) /\
  declared_in_order c /\ (forall f, is_field c f -> accepts (fd_type f) (fd_default f)).
Proof.
  intros Hc. destruct (shipped_ok c Hc) as (K & T & S & D). destruct (shipped_packer c Big Hc) as (p & M).
  destruct (make_packer_ok _ _ _ M) as (d & len & _ & C & LB & TB).
  assert (FI : forall f, In f (class_fields c) <-> is_field c f) by (intros; apply class_fields_In; auto using class_ok_levels).
  split; [|split; [|split; [exact D|apply K]]].
  - intros f g Hf Hg N. destruct C as (_ & _ & SR & _).
    assert (Hf' : In f (sort_by off_leb (class_fields c))) by (apply sort_by_In; now apply FI).
    assert (Hg' : In g (sort_by off_leb (class_fields c))) by (apply sort_by_In; now apply FI).
    destruct (strong_pairs _ _ _ _ SR Hf' Hg') as [?|[[(O & _)|?]|[(O & _)|?]]]; auto; try easy; exfalso; apply N.
    + now apply (declared_no_coincident c K D).
    + symmetry. now apply (declared_no_coincident c K D).
  - intros f Hf. split; [specialize (S f Hf); unfold field_pos; lia|].
    assert (L : fmt_length c = Some (if String.eqb (fmt_name c) "BinaryReelHeader"%string then 400 else 240)).
    { clear -Hc. destruct Hc as [<-|[<-|[<-|[]]]]; reflexivity. }
    unfold header_length. rewrite L. split; auto.
    destruct C as (_ & _ & _ & Q & E). rewrite L in E. rewrite <- E. unfold field_pos. apply Q. now apply FI.
Qed.

(* --- witnesses --- *)
Local Open Scope string_scope.
Open Scope list_scope.
Definition swapped : fmt := mk_fmt [("Swapped", [mk_field "b" Int16 3 0; mk_field "a" Int16 1 0])] 1 (Some 4) header_attrs.
Definition early : fmt := mk_fmt [("Early", [mk_field "a" Int16 1 0; mk_field "b" Int16 5 0])] 3 (Some 4) header_attrs.
Definition shared : fmt := mk_fmt [("Shared", [mk_field "z" Int32 5 0; mk_field "x" Int16 1 0; mk_field "y" Int16 1 0])] 1 (Some 12) header_attrs.

Definition run_swapped : res (res Z * res Z) :=
  do p <- make_header_packer swapped Big ;;
  do h <- hdr_init swapped [] [("a", 1); ("b", 2)] ;;
  do buf <- pk_pack p h ;; do h' <- pk_unpack p buf ;; Ok (hdr_get h' "a", hdr_get h' "b").

Lemma swapped_class : class_ok swapped /\ types_fit swapped /\ starts_ok swapped.
Proof.
  assert (FI : forall f, is_field swapped f -> f = mk_field "b" Int16 3 0 \/ f = mk_field "a" Int16 1 0).
  { intros f Hf. apply class_fields_In in Hf.
    - destruct Hf as [<-|[<-|[]]]; auto.
    - intros l [<-|[]]. apply nodupb_NoDup. reflexivity. }
  split; [split; [|split]|split].
  - intros l [<-|[]]. apply nodupb_NoDup. reflexivity.
  - intros f Hf. destruct (FI f Hf) as [->| ->]; cbn; lia.
  - intros f g Hf Hg _. destruct (FI f Hf) as [->| ->], (FI g Hg) as [->| ->]; reflexivity.
  - intros f v Hf. destruct (FI f Hf) as [->| ->]; cbn; lia.
  - intros f Hf. destruct (FI f Hf) as [->| ->]; cbn; lia.
Qed.

Lemma class_header_ok c kws h : class_ok c -> NoDup (map fst kws) -> kw_fields_ok c kws -> hdr_init c [] kws = Ok h -> h_cls h = c /\ header_ok h.
Proof.
  intros K N W E. destruct (construct_ok c kws K N W) as (h' & E' & Hc & G). rewrite E in E'. injection E' as <-. split; auto.
  unfold header_ok. rewrite Hc. intros f Hf. destruct (G f Hf) as (G1 & G2).
  destruct (assoc (fd_name f) kws) as [v|] eqn:A.
  - apply assoc_In in A. exists v. split; auto. destruct (W _ _ A) as (g & Hg & En & AC).
    replace f with g; auto. apply (is_field_name c); auto using class_ok_levels.
  - apply assoc_None in A. exists (fd_default f). split; auto. now apply K.
Qed.

Lemma unpack_err_iff c e p buf : class_ok c -> starts_ok c -> has_coincident c \/ declared_in_order c ->
  make_header_packer c e = Ok p -> all_bytes buf ->
  (pk_unpack p buf = Err ValueError <->
     ~ header_length c (zlen buf) \/
     exists f v, is_field c f /\ in_ctype (ft_ctype (fd_type f)) v /\ stored_at e buf (field_pos c f) (field_size f) v /\
        ~ accepts (fd_type f) v) /\
  (pk_unpack p buf = Err ValueError \/ exists h, pk_unpack p buf = Ok h /\ holds_buffer c e buf h).
Proof.
  intros K S O M B. destruct (unpack_iff c e p buf K S O M B) as [(h & E & HL & HB)|(E & R)]; rewrite E; split; eauto.
  - split; [discriminate|]. intros [N|(f & v & Hf & IC & SA & N)]; [easy|]. exfalso. apply N. eapply unpack_exclusive; eauto.
  - split; auto.
Qed.

Lemma set_positional_cls names : forall h args h', set_positional h names args = Ok h' -> h_cls h' = h_cls h.
Proof.
  induction names as [|n names IH]; intros h [|v args] h'; cbn [set_positional]; try (now injection 1 as <-).
  destruct (hdr_set h n v) as [h1|] eqn:E; cbn [bind]; [|discriminate]. intros H. apply IH in H. apply hdr_set_cls in E. congruence.
Qed.
Lemma set_keywords_cls kws : forall h h', set_keywords h kws = Ok h' -> h_cls h' = h_cls h.
Proof.
  induction kws as [|[n v] kws IH]; intros h h'; cbn [set_keywords]; [now injection 1 as <-|].
  destruct (has_attr h n); [|discriminate].
  destruct (hdr_set h n v) as [h1|] eqn:E; cbn [bind]; [|discriminate]. intros H. apply IH in H. apply hdr_set_cls in E. congruence.
Qed.
Lemma hdr_init_cls c args kws h : hdr_init c args kws = Ok h -> h_cls h = c.
Proof.
  unfold hdr_init. destruct (set_positional _ _ _) as [h1|] eqn:E; cbn [bind]; [|discriminate].
  intros H. apply set_keywords_cls in H. apply set_positional_cls in E. now rewrite H, E.
Qed.

Lemma swapped_fails : class_ok swapped /\ types_fit swapped /\ starts_ok swapped /\ ~ round_trips swapped.
Proof.
  destruct swapped_class as (K & T & S). split; auto. split; auto. split; auto. intros R.
  assert (Q : exists p h buf h', make_header_packer swapped Big = Ok p /\ hdr_init swapped [] [("a", 1); ("b", 2)] = Ok h /\
    pk_pack p h = Ok buf /\ pk_unpack p buf = Ok h' /\ hdr_get h "a" = Ok 1 /\ hdr_get h' "a" = Ok 2).
  { do 4 eexists. repeat split; vm_compute; reflexivity. }
  destruct Q as (p & h & buf & h' & E1 & E2 & E3 & E4 & G1 & G2).
  assert (FA : is_field swapped (mk_field "a" Int16 1 0)).
  { apply class_fields_In; [now apply class_ok_levels|]. right. now left. }
  assert (FB : is_field swapped (mk_field "b" Int16 3 0)).
  { apply class_fields_In; [now apply class_ok_levels|]. now left. }
  destruct (class_header_ok swapped [("a", 1); ("b", 2)] h) as (Hc & HO); auto.
  { repeat constructor; cbn; intuition discriminate. }
  { intros n v [Q|[Q|[]]]; injection Q as <- <-.
    - exists (mk_field "a" Int16 1 0). split; [exact FA|]. split; [reflexivity|]. cbn; lia.
    - exists (mk_field "b" Int16 3 0). split; [exact FB|]. split; [reflexivity|]. cbn; lia. }
  destruct (R Big p h buf E1 Hc HO E3) as (h'' & E5 & (_ & F)). rewrite E4 in E5. injection E5 as <-.
  rewrite Hc in F. specialize (F _ FA). cbn [fd_name] in F. rewrite G1, G2 in F. discriminate.
Qed.

Lemma rev1_pickle_fails : ~ pickles TraceHeaderRev1.
Proof.
  intros R. destruct (shipped_ok TraceHeaderRev1) as (K & _); [right; right; now left|].
  assert (Q : exists h h', hdr_init TraceHeaderRev1 [] [("trace_num", 7)] = Ok h /\
    hdr_pickle h = Ok h' /\ hdr_get h "trace_num" = Ok 7 /\ hdr_get h' "trace_num" = Ok 0).
  { do 2 eexists. do 3 (split; [vm_compute; reflexivity|]). vm_compute. reflexivity. }
  destruct Q as (h & h' & E1 & E2 & G1 & G2).
  assert (FA : is_field TraceHeaderRev1 (mk_field "trace_num" Int32 13 0)).
  { apply class_field_spec with (n := "trace_num"); [now apply class_ok_levels|]. vm_compute. reflexivity. }
  destruct (class_header_ok TraceHeaderRev1 [("trace_num", 7)] h) as (Hc & HO); auto.
  { repeat constructor; cbn; intuition discriminate. }
  { intros n v [Q|[]]; injection Q as <- <-; eexists; (split; [eassumption|]; split; [reflexivity|]); cbn; lia. }
  destruct (R h Hc HO) as (h'' & E5 & (_ & F)). rewrite E2 in E5. injection E5 as <-.
  rewrite Hc in F. specialize (F _ FA). cbn [fd_name] in F. rewrite G1, G2 in F. discriminate.
Qed.

Lemma single_pickles c : class_ok c -> (exists l, fmt_levels c = [l]) -> pickles c.
Proof.
  intros K (l & El) h Hc HO. subst c. destruct (pickle_own h K HO) as (h' & E & Hc & A & _); [rewrite El; discriminate|].
  exists h'. split; auto. split; auto. intros f Hf. apply A; auto. exists [], l. split; auto.
  destruct Hf as (ls1 & l' & ls2 & E' & I & _). rewrite El in E'. destruct ls1 as [|? ls1]; cbn in E'; injection E'; [intros _ <-; exact I|].
  intros Q. destruct ls1; discriminate.
Qed.

Lemma sub_format_order_fails : ~ sub_format_agrees TraceHeaderRev0 ["trace_num"; "line_sequence_num"].
Proof.
  intros R.
  assert (Q : exists sub p h0 buf h q h', sub_format "Sub" TraceHeaderRev0 ["trace_num"; "line_sequence_num"] = Ok sub /\
     make_header_packer TraceHeaderRev0 Big = Ok p /\ hdr_init TraceHeaderRev0 [] [("trace_num", 7); ("line_sequence_num", 3)] = Ok h0 /\
     pk_pack p h0 = Ok buf /\ pk_unpack p buf = Ok h /\ make_header_packer sub Big = Ok q /\ pk_unpack q buf = Ok h' /\
     hdr_get h "trace_num" = Ok 7 /\ hdr_get h' "trace_num" = Ok 3).
  { do 7 eexists. do 8 (split; [vm_compute; reflexivity|]). vm_compute. reflexivity. }
  destruct Q as (sub & p & h0 & buf & h & q & h' & E1 & E2 & E3 & E4 & E5 & E6 & E7 & G1 & G2).
  destruct (shipped_ok TraceHeaderRev0) as (K & T & S & D); [right; now left|].
  assert (B : all_bytes buf).
  { assert (Hc : h_cls h0 = TraceHeaderRev0).
    { exact (hdr_init_cls _ _ _ _ E3). }
    destruct (pack_layout TraceHeaderRev0 Big p h0 buf K S E2 Hc E4) as (_ & B & _). exact B. }
  destruct (R "Sub" Big p buf h sub E1 E2 B E5) as (q' & h'' & Eq & Eh & F).
  rewrite E6 in Eq. injection Eq as <-. rewrite E7 in Eh. injection Eh as <-.
  specialize (F "trace_num" (or_introl eq_refl)). rewrite G1, G2 in F. discriminate.
Qed.

(* names listed in the order in which a shipped format declares them *)
Lemma sub_in_order parent names name sub : levels_ok parent ->
  (forall n, In n names -> exists f, is_field parent f /\ fd_name f = n) ->
  (forall f g ns1 ns2 ns3, names = ns1 ++ fd_name f :: ns2 ++ fd_name g :: ns3 -> is_field parent f -> is_field parent g ->
     fd_offset f < fd_offset g) ->
  sub_format name parent names = Ok sub -> declared_in_order sub.
Proof.
  intros K HN HO SF.
  assert (ND : NoDup names).
  { clear SF. induction names as [|n names IH]; constructor.
    - intros I. apply in_split in I. destruct I as (l1 & l2 & ->). destruct (HN n (or_introl eq_refl)) as (f & Hf & <-).
      specialize (HO f f [] l1 l2 eq_refl Hf Hf). lia.
    - apply IH; [intros; apply HN; now right|]. intros f g ns1 ns2 ns3 ->. apply (HO f g (n :: ns1) ns2 ns3). reflexivity. }
  assert (SN : forall names acc fs, NoDup names -> (forall n, In n names -> ~ In n (map fd_name acc)) ->
     sub_fields parent names acc = Ok fs -> map fd_name fs = map fd_name acc ++ names).
  { clear - K. induction names as [|n names IH]; intros acc fs N D E; cbn [sub_fields] in E.
    - injection E as <-. now rewrite app_nil_r.
    - destruct (class_field parent n) as [f|] eqn:CF; [|discriminate].
      apply class_field_spec in CF; auto. destruct CF as (_ & En). inversion N as [|? ? N1 N2]; subst.
      destruct (smem (fd_name f) (map fd_name acc)) eqn:Q; [apply smem_In in Q; exfalso; apply (D (fd_name f)); auto; now left|].
      apply IH in E; auto.
      + rewrite E, map_app, <- app_assoc. reflexivity.
      + intros m Hm I. rewrite map_app in I. apply in_app_or in I. destruct I as [I|[<-|[]]].
        * apply (D m); auto. now right.
        * auto. }
  unfold sub_format in SF. destruct (sub_fields parent names []) as [fs|] eqn:E; [|discriminate]. cbn [bind] in SF. injection SF as <-.
  specialize (SN names [] fs ND ltac:(intros ? ? []) E). cbn [map app] in SN.
  assert (SF : sub_format name parent names = Ok (mk_fmt [(name, fs)] (fmt_start parent) (fmt_length parent) (fmt_attrs parent))).
  { unfold sub_format. now rewrite E. }
  destruct (sub_format_ok name parent names K HN) as (sub & fs' & E' & _ & _ & (_ & _ & F3)). rewrite SF in E'. injection E' as <-.
  intros ns1 n1 ns2 n2 ns3 f1 f2 Q F1 E1 F2 E2. cbn [fmt_levels flat_map snd] in Q. rewrite app_nil_r, SN in Q. subst n1 n2.
  apply F3 in F1, F2. apply (HO f1 f2 ns1 ns2 ns3); tauto.
Qed.

Lemma sub_format_in_order parent names n : class_ok parent -> starts_ok parent ->
  has_coincident parent \/ declared_in_order parent -> fmt_length parent = Some n -> names <> [] ->
  (forall n, In n names -> exists f, is_field parent f /\ fd_name f = n) ->
  (forall f g ns1 ns2 ns3, names = ns1 ++ fd_name f :: ns2 ++ fd_name g :: ns3 -> is_field parent f -> is_field parent g ->
     fd_offset f < fd_offset g) ->
  sub_format_agrees parent names.
Proof.
  intros K S O L NE HN HO name e p buf h sub SF M B U.
  eapply (sub_agrees name parent names e p n buf h sub); eauto.
  right. eapply sub_in_order; eauto using class_ok_levels.
Qed.

(* fields before the start offset *)
Lemma early_accepted : class_ok early /\ types_fit early /\
  (exists f, is_field early f /\ fd_offset f < fmt_start early) /\
  exists p h buf, make_header_packer early Big = Ok p /\ hdr_init early [] [] = Ok h /\ pk_pack p h = Ok buf /\
    fmt_length early = Some 4 /\ zlen buf = 6.
Proof.
  assert (LK : levels_ok early) by (intros l [<-|[]]; apply nodupb_NoDup; reflexivity).
  assert (FI : forall f, is_field early f -> f = mk_field "a" Int16 1 0 \/ f = mk_field "b" Int16 5 0).
  { intros f Hf. apply class_fields_In in Hf; auto. destruct Hf as [<-|[<-|[]]]; auto. }
  split; [split; [exact LK|split]|split; [|split]].
  - intros f Hf. destruct (FI f Hf) as [->| ->]; cbn; lia.
  - intros f g Hf Hg _. destruct (FI f Hf) as [->| ->], (FI g Hg) as [->| ->]; reflexivity.
  - intros f v Hf. destruct (FI f Hf) as [->| ->]; cbn; lia.
  - exists (mk_field "a" Int16 1 0). split; [|cbn; lia]. apply class_fields_In; auto. now left.
  - do 3 eexists. repeat split; vm_compute; reflexivity.
Qed.

(* constructor arguments that name no field *)
Lemma constructor_lenient :
  (exists h, hdr_init swapped [] [("copy", 5)] = Ok h) /\ (exists h, hdr_init swapped [1; 2; 3] [] = Ok h) /\
  (forall f, is_field swapped f -> fd_name f <> "copy").
Proof.
  split; [eexists; vm_compute; reflexivity|]. split; [eexists; vm_compute; reflexivity|].
  intros f Hf. apply class_fields_In in Hf; [|apply class_ok_levels; apply swapped_class]. destruct Hf as [<-|[<-|[]]]; discriminate.
Qed.

(* byte orders *)
Lemma pack_values_orders c vs b b' : pack_values Little c vs = Ok b -> pack_values Big c vs = Ok b' ->
  forall i k, 0 <= i < zlen vs -> 0 <= k < ctype_bytes c ->
    byte_at b' (i * ctype_bytes c + (ctype_bytes c - 1 - k)) = byte_at b (i * ctype_bytes c + k).
Proof.
  intros E E' i k Hi Hk. destruct (pack_values_stored _ _ _ _ E i Hi) as (_ & _ & A).
  destruct (pack_values_stored _ _ _ _ E' i Hi) as (_ & _ & A'). now rewrite (A k Hk), (A' k Hk).
Qed.

Lemma construct_positional c args kws : class_ok c -> NoDup (ordered_field_names c) -> NoDup (map fst kws) -> kw_fields_ok c kws ->
  kw_fields_ok c (combine (ordered_field_names c) args) ->
  exists h, hdr_init c args kws = Ok h /\ h_cls h = c /\
    forall f, is_field c f ->
      (forall v, In (fd_name f, v) kws -> hdr_get h (fd_name f) = Ok v) /\
      (~ In (fd_name f) (map fst kws) ->
         (forall v, In (fd_name f, v) (combine (ordered_field_names c) args) -> hdr_get h (fd_name f) = Ok v) /\
         (~ In (fd_name f) (map fst (combine (ordered_field_names c) args)) -> hdr_get h (fd_name f) = Ok (fd_default f))).
Proof.
  intros K NO NK W1 W2. unfold hdr_init. rewrite set_positional_all. set (pos := combine _ _) in *.
  assert (KF : forall kvs, kw_fields_ok c kvs -> keys_are_fields c kvs).
  { intros kvs W n Hn. apply in_map_iff in Hn. destruct Hn as ((n' & v) & <- & I). destruct (W _ _ I) as (f & Hf & <- & _).
    cbn [fst]. rewrite (is_field_class c f K Hf). discriminate. }
  assert (NP : NoDup (map fst pos)).
  { unfold pos. clear -NO. revert args. induction NO as [|n l N1 N IH]; intros args; [constructor|]. destruct args as [|a args]; [constructor|].
    cbn. constructor; auto. intros I. apply N1. apply in_map_iff in I. destruct I as ((x & y) & <- & I). now apply in_combine_l in I. }
  destruct (set_all_spec pos (mk_header c [] []) (KF _ W2) NP) as [(h1 & E1 & Hc1 & _ & _ & V1)|(E & n & v & f & I & F & R)].
  2:{ exfalso. destruct (W2 _ _ I) as (g & Hg & <- & A). cbn [h_cls] in F. rewrite (is_field_class c g K Hg) in F. injection F as ->. auto. }
  cbn [h_cls] in Hc1. rewrite E1. cbn [bind]. rewrite set_keywords_all by (rewrite Hc1; now apply KF).
  destruct (set_all_spec kws h1) as [(h & E2 & Hc2 & _ & _ & V2)|(E & n & v & f & I & F & R)]; auto.
  { rewrite Hc1. now apply KF. }
  2:{ exfalso. destruct (W1 _ _ I) as (g & Hg & <- & A). rewrite Hc1, (is_field_class c g K Hg) in F. injection F as ->. auto. }
  exists h. split; auto. split; [congruence|]. intros f Hf. rewrite (hdr_get_field h f) by (rewrite Hc2, Hc1; auto). rewrite V2. split.
  - intros v I. now rewrite (assoc_NoDup _ _ _ NK I).
  - intros I. rewrite (proj2 (assoc_None _ _) I), V1. cbn [h_vals]. split.
    + intros v J. now rewrite (assoc_NoDup _ _ _ NP J).
    + intros J. now rewrite (proj2 (assoc_None _ _) J).
Qed.

Lemma pack_err_iff c e p h : class_ok c -> starts_ok c -> types_fit c -> make_header_packer c e = Ok p -> h_cls h = c -> header_ok h ->
  (pk_pack p h = Err ValueError <->
     exists f g, is_field c f /\ is_field c g /\ fd_offset f = fd_offset g /\ hdr_get h (fd_name f) <> hdr_get h (fd_name g)) /\
  (pk_pack p h = Err ValueError \/ exists buf, pk_pack p h = Ok buf).
Proof.
  intros K S T M Hc H. destruct (pack_total c e p h K S T M Hc H) as [(buf & E & A)|(E & A)]; rewrite E; split; eauto.
  - split; [discriminate|]. intros (f & g & Hf & Hg & O & N). exfalso. apply N. now apply A.
  - split; auto.
Qed.

Lemma base_ranges v :
  (accepts Int16 v <-> - 2 ^ 15 <= v < 2 ^ 15) /\ (accepts NNInt16 v <-> 0 <= v < 2 ^ 15) /\
  (accepts Int32 v <-> - 2 ^ 31 <= v < 2 ^ 31) /\ (accepts NNInt32 v <-> 0 <= v < 2 ^ 31).
Proof. unfold accepts. cbn. lia. Qed.

Lemma binary_table_iff :
  (forall f, is_field BinaryReelHeader f -> In (fd_name f, fd_offset f, fd_offset f + field_size f - 1) standard_binary_header) /\
  (forall n a b, In (n, a, b) standard_binary_header -> exists f, is_field BinaryReelHeader f /\
     fd_name f = n /\ fd_offset f = a /\ fd_offset f + field_size f - 1 = b).
Proof. apply entry_In; [apply shipped_ok; now left|apply binary_table]. Qed.
Lemma rev0_table_iff :
  (forall f, is_field TraceHeaderRev0 f -> In (fd_name f, fd_offset f, fd_offset f + field_size f - 1) standard_trace_header_rev0) /\
  (forall n a b, In (n, a, b) standard_trace_header_rev0 -> exists f, is_field TraceHeaderRev0 f /\
     fd_name f = n /\ fd_offset f = a /\ fd_offset f + field_size f - 1 = b).
Proof. apply entry_In; [apply shipped_ok; right; now left|apply rev0_table]. Qed.

Definition standard_rev1 := standard_trace_header_rev0 ++ standard_trace_header_rev1_extension.
Lemma rev1_table_iff :
  (forall f, is_field TraceHeaderRev1 f -> exists b, In (fd_name f, fd_offset f, b) standard_rev1 /\
     (fd_name f <> "source_energy_direction" -> fd_offset f + field_size f - 1 = b)) /\
  (forall n a b, In (n, a, b) standard_rev1 -> exists f, is_field TraceHeaderRev1 f /\
     fd_name f = n /\ fd_offset f = a /\ (n <> "source_energy_direction" -> fd_offset f + field_size f - 1 = b)).
Proof.
  destruct (entry_In TraceHeaderRev1 _ (proj1 (shipped_ok TraceHeaderRev1 (or_intror (or_intror (or_introl eq_refl))))) rev1_table) as (A & B).
  fold standard_rev1 in A, B. split.
  - intros f Hf. apply A in Hf. apply in_map_iff in Hf. destruct Hf as (((n & a) & b) & E & I). cbn [fst snd] in E.
    destruct (String.eqb n "source_energy_direction") eqn:Q; apply pair_equal_spec in E; destruct E as (E & E3);
      apply pair_equal_spec in E; destruct E as (E1 & E2); exists b; (split; [rewrite <- E1, <- E2; exact I|]); intros N.
    + apply String.eqb_eq in Q. congruence.
    + now symmetry.
  - intros n a b I. apply (in_map (fun t => if String.eqb (fst (fst t)) "source_energy_direction" then (fst (fst t), snd (fst t), 222) else t)) in I.
    cbn [fst snd] in I. destruct (String.eqb n "source_energy_direction") eqn:Q; apply B in I; destruct I as (f & Hf & E1 & E2 & E3);
      exists f; split; auto; split; auto; split; auto. intros N. apply String.eqb_eq in Q. congruence.
Qed.

Lemma rev1_width_fails : ~ (forall f, is_field TraceHeaderRev1 f ->
  In (fd_name f, fd_offset f, fd_offset f + field_size f - 1) standard_rev1).
Proof.
  intros H. destruct (shipped_ok TraceHeaderRev1) as (K & _); [right; right; now left|].
  assert (FA : is_field TraceHeaderRev1 (mk_field "source_energy_direction" Int32 219 0)).
  { apply class_field_spec with (n := "source_energy_direction"); [now apply class_ok_levels|]. vm_compute. reflexivity. }
  specialize (H _ FA). change (fd_offset (mk_field "source_energy_direction" Int32 219 0)) with 219 in H.
  change (field_size (mk_field "source_energy_direction" Int32 219 0)) with 4 in H. change (219 + 4 - 1) with 222 in H.
  assert (Q : existsb (fun t => String.eqb (fst (fst t)) "source_energy_direction" && Z.eqb (snd t) 222) standard_rev1 = true).
  { apply existsb_exists. exists ("source_energy_direction", 219, 222). split; [exact H|]. reflexivity. }
  vm_compute in Q. discriminate.
Qed.

Lemma early_not_refused : ~ (forall c e p, class_ok c -> types_fit c -> make_header_packer c e = Ok p -> starts_ok c).
Proof.
  intros H. destruct early_accepted as (K & T & (f & Hf & N) & p & h & buf & M & _). specialize (H early Big p K T M f Hf). lia.
Qed.
