(* Proofs about field types and assignment to fields. *)
From Coq Require Import String ZArith List Bool Lia ZifyBool ZifyNat.
From Verif Require Import Py PyFloat IbmFloat Packing Formats FieldTypes
  PyFacts Spec_Ibm FloatFacts IbmFacts Spec_Packing PackFacts CompileFacts HeaderFacts PackingFacts FormatFacts Spec_Segy OpenFacts Spec_Fields.
Import ListNotations.
Local Open Scope string_scope.
Open Scope list_scope.
Open Scope Z_scope.

Lemma plain_range name t v : accepts (int_field name t None None) v <-> type_range t v.
Proof. destruct t; unfold accepts, type_range; cbn; lia. Qed.
Lemma bounds_range name t lo hi v : accepts (int_field name t (Some lo) (Some hi)) v <-> lo <= v <= hi.
Proof. reflexivity. Qed.
Lemma limits_range t v : (v <? fst (limits t)) || (snd (limits t) <? v) = true <-> ~ type_range t v.
Proof. destruct t; unfold type_range; cbn; lia. Qed.
Lemma type_range_dec t v : type_range t v \/ ~ type_range t v.
Proof. destruct ((v <? fst (limits t)) || (snd (limits t) <? v)) eqn:E; [right|left]. { now apply limits_range. }
  destruct t; unfold type_range; cbn in E |- *; lia. Qed.

Lemma enum_created name t members :
  (Forall (type_range t) members -> exists ft, enum_field name t members = Ok ft /\ forall v, accepts ft v <-> In v members) /\
  (~ Forall (type_range t) members -> enum_field name t members = Err ValueError).
Proof.
  unfold enum_field. destruct (existsb _ members) eqn:E.
  - split; [|reflexivity]. intros F. exfalso. apply existsb_exists in E. destruct E as (v & I & V). apply limits_range in V. rewrite Forall_forall in F. auto.
  - split; [intros _; eexists; split; [reflexivity|reflexivity]|]. intros N. exfalso. apply N. apply Forall_forall. intros v I.
    destruct (type_range_dec t v) as [Y|Y]; [exact Y|]. exfalso. apply limits_range in Y.
    assert (existsb (fun v => (v <? fst (limits t)) || (snd (limits t) <? v)) members = true) by (apply existsb_exists; eauto). congruence.
Qed.

Lemma range_fits t v : type_range t v -> in_ctype (ctype_for t) v.
Proof. destruct t; cbn; lia. Qed.
Lemma declared_fits t v : declared t -> accepts t v -> in_ctype (ft_ctype t) v.
Proof.
  intros [name u|name u lo hi L H|name u ms ft E] A.
  - apply range_fits. now apply (plain_range name).
  - apply bounds_range in A. cbn. destruct u; cbn in *; lia.
  - unfold enum_field in E. destruct (existsb _ ms) eqn:X; [discriminate|]. injection E as <-. cbn in *. apply range_fits.
    destruct (type_range_dec u v) as [Y|Y]; [exact Y|]. exfalso. apply limits_range in Y.
    assert (existsb (fun v => (v <? fst (limits u)) || (snd (limits u) <? v)) ms = true) by (apply existsb_exists; eauto). congruence.
Qed.
Lemma declared_packs c e p h : class_ok c -> starts_ok c -> (forall f, is_field c f -> declared (fd_type f)) -> make_header_packer c e = Ok p ->
  h_cls h = c -> header_ok h ->
  (forall f g, is_field c f -> is_field c g -> fd_offset f = fd_offset g -> hdr_get h (fd_name f) = hdr_get h (fd_name g)) ->
  exists buf, pk_pack p h = Ok buf.
Proof.
  intros C S D M HC HO A. assert (T : types_fit c). { intros f v F. apply declared_fits. auto. }
  destruct (pack_total c e p h C S T M HC HO) as [(buf & P & _)|(_ & f & g & F & G & O & N)]; [eauto|]. exfalso. apply N. auto.
Qed.

(* assignment *)
Lemma f_int_quot f : float_wf f -> finite f -> f_int f = Ok (Z.quot (units f) unit).
Proof.
  intros W F. destruct f as [s|s| |s m x]; try destruct F; [reflexivity|]. cbn [f_int units].
  assert (E : -1074 <= x). { apply bounded_spec in W. lia. }
  f_equal. assert (P : 0 < unit) by reflexivity.
  assert (Q : Z.quot (Zpos m * 2 ^ (x + 1074)) unit = if 0 <=? x then Zpos m * 2 ^ x else Zpos m / 2 ^ (- x)).
  { assert (0 < 2 ^ (x + 1074)) by (apply Z.pow_pos_nonneg; lia).
    rewrite Z.quot_div_nonneg by lia. destruct (0 <=? x) eqn:X.
    - rewrite Z.pow_add_r by lia. rewrite Z.mul_assoc. apply Z.div_mul. exact (Z.neq_sym _ _ (Z.lt_neq _ _ P)).
    - assert (U : unit = 2 ^ (x + 1074) * 2 ^ (- x)). { rewrite <- Z.pow_add_r by lia. unfold unit. f_equal. lia. } rewrite U.
      rewrite (Z.mul_comm (2 ^ (x + 1074))). apply Z.div_mul_cancel_r; [|lia]. assert (0 < 2 ^ (- x)) by (apply Z.pow_pos_nonneg; lia). lia. }
  destruct s.
  - replace (-1 * (Zpos m * 2 ^ (x + 1074))) with (- (Zpos m * 2 ^ (x + 1074))) by (generalize (Zpos m * 2 ^ (x + 1074)); intros; lia). rewrite Z.quot_opp_l by lia. now rewrite Q.
  - rewrite Z.mul_1_l. now rewrite Q.
Qed.

Lemma int_of_spec v : number_ok v ->
  (exists k, int_of v = Ok k /\ toward_zero v k) \/
  (int_of v = Err ValueError /\ v = RFloat S754_nan) \/
  (int_of v = Err OverflowError /\ exists s, v = RFloat (S754_infinity s)).
Proof.
  destruct v as [f|n|w]; cbn [number_ok int_of toward_zero]; intros W.
  - destruct f as [s|s| |s m x] eqn:E.
    2: { right. right. split; [reflexivity|]. now exists s. }
    2: { right. left. now split. }
    all: left; rewrite <- E in *; eexists; (split; [apply f_int_quot; [exact W|now rewrite E]|]); (split; [now rewrite E|reflexivity]).
  - left. now exists n.
  - left. eexists. split; [now apply ibm_trunc_spec|reflexivity].
Qed.
Lemma toward_zero_unique v k k' : toward_zero v k -> toward_zero v k' -> k = k'.
Proof. destruct v; cbn [toward_zero]; [intros (_ & ->) (_ & ->)| |]; congruence. Qed.
Lemma integer_toward v k : is_integer v k -> toward_zero v k.
Proof.
  assert (unit <> 0) by (vm_compute; discriminate). destruct v; cbn [toward_zero is_integer]; [intros (F & ->); split; [exact F|]|auto|intros ->]; now rewrite Z.quot_mul.
Qed.

(* every assignment *)
Lemma assign_outcome h f v : class_ok (h_cls h) -> is_field (h_cls h) f -> number_ok v ->
  (exists k h', toward_zero v k /\ accepts (fd_type f) k /\ hdr_assign h (fd_name f) v = Ok h' /\ h_cls h' = h_cls h /\
     hdr_get h' (fd_name f) = Ok k /\ forall n, n <> fd_name f -> hdr_get h' n = hdr_get h n) \/
  (hdr_assign h (fd_name f) v = Err ValueError /\ forall k, toward_zero v k -> ~ accepts (fd_type f) k) \/
  (hdr_assign h (fd_name f) v = Err OverflowError /\ exists s, v = RFloat (S754_infinity s)).
Proof.
  intros C F W. unfold hdr_assign. rewrite (is_field_class _ _ C F). unfold value_new.
  destruct (int_of_spec v W) as [(k & -> & T)|[(-> & ->)|(-> & s & ->)]]; cbn [bind].
  - destruct (set_get h f k C F) as (P & Q). unfold hdr_set in P, Q. rewrite (is_field_class _ _ C F) in P, Q.
    destruct (ft_new_spec (fd_type f) k) as [(N & A)|(N & A)].
    + left. destruct (P A) as (h' & E & R). exists k, h'. tauto.
    + right. left. split; [now apply Q|]. intros k' T'. now rewrite (toward_zero_unique v k' k).
  - right. left. split; [reflexivity|]. intros k (K & _). destruct K.
  - right. right. split; [reflexivity|]. now exists s.
Qed.
Lemma assign_integer h f v k : class_ok (h_cls h) -> is_field (h_cls h) f -> number_ok v -> is_integer v k ->
  (accepts (fd_type f) k -> exists h', hdr_assign h (fd_name f) v = Ok h' /\ hdr_get h' (fd_name f) = Ok k /\ forall n, n <> fd_name f -> hdr_get h' n = hdr_get h n) /\
  (~ accepts (fd_type f) k -> hdr_assign h (fd_name f) v = Err ValueError).
Proof.
  intros C F W I. apply integer_toward in I.
  destruct (assign_outcome h f v C F W) as [(k' & h' & T & A & E & _ & G & R)|[(E & N)|(E & s & ->)]].
  - rewrite (toward_zero_unique v k' k T I) in *. split; [intros _; eauto|contradiction].
  - split; [intros A; now apply N in I|auto].
  - destruct I as (I & _). destruct I.
Qed.

(* derived formats *)
Lemma derive_fields name own base f : NoDup (map fd_name own) ->
  is_field (derive name own base) f <-> In f own \/ (is_field base f /\ ~ In (fd_name f) (map fd_name own)).
Proof.
  intros ND. split.
  - intros (ls1 & l & ls2 & E & I & N). cbn in E. destruct ls2 as [|l2 ls _] using rev_ind.
    + apply app_inj_tail in E. destruct E as (_ & <-). now left.
    + replace (ls1 ++ l :: ls ++ [l2]) with ((ls1 ++ l :: ls) ++ [l2]) in E by now rewrite <- app_assoc. apply app_inj_tail in E. destruct E as (E & <-). right. split.
      * exists ls1, l, ls. split; [exact E|]. split; [exact I|]. intros l' g L. apply N. apply in_or_app. now left.
      * intros M. apply in_map_iff in M. destruct M as (g & EG & G). apply (N (name, own) g); auto. apply in_or_app. right. now left.
  - intros [I|((ls1 & l & ls2 & E & I & N) & M)].
    + exists (fmt_levels base), (name, own), []. split; [reflexivity|]. split; [exact I|]. intros l' g [].
    + exists ls1, l, (ls2 ++ [(name, own)]). cbn. rewrite E, <- app_assoc. split; [reflexivity|]. split; [exact I|].
      intros l' g L. apply in_app_or in L. destruct L as [L|[<-|[]]]; [now apply N|]. intros G EG. apply M. rewrite <- EG. now apply in_map.
Qed.

Lemma derived_reads name own base e buf h h' : class_ok base -> NoDup (map fd_name own) ->
  holds_buffer base e buf h -> holds_buffer (derive name own base) e buf h' ->
  (forall f, is_field base f -> ~ In (fd_name f) (map fd_name own) -> hdr_get h' (fd_name f) = hdr_get h (fd_name f)) /\
  (forall f, In f own -> exists v, hdr_get h' (fd_name f) = Ok v /\ in_ctype (ft_ctype (fd_type f)) v /\
     stored_at e buf (field_pos base f) (field_size f) v).
Proof.
  intros C ND (_ & H) (_ & H'). split.
  - intros f F N. destruct (H f F) as (v & G & _ & I & S). destruct (H' f) as (w & G' & _ & I' & S'); [apply derive_fields; auto|].
    rewrite G, G'. f_equal. rewrite <- size_of_field in *. exact (stored_unique e buf _ _ w v I' I S' S).
  - intros f F. destruct (H' f) as (v & G & _ & I & S); [apply derive_fields; auto|]. eauto.
Qed.

Section Derived.
Variables (name : string) (own : list fieldd) (base : fmt) (e : endian) (p q : packer) (buf : list Z).
Let sub := derive name own base.
Hypothesis CB : class_ok base.
Hypothesis CS : class_ok sub.
Hypothesis SB : starts_ok base.
Hypothesis SS : starts_ok sub.
Hypothesis OB : has_coincident base \/ declared_in_order base.
Hypothesis OS : has_coincident sub \/ declared_in_order sub.
Hypothesis LEN : fmt_length base <> None.
Hypothesis MP : make_header_packer base e = Ok p.
Hypothesis MQ : make_header_packer sub e = Ok q.
Hypothesis AB : all_bytes buf.

Lemma own_nodup : NoDup (map fd_name own).
Proof. destruct CS as (N & _). apply (N (name, own)). cbn. apply in_or_app. right. now left. Qed.
Lemma sub_length n : header_length sub n <-> header_length base n.
Proof. unfold header_length. cbn. destruct (fmt_length base); [reflexivity|congruence]. Qed.
Lemma unpack_holds c r h : class_ok c -> starts_ok c -> has_coincident c \/ declared_in_order c -> make_header_packer c e = Ok r ->
  pk_unpack r buf = Ok h -> holds_buffer c e buf h /\ header_length c (zlen buf).
Proof. intros C S O M U. destruct (unpack_iff c e r buf C S O M AB) as [(h' & E & L & H)|(E & _)]; rewrite E in U; [|discriminate]. injection U as <-. auto. Qed.

Lemma derived_same h h' : pk_unpack p buf = Ok h -> pk_unpack q buf = Ok h' ->
  (forall f, is_field base f -> ~ In (fd_name f) (map fd_name own) -> hdr_get h' (fd_name f) = hdr_get h (fd_name f)) /\
  (forall f, In f own -> exists v, hdr_get h' (fd_name f) = Ok v /\ in_ctype (ft_ctype (fd_type f)) v /\
     stored_at e buf (field_pos base f) (field_size f) v).
Proof.
  intros U V. apply (derived_reads name own base e buf h h' CB own_nodup).
  - now apply (unpack_holds base p).
  - now apply (unpack_holds sub q).
Qed.
Lemma derived_accepts h : pk_unpack p buf = Ok h ->
  (forall f v, In f own -> in_ctype (ft_ctype (fd_type f)) v -> stored_at e buf (field_pos base f) (field_size f) v -> accepts (fd_type f) v) ->
  exists h', pk_unpack q buf = Ok h'.
Proof.
  intros U A. destruct (unpack_holds base p h CB SB OB MP U) as ((_ & H) & L).
  destruct (unpack_iff sub e q buf CS SS OS MQ AB) as [(h' & E & _)|(_ & [N|(f & v & F & I & S & NA)])]; [eauto| |].
  - exfalso. apply N. now apply sub_length.
  - exfalso. apply NA. apply (derive_fields name own base f own_nodup) in F. destruct F as [F|(F & _)]; [now apply A|].
    destruct (H f F) as (w & _ & AC & I' & S'). rewrite <- size_of_field in *. rewrite (stored_unique e buf (field_pos base f) _ v w I I' S S'). exact AC.
Qed.
Lemma base_accepts h' : pk_unpack q buf = Ok h' ->
  (forall f v, is_field base f -> In (fd_name f) (map fd_name own) -> in_ctype (ft_ctype (fd_type f)) v ->
     stored_at e buf (field_pos base f) (field_size f) v -> accepts (fd_type f) v) ->
  exists h, pk_unpack p buf = Ok h.
Proof.
  intros U A. destruct (unpack_holds sub q h' CS SS OS MQ U) as ((_ & H) & L).
  destruct (unpack_iff base e p buf CB SB OB MP AB) as [(h & E & _)|(_ & [N|(f & v & F & I & S & NA)])]; [eauto| |].
  - exfalso. apply N. now apply sub_length.
  - exfalso. apply NA. destruct (in_dec String.string_dec (fd_name f) (map fd_name own)) as [D|D]; [now apply A|].
    destruct (H f) as (w & _ & AC & I' & S'). { apply (derive_fields name own base f own_nodup). now right. }
    rewrite <- size_of_field in *. rewrite (stored_unique e buf (field_pos base f) _ v w I I' S S'). exact AC.
Qed.
End Derived.

(* the custom header *)
Lemma custom_ok : class_ok CustomBinaryReelHeader /\ types_fit CustomBinaryReelHeader /\ starts_ok CustomBinaryReelHeader.
Proof. apply base_checks_ok. vm_compute. reflexivity. Qed.
Lemma custom_coincident : has_coincident CustomBinaryReelHeader.
Proof.
  apply (overridden_coincident _ (fmt_levels BinaryReelHeader) "CustomBinaryReelHeader" (mk_field "num_samples" UInt16 3221 0) (proj1 custom_ok)); [reflexivity|].
  apply smem_In. vm_compute. reflexivity.
Qed.
Lemma custom_format : binary_format CustomBinaryReelHeader.
Proof.
  destruct custom_ok as (C & T & S).
  split; [|split; [|split]]; try (eapply has_field_by; [exact C|vm_compute; reflexivity]).
  split; [exact C|]. split; [exact T|]. split; [exact S|]. split; [left; exact custom_coincident|]. split; [reflexivity|].
  intros [|]; eexists; vm_compute; reflexivity.
Qed.
Lemma base_samples f : is_field BinaryReelHeader f -> fd_name f = "num_samples" -> f = mk_field "num_samples" NNInt16 3221 0.
Proof.
  intros F E. destruct (shipped_ok BinaryReelHeader) as (C & _); [now left|]. apply (is_field_class _ _ C) in F. rewrite E in F. vm_compute in F. injection F as <-. reflexivity.
Qed.
Lemma custom_reads e p q buf : make_header_packer BinaryReelHeader e = Ok p -> make_header_packer CustomBinaryReelHeader e = Ok q -> all_bytes buf ->
  (forall h, pk_unpack p buf = Ok h -> exists h', pk_unpack q buf = Ok h' /\ forall f, is_field BinaryReelHeader f -> hdr_get h' (fd_name f) = hdr_get h (fd_name f)) /\
  (forall h', pk_unpack q buf = Ok h' -> exists v, hdr_get h' "num_samples" = Ok v /\ 0 <= v < 2 ^ 16 /\ stored_at e buf 20 2 v /\
     (v < 2 ^ 15 -> exists h, pk_unpack p buf = Ok h) /\ (2 ^ 15 <= v -> pk_unpack p buf = Err ValueError)).
Proof.
  intros MP MQ AB. destruct (shipped_ok BinaryReelHeader) as (CB & TB & SB & OB); [now left|]. destruct custom_ok as (CS & TS & SS).
  pose proof (or_introl (B := declared_in_order CustomBinaryReelHeader) custom_coincident) as OS.
  assert (LN : fmt_length BinaryReelHeader <> None) by discriminate.
  assert (FB : is_field BinaryReelHeader (mk_field "num_samples" NNInt16 3221 0)).
  { apply (class_field_spec _ "num_samples"); [now apply class_ok_levels|vm_compute; reflexivity]. }
  split.
  - intros h U. destruct (derived_accepts _ _ _ e p q buf CB CS SB SS (or_intror OB) OS LN MP MQ AB h U) as (h' & V).
    { intros f v [<-|[]] I _. cbn in I |- *. unfold accepts. cbn. lia. }
    exists h'. split; [exact V|]. intros f F. pose proof (unpack_holds e buf AB _ _ h CB SB (or_intror OB) MP U) as ((_ & H) & _).
    destruct (String.string_dec (fd_name f) "num_samples") as [E|E].
    + rewrite (base_samples f F E) in *. destruct (H _ FB) as (v & G & _ & I & S).
      destruct (derived_same _ _ _ e p q buf CB CS SB SS (or_intror OB) OS MP MQ AB h h' U V) as (_ & W).
      destruct (W (mk_field "num_samples" UInt16 3221 0)) as (w & G' & I' & S'); [now left|].
      cbn [fd_name] in G, G' |- *. rewrite G, G'. f_equal.
      apply (stored_unique e buf 20 C_H w v I' I); exact S' || exact S.
    + apply (derived_same _ _ _ e p q buf CB CS SB SS (or_intror OB) OS MP MQ AB h h' U V); [exact F|]. intros [M|[]]. cbn in M. congruence.
  - intros h' V. pose proof (unpack_holds e buf AB _ _ h' CS SS OS MQ V) as ((_ & H) & _).
    destruct (H (mk_field "num_samples" UInt16 3221 0)) as (v & G & A & I & S).
    { apply (class_field_spec _ "num_samples"); [now apply class_ok_levels|vm_compute; reflexivity]. }
    exists v. split; [exact G|]. split; [exact I|]. split; [exact S|]. split.
    + intros L. apply (base_accepts _ _ _ e p q buf CB CS SB SS (or_intror OB) OS LN MP MQ AB h' V).
      intros f w F [M|[]] IW SW. cbn in M. rewrite (base_samples f F (eq_sym M)) in *. cbn [fd_type] in *.
      rewrite (stored_unique e buf 20 C_H w v IW I SW S). unfold accepts. cbn. cbn in I. lia.
    + intros L. destruct (unpack_iff _ e p buf CB SB (or_intror OB) MP AB) as [(h & U & _ & (_ & HB))|(E & _)]; [|exact E].
      exfalso. destruct (HB _ FB) as (w & _ & A' & I' & S'). rewrite (stored_unique e buf 20 C_H w v I' I S' S) in A'. unfold accepts in A'. cbn in A'. lia.
Qed.

Lemma assign_other h n v : class_ok (h_cls h) -> ~ has_field (h_cls h) n ->
  exists h', hdr_assign h n v = Ok h' /\ h_cls h' = h_cls h /\ forall f, is_field (h_cls h) f -> hdr_get h' (fd_name f) = hdr_get h (fd_name f).
Proof.
  intros K NF. unfold hdr_assign. destruct (class_field (h_cls h) n) as [f|] eqn:E.
  - exfalso. apply NF. exists f. apply class_field_spec in E; auto using class_ok_levels.
  - exists h. auto.
Qed.
