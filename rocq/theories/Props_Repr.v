(* The texts that repr() gives (C129). *)
From Coq Require Import String ZArith List Bool Lia.
From Verif Require Import Py Util Catalog IbmFloat Packing Spec_Packing Spec_Ibm PyFacts Formats FieldTypes FieldTypesFacts
  HeaderFacts PackingFacts FormatFacts TransformFacts Repr Spec_Repr ReprFacts.
Import ListNotations.
Local Open Scope string_scope.
Open Scope list_scope.
Open Scope Z_scope.

(* What is printed for a header of a class that declares no field twice is a call
   of the class, and evaluating it gives a header with the same value in every
   field.  The names of the class and of its fields are Python names. *)
Theorem C129_header_partial : forall h, let c := h_cls h in
  class_ok c -> identifier (fmt_name c) -> (forall f, is_field c f -> identifier (fd_name f)) ->
  NoDup (ordered_field_names c) -> header_ok h ->
  exists s kws h', header_repr h = Ok s /\ keyword_call s = Some (fmt_name c, kws) /\
    map fst kws = ordered_field_names c /\ hdr_init c [] kws = Ok h' /\ same_fields h h'.
Proof. intros h c K N F ND HO. exact (header_evaluates h K (fields_named _ K N F) ND HO). Qed.
Print Assumptions C129_header_partial.

(* Two headers of a class are printed alike exactly if they have the same value in
   every field, fields declared twice included. *)
Theorem C129_distinguishes : forall a b, class_ok (h_cls a) -> identifier (fmt_name (h_cls a)) ->
  (forall f, is_field (h_cls a) f -> identifier (fd_name f)) -> h_cls b = h_cls a ->
  exists s t, header_repr a = Ok s /\ header_repr b = Ok t /\ (s = t <-> same_fields a b).
Proof.
  intros a b K N F C. destruct (repr_total a K) as (vs & _ & Ra). destruct (repr_total b) as (ws & _ & Rb); [now rewrite C|].
  eexists. eexists. split; [exact Ra|]. split; [exact Rb|]. split.
  - intros E. rewrite <- E in Rb. exact (header_distinct a b _ K (fields_named _ K N F) C Ra Rb).
  - intros S. rewrite (header_same a b K S) in Rb. congruence.
Qed.
Print Assumptions C129_distinguishes.

(* What is printed for a header of a class that declares a field a second time
   gives the field's keyword twice: evaluating it is a syntax error.  The examples of
   segpy define such a class. *)
Theorem C129_redefined_refuted :
  (forall h, class_ok (h_cls h) -> identifier (fmt_name (h_cls h)) ->
     (forall f, is_field (h_cls h) f -> identifier (fd_name f)) -> ~ NoDup (ordered_field_names (h_cls h)) ->
     exists s, header_repr h = Ok s /\ keyword_call s = None) /\
  (exists h s, h_cls h = CustomBinaryReelHeader /\ hdr_init CustomBinaryReelHeader [] [] = Ok h /\ header_repr h = Ok s /\ keyword_call s = None).
Proof.
  assert (G : forall h, class_ok (h_cls h) -> identifier (fmt_name (h_cls h)) ->
     (forall f, is_field (h_cls h) f -> identifier (fd_name f)) -> ~ NoDup (ordered_field_names (h_cls h)) ->
     exists s, header_repr h = Ok s /\ keyword_call s = None).
  { intros h K N F ND. exact (header_redefined h K (fields_named _ K N F) ND). }
  split; [exact G|].
  destruct (construct_ok CustomBinaryReelHeader [] (proj1 custom_ok)) as (h & I & C & _); [constructor|intros n v []|].
  destruct (header_redefined h) as (s & R & Q); [rewrite C; exact (proj1 custom_ok)| | |exists h, s; auto].
  - rewrite C. split; [split; reflexivity|]. apply names_letters. vm_compute. reflexivity.
  - rewrite C. intros D. apply no_repeats_spec in D. vm_compute in D. discriminate.
Qed.
Print Assumptions C129_redefined_refuted.

(* The headers that segpy defines meet the hypotheses. *)
Theorem C129_shipped : forall c, In c shipped ->
  identifier (fmt_name c) /\ (forall f, is_field c f -> identifier (fd_name f)) /\ NoDup (ordered_field_names c).
Proof.
  assert (T : forall c, class_ok c -> identifier (fmt_name c) -> Forall identifier (ordered_field_names c) -> no_repeats (ordered_field_names c) = true ->
    identifier (fmt_name c) /\ (forall f, is_field c f -> identifier (fd_name f)) /\ NoDup (ordered_field_names c)).
  { intros c K N F R. split; [exact N|]. split; [|now apply no_repeats_spec]. intros f Hf. rewrite Forall_forall in F. apply F. now apply field_name_In. }
  intros c [<-|[<-|[<-|[]]]]; (apply T; [refine (proj1 (shipped_ok _ _)); cbn; tauto|split; reflexivity|apply names_letters; vm_compute; reflexivity|vm_compute; reflexivity]).
Qed.
Print Assumptions C129_shipped.

(* Evaluating what is printed for a catalog of one value for equally spaced keys
   gives the same catalog. *)
Theorem C129_regular_constant : forall key_min key_max key_stride value cat,
  regular_constant_catalog key_min key_max key_stride value = Ok cat ->
  exists kws a b c v, keyword_call (regular_constant_repr key_min key_max key_stride value) = Some ("RegularConstantCatalog", kws) /\
    bind_keywords ["key_min"; "key_max"; "key_stride"; "value"] kws = Ok [a; b; c; v] /\
    regular_constant_catalog a b c v = Ok cat.
Proof.
  intros a b c v cat H. destruct (regular_constant_evaluates a b c v) as (kws & K & B). exists kws, a, b, c, v. auto.
Qed.
Print Assumptions C129_regular_constant.

(* What is printed for a linear catalog is no call that its class accepts: two of
   the keywords are not parameters.  The numbers are right. *)
Theorem C129_linear_refuted : forall key_min key_max key_stride value_start value_stop value_stride,
  exists kws, keyword_call (linear_regular_repr key_min key_max key_stride value_start value_stop value_stride) = Some ("LinearRegularCatalog", kws) /\
    map snd kws = [key_min; key_max; key_stride; value_start; value_stop; value_stride] /\
    bind_keywords ["key_min"; "key_max"; "key_stride"; "value_start"; "value_stop"; "value_stride"] kws = Err TypeError.
Proof.
  intros a b c x y z. destruct (linear_evaluates a b c x y z) as (kws & K & B & E). exists kws. split; [exact K|]. split; [now rewrite E|exact B].
Qed.
Print Assumptions C129_linear_refuted.

(* Evaluating what is printed for a sorted set gives the same set. *)
Theorem C129_set : forall items, exists l,
  list_call (sfs_repr (sfs_new items)) = Some ("SortedFrozenSet", l) /\ sfs_new l = sfs_new items.
Proof.
  intros items. exists (sfs_new items). split; [apply sfs_evaluates|]. apply sorted_set_id. exact (sorted_set_sorted items).
Qed.
Print Assumptions C129_set.

(* Every IBM float can be printed, however floats are printed, and different bit
   patterns are printed differently. *)
Theorem C129_ibm : forall float_repr x y, word_ok x -> word_ok y ->
  exists s t, ibm_repr float_repr x = Ok s /\ ibm_repr float_repr y = Ok t /\ (s = t <-> x = y).
Proof.
  intros fr x y Hx Hy. destruct (ibm_exact x Hx) as (f & Ef & _). destruct (ibm_exact y Hy) as (g & Eg & _).
  assert (X : exists s, ibm_repr fr x = Ok s) by (unfold ibm_repr; rewrite Ef; cbn [bind]; eauto).
  assert (Y : exists t, ibm_repr fr y = Ok t) by (unfold ibm_repr; rewrite Eg; cbn [bind]; eauto).
  destruct X as (s & X). destruct Y as (t & Y). exists s, t. split; [exact X|]. split; [exact Y|]. split; [|intros ->; congruence].
  intros <-. assert (B : forall w, word_ok w -> Forall (fun b => 0 <= b < 256) (ibm_bytes w)).
  { intros w (A & B & C & D). repeat constructor; assumption || apply A || apply B || apply C || apply D. }
  exact (ibm_repr_inj fr x y s (B x Hx) (B y Hy) X Y).
Qed.
Print Assumptions C129_ibm.

Lemma ibm_printed float_repr a b c d : word_ok (W a b c d) -> exists s0 s1 s2 s3 rest,
  ibm_repr float_repr (W a b c d) = Ok ("IBMFloat(bytes([" ++ s0 ++ ", " ++ s1 ++ ", " ++ s2 ++ ", " ++ s3 ++ "])) ≈ " ++ rest)%string /\
  hex_literal s0 = Some a /\ hex_literal s1 = Some b /\ hex_literal s2 = Some c /\ hex_literal s3 = Some d.
Proof.
  intros H. destruct (ibm_exact (W a b c d) H) as (f & Ef & _). destruct H as (A & B & C & D). cbn [w0 w1 w2 w3] in A, B, C, D.
  exists (hex_byte a), (hex_byte b), (hex_byte c), (hex_byte d), (float_repr f). unfold ibm_repr. rewrite Ef. cbn [bind]. split.
  - unfold ibm_bytes. cbn [map w0 w1 w2 w3 String.concat]. f_equal. now rewrite !sapp_assoc.
  - rewrite !hex_byte_value by (apply A || apply B || apply C || apply D). auto.
Qed.
(* The text is a call with the four bytes. *)
Theorem C129_ibm_bytes : forall float_repr a b c d, word_ok (W a b c d) -> exists s0 s1 s2 s3 rest,
  ibm_repr float_repr (W a b c d) = Ok ("IBMFloat(bytes([" ++ s0 ++ ", " ++ s1 ++ ", " ++ s2 ++ ", " ++ s3 ++ "])) ≈ " ++ rest)%string /\
  hex_literal s0 = Some a /\ hex_literal s1 = Some b /\ hex_literal s2 = Some c /\ hex_literal s3 = Some d.
Proof. exact ibm_printed. Qed.
Print Assumptions C129_ibm_bytes.

Example C129_example :
  regular_constant_repr (-3) 9 4 70 = "RegularConstantCatalog(key_min=-3, key_max=9, key_stride=4, value=70)" /\
  sfs_repr (sfs_new [5; -12; 5; 0]) = "SortedFrozenSet([-12, 0, 5])" /\ sfs_repr [] = "SortedFrozenSet()" /\
  list_call "SortedFrozenSet([-12, 0, 5])" = Some ("SortedFrozenSet", [-12; 0; 5]) /\
  keyword_call "A(x=1, y=-20)" = Some ("A", [("x", 1); ("y", -20)]) /\ keyword_call "A(x=1, x=1)" = None /\
  keyword_call "A(1=x)" = None /\ keyword_call "A(x=1" = None /\
  bind_keywords ["y"; "x"] [("x", 1); ("y", -20)] = Ok [-20; 1] /\ bind_keywords ["x"] [("x", 1); ("y", -20)] = Err TypeError /\
  ibm_repr (fun _ => "1.0") (W 65 16 0 171) = Ok "IBMFloat(bytes([0x41, 0x10, 0x00, 0xab])) ≈ 1.0".
Proof. repeat (apply conj; [vm_compute; reflexivity|]). vm_compute. reflexivity. Qed.

Example C129_header_example :
  let f n t o := mk_field n t o 0 in
  let c := derive "Small" [f "alpha" Int32 1; f "beta_2" Int16 5] (mk_fmt [("Header", [])] 1 None []) in
  exists h, hdr_init c [] [("beta_2", -7)] = Ok h /\ header_repr h = Ok "Small(alpha=0, beta_2=-7)".
Proof. eexists. split; vm_compute; reflexivity. Qed.
