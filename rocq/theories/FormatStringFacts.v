(* Proofs for C123. *)
From Coq Require Import String Ascii ZArith List Bool Lia.
From Coq Require Import ZifyBool ZifyNat.
From Verif Require Import Py PyFacts Packing Spec_Packing PackFacts CompileFacts HeaderFacts PackingFacts FormatString Spec_Format.
Import ListNotations.
Local Open Scope char_scope.
Open Scope list_scope.
Open Scope Z_scope.

(* what a format without counts is parsed to *)
Definition expand (l : list chunk) : list chunk :=
  flat_map (fun c => match c with Pad n => repeat (Pad 1) (Z.to_nat n) | Item t => [Item t] end) l.

Lemma parse_pads n : forall s r, parse_codes s None = Ok r -> parse_codes (repeat "x" n ++ s) None = Ok (repeat (Pad 1) n ++ r).
Proof.
  induction n as [|n IH]; intros s r H; [exact H|]. cbn [repeat app parse_codes].
  change (digit_of "x") with (@None Z). change (is_space "x") with false. cbn [code_of]. rewrite (IH _ _ H). reflexivity.
Qed.

Lemma parse_chunks l : parse_codes (concat (map chunk_chars l)) None = Ok (expand l).
Proof.
  induction l as [|[n|t] l IH]; [reflexivity| |].
  - cbn [map concat chunk_chars expand flat_map]. now apply parse_pads.
  - cbn [map concat chunk_chars expand flat_map app]. cbn [parse_codes].
    assert (D : digit_of (ctype_char t) = None) by (destruct t; reflexivity).
    assert (S : is_space (ctype_char t) = false) by (destruct t; reflexivity).
    assert (C : code_of (ctype_char t) 1 = Some [Item t]) by (destruct t; reflexivity).
    rewrite D, S, C, IH. reflexivity.
Qed.

Lemma parse_format e l : make_structure (endian_char e :: concat (map chunk_chars l)) =
  Ok (mk_structure (endian_char e :: concat (map chunk_chars l)) e (expand l)).
Proof. destruct e; cbn [endian_char make_structure]; now rewrite parse_chunks. Qed.

Lemma pack_pads e n : forall l vs, struct_pack e (repeat (Pad 1) n ++ l) vs = (do r <- struct_pack e l vs ;; Ok (repeat 0 n ++ r)).
Proof.
  induction n as [|n IH]; intros l vs; cbn [repeat app].
  - now destruct (struct_pack e l vs).
  - cbn [struct_pack]. rewrite IH. now destruct (struct_pack e l vs).
Qed.

Lemma pack_expand e l : forall vs, struct_pack e (expand l) vs = struct_pack e l vs.
Proof.
  induction l as [|[n|t] l IH]; intros vs; [reflexivity| |].
  - cbn [expand flat_map struct_pack]. fold (expand l). rewrite pack_pads, IH. reflexivity.
  - cbn [expand flat_map struct_pack app]. fold (expand l). destruct vs as [|v vs]; [reflexivity|]. now rewrite IH.
Qed.

Lemma items_pads e n : forall l b, struct_items e (repeat (Pad 1) n ++ l) b = struct_items e l (skipn n b).
Proof.
  induction n as [|n IH]; intros l b; [reflexivity|]. cbn [repeat app struct_items]. rewrite IH. change (Z.to_nat 1) with 1%nat. now rewrite skipn_skipn.
Qed.

Lemma items_expand e l : forall b, struct_items e (expand l) b = struct_items e l b.
Proof.
  induction l as [|[n|t] l IH]; intros b; [reflexivity| |].
  - cbn [expand flat_map struct_items]. fold (expand l). now rewrite items_pads, IH.
  - cbn [expand flat_map struct_items app]. fold (expand l). now rewrite IH.
Qed.

Definition pads_ok (l : list chunk) : Prop := Forall (fun c => match c with Pad n => 0 <= n | Item _ => True end) l.

Lemma size_pads n l : struct_size (repeat (Pad 1) n ++ l) = Z.of_nat n + struct_size l.
Proof.
  induction n as [|n IH]; [reflexivity|].
  change (struct_size (repeat (Pad 1) (S n) ++ l)) with (1 + struct_size (repeat (Pad 1) n ++ l)). lia.
Qed.

Lemma size_expand l : pads_ok l -> struct_size (expand l) = struct_size l.
Proof.
  induction 1 as [|[n|t] l H _ IH]; [reflexivity| |].
  - cbn [expand flat_map]. fold (expand l). rewrite size_pads, IH. change (struct_size (Pad n :: l)) with (n + struct_size l). lia.
  - cbn [expand flat_map app]. fold (expand l). change (struct_size (Item t :: expand l)) with (ctype_size t + struct_size (expand l)).
    rewrite IH. reflexivity.
Qed.

Lemma unpack_expand e l b : pads_ok l -> struct_unpack e (expand l) b = struct_unpack e l b.
Proof. intros H. unfold struct_unpack. rewrite size_expand by exact H. now rewrite items_expand. Qed.

Lemma format_pads cs : forall gaps, pads_ok (format_chunks gaps cs).
Proof.
  intros gaps. revert cs. induction gaps as [|[a b] gaps IH]; intros cs; cbn [format_chunks].
  - apply Forall_forall. intros x Hx. apply in_map_iff in Hx. destruct Hx as (t & <- & _). exact I.
  - apply Forall_app. split.
    + destruct (0 <? b - a) eqn:E; constructor; [lia|constructor].
    + destruct cs as [|t cs]; [apply IH|]. constructor; [exact I|apply IH].
Qed.

Lemma compile_pads c start length chunks alloc : compile_struct c start length = Ok (chunks, alloc) -> pads_ok chunks.
Proof.
  intros H. destruct (compile_cases c start length) as [(E & _)|[(E & _)|(d & len & E & _)]]; rewrite E in H; try discriminate.
  injection H as <- <-. apply format_pads.
Qed.

(* a class that starts elsewhere or has another length *)
Definition placed (c : fmt) (start : Z) (length : option Z) : fmt := mk_fmt (fmt_levels c) start length (fmt_attrs c).

Lemma placed_ok c start length : class_ok c -> class_ok (placed c start length).
Proof. exact (fun H => H). Qed.

Lemma compile_placed c start length : compile_struct c start length = compile_struct (placed c start length) start length.
Proof. reflexivity. Qed.

Lemma nth_error_map_ok {A B} (f : A -> B) l k y : nth_error (map f l) k = Some y -> exists x, nth_error l k = Some x /\ y = f x.
Proof. rewrite nth_error_map. destruct (nth_error l k) as [x|]; [|discriminate]. intros [= <-]. eauto. Qed.

Section Compiled.
  Variables (c : fmt) (start : Z) (length : option Z) (e : endian) (s : list ascii) (alloc : list (list string)).
  Hypothesis K : class_ok c.
  Hypothesis ST : forall f, is_field c f -> start <= fd_offset f.
  Hypothesis CF : compile_format c start length e = Ok (s, alloc).

  Lemma compiled_is : exists d len, s = endian_char e :: concat (map chunk_chars (chunks_for 0 (items_of d) len)) /\
    alloc = map (fun g => map fd_name (snd g)) d /\ compiled (class_fields c) start length d len /\ laid_out 0 (items_of d) len /\ format_length c start length len /\
    pads_ok (chunks_for 0 (items_of d) len).
  Proof.
    assert (FI : forall f, In f (class_fields c) <-> is_field c f) by (intros; apply class_fields_In; auto using class_ok_levels).
    unfold compile_format in CF. destruct (compile_cases c start length) as [(E & _)|[(E & _)|(d & len & E & LB & TB & C)]]; rewrite E in CF; try discriminate.
    cbn [bind] in CF. injection CF as <- <-. exists d, len. split; [reflexivity|]. split; [reflexivity|]. split; [exact C|].
    split; [|split].
    - apply (compiled_laid_out _ _ _ _ _ C).
      + intros f Hf. apply ST. now apply FI.
      + intros Q. apply TB. now left.
    - destruct C as (_ & _ & _ & M & Q). unfold format_length. destruct length; [exact Q|]. destruct Q as (f & Hf & Q).
      split; [exists f; split; [now apply FI|exact Q]|]. intros g Hg. apply M. now apply FI.
    - apply format_pads.
  Qed.

  Lemma usage_all d len buf : alloc = map (fun g => map fd_name (snd g)) d -> compiled (class_fields c) start length d len ->
    laid_out 0 (items_of d) len -> all_bytes buf -> zlen buf = len ->
    usage c start e alloc buf (map (fun p => slice_value e buf (fst p) (snd p)) (items_of d)).
  Proof.
    intros -> C L B Z0. pose proof (placed_ok c start length K) as K'.
    assert (GI : forall g f, In g d -> In f (snd g) -> is_field c f /\ item_of g = (fd_offset f - start, ft_ctype (fd_type f))).
    { intros g f Hg Hf. split; [apply (group_fields_are (placed c start length) d len K' C g f Hg Hf)|apply (group_item (placed c start length) d len K' C g f Hg Hf)]. }
    split; [unfold items_of; now rewrite !map_length|]. split.
    - intros k names v Hn Hv. apply nth_error_map_ok in Hn. destruct Hn as (g & Hg & ->). apply nth_error_map_ok in Hv.
      destruct Hv as (it & Hit & ->). unfold items_of in Hit. apply nth_error_map_ok in Hit. destruct Hit as (g' & Hg' & ->).
      assert (g' = g) by congruence. subst g'. pose proof (nth_error_In _ _ Hg) as I.
      split.
      { pose proof C as ((_ & GF) & _). rewrite Forall_forall in GF. destruct (GF _ I) as (N & _). destruct (snd g); [easy|discriminate]. }
      intros n Hn. apply in_map_iff in Hn. destruct Hn as (f & <- & Hf). destruct (GI g f I Hf) as (F & E). exists f. split; [exact F|]. split; [reflexivity|].
      rewrite E. cbn [fst snd]. rewrite <- size_of_field. unfold size_of.
      assert (IN : In (fd_offset f - start, ft_ctype (fd_type f)) (items_of d)) by (rewrite <- E; now apply in_map).
      destruct (laid_out_In _ _ _ _ _ L IN) as (P & Q). apply slice_stored; auto. lia.
    - intros f Hf. destruct (compiled_group _ _ _ _ _ f C) as (g & Hg & Hf' & _).
      { apply class_fields_In; auto using class_ok_levels. }
      destruct (In_nth_error _ _ Hg) as (k & Hk). exists k, (map fd_name (snd g)).
      split; [rewrite nth_error_map, Hk; reflexivity|]. split; [now apply in_map|].
      intros k' names' Hn Hi. apply nth_error_map_ok in Hn. destruct Hn as (g' & Hg' & ->). apply in_map_iff in Hi. destruct Hi as (f' & N & Hf2).
      pose proof (nth_error_In _ _ Hg') as I'.
      assert (f' = f).
      { destruct (GI g' f' I' Hf2) as (F' & _). pose proof (is_field_class c f' K F') as A. pose proof (is_field_class c f K Hf) as A'. congruence. }
      subst f'. destruct (GI g f Hg Hf') as (_ & E). destruct (GI g' f I' Hf2) as (_ & E').
      assert (fst g = fst g') by (apply (f_equal fst) in E, E'; cbn in E, E'; congruence).
      pose proof C as ((S & _) & _). clear - Hk Hg' H S.
      assert (ND : NoDup (map fst d)).
      { clear - S. induction S as [|a l S IH F]; constructor; auto. intros Hin. rewrite Forall_forall in F. specialize (F _ Hin). lia. }
      rewrite NoDup_nth_error in ND. symmetry. apply ND.
      + rewrite map_length. apply nth_error_Some. congruence.
      + rewrite !nth_error_map, Hk, Hg'. cbn. now f_equal.
  Qed.

  (* the Usage of the documentation *)
  Lemma format_usage : exists st len, make_structure s = Ok st /\ st_format st = s /\ format_length c start length len /\ st_size st = len /\
    forall buf, all_bytes buf ->
      (zlen buf = len -> exists vs, st_unpack st buf = Ok vs /\ usage c start e alloc buf vs) /\
      (zlen buf <> len -> st_unpack st buf = Err StructError).
  Proof.
    destruct compiled_is as (d & len & S & A & C & L & FL & P). exists (mk_structure s e (expand (chunks_for 0 (items_of d) len))), len.
    split; [rewrite S; apply parse_format|]. split; [reflexivity|]. split; [exact FL|].
    split. { unfold st_size. cbn [st_chunks]. rewrite size_expand by exact P. rewrite chunks_for_size by exact L. lia. }
    intros buf B. unfold st_unpack. cbn [st_chunks st_endian]. rewrite unpack_expand by exact P. rewrite (struct_unpack_chunks e _ _ buf L). split; intros Q.
    - apply Z.eqb_eq in Q. rewrite Q. eexists. split; [reflexivity|]. apply (usage_all d len); auto. lia.
    - apply Z.eqb_neq in Q. now rewrite Q.
  Qed.

  (* packing values *)
  Lemma format_pack : exists st len, make_structure s = Ok st /\ format_length c start length len /\
    forall vs,
      (exists buf, st_pack st vs = Ok buf /\ zlen buf = len /\ all_bytes buf /\ usage c start e alloc buf vs /\
         forall i, 0 <= i < len -> in_gap c start i -> byte_at buf i = 0) \/
      (st_pack st vs = Err StructError /\
         (List.length vs <> List.length alloc \/
          exists k names n f v, nth_error alloc k = Some names /\ In n names /\ is_field c f /\ fd_name f = n /\ nth_error vs k = Some v /\ ~ in_ctype (ft_ctype (fd_type f)) v)).
  Proof.
    destruct compiled_is as (d & len & S & A & C & L & FL & P). exists (mk_structure s e (expand (chunks_for 0 (items_of d) len))), len.
    split; [rewrite S; apply parse_format|]. split; [exact FL|]. intros vs. pose proof (placed_ok c start length K) as K'.
    assert (GI : forall g f, In g d -> In f (snd g) -> is_field c f /\ item_of g = (fd_offset f - start, ft_ctype (fd_type f))).
    { intros g f Hg Hf. split; [apply (group_fields_are (placed c start length) d len K' C g f Hg Hf)|apply (group_item (placed c start length) d len K' C g f Hg Hf)]. }
    assert (LA : List.length alloc = List.length (items_of d)) by (rewrite A; unfold items_of; now rewrite !map_length).
    unfold st_pack. cbn [st_chunks st_endian]. rewrite pack_expand.
    destruct (struct_pack_chunks e (items_of d) 0 len vs L) as [(buf & E & Hl & Hz & Hb & Hst & Hg)|(E & Hbad)].
    - left. exists buf. split; [exact E|]. split; [lia|]. split; [exact Hb|]. split.
      + pose proof (usage_all d len buf A C L Hb ltac:(lia)) as (U1 & U2 & U3).
        assert (EV : map (fun p => slice_value e buf (fst p) (snd p)) (items_of d) = vs).
        { clear - Hst Hl. assert (H : forall its ws, List.length ws = List.length its ->
            (forall o t v, In (o, t, v) (combine its ws) -> in_ctype t v /\ stored_at e buf (o - 0) (ctype_size t) v) ->
            map (fun p => slice_value e buf (fst p) (snd p)) its = ws).
          { induction its as [|[o t] its IH]; intros [|w ws] HL H; try discriminate; [reflexivity|]. cbn [map fst snd]. f_equal.
            - destruct (H o t w) as (I1 & I2); [now left|]. rewrite Z.sub_0_r in I2. unfold slice_value.
              apply (unpack_pack_int e t). now apply stored_slice.
            - apply IH; [now injection HL|]. intros. apply H. now right. }
          now apply H. }
        rewrite EV in U1, U2. split; [exact U1|]. split; [exact U2|exact U3].
      + intros i Hi Gap. apply Hg; [lia|]. intros o t Hin. apply in_map_iff in Hin. destruct Hin as (g & Eg & Ig).
        destruct (snd g) as [|f fs] eqn:Sg.
        { pose proof C as ((_ & GF) & _). rewrite Forall_forall in GF. destruct (GF _ Ig) as (N & _). now rewrite Sg in N. }
        destruct (GI g f Ig) as (F & Ei); [rewrite Sg; now left|]. rewrite Ei in Eg. injection Eg as <- <-. specialize (Gap f F).
        rewrite <- size_of_field in Gap. unfold size_of in Gap. lia.
    - right. split; [exact E|]. destruct Hbad as [Hbad|(o & t & v & Hin & Hv)]; [left; lia|]. right.
      destruct (In_nth_error _ _ Hin) as (k & Hk).
      assert (Hk2 : nth_error (items_of d) k = Some (o, t) /\ nth_error vs k = Some v).
      { clear - Hk. revert vs k Hk. generalize (items_of d). induction l as [|x l IH]; intros [|w vs] [|k] Hk; try discriminate.
        - cbn in Hk. injection Hk as -> ->. auto.
        - apply (IH vs k Hk). }
      destruct Hk2 as (Hi & Hvk). unfold items_of in Hi. apply nth_error_map_ok in Hi. destruct Hi as (g & Hg & Eg). pose proof (nth_error_In _ _ Hg) as Ig.
      destruct (snd g) as [|f fs] eqn:Sg.
      { pose proof C as ((_ & GF) & _). rewrite Forall_forall in GF. destruct (GF _ Ig) as (N & _). now rewrite Sg in N. }
      destruct (GI g f Ig) as (F & Ei); [rewrite Sg; now left|]. rewrite Ei in Eg. injection Eg as -> ->.
      exists k, (map fd_name (snd g)), (fd_name f), f, v. split; [rewrite A, nth_error_map, Hg; reflexivity|].
      split; [rewrite Sg; now left|]. auto.
  Qed.
End Compiled.

(* ------------------------------------------------------------------ *)
(* packer objects *)

Lemma pobject_exists c e : (exists p, make_header_packer c e = Ok p) <-> exists o, make_pobject c e = Ok o.
Proof.
  unfold make_header_packer, make_pobject, compile_format. destruct (compile_struct c (fmt_start c) (fmt_length c)) as [[chunks alloc]|y]; cbn [bind].
  - rewrite parse_format. cbn [bind]. split; intros _; eexists; reflexivity.
  - split; intros (x & H); discriminate.
Qed.

Lemma pobject_agrees c e o : make_pobject c e = Ok o -> exists p, make_header_packer c e = Ok p /\ po_cls o = c /\
  make_structure (st_format (po_struct o)) = Ok (po_struct o) /\
  (forall h, po_pack o h = pk_pack p h) /\ (forall b, po_unpack o b = pk_unpack p b).
Proof.
  unfold make_header_packer, make_pobject, compile_format. destruct (compile_struct c (fmt_start c) (fmt_length c)) as [[chunks alloc]|y] eqn:E; cbn [bind]; [|discriminate].
  pose proof (compile_pads _ _ _ _ _ E) as P.
  rewrite parse_format. cbn [bind]. intros [= <-]. eexists. split; [reflexivity|]. split; [reflexivity|]. split; [apply parse_format|]. split.
  - intros h. unfold po_pack, pk_pack, st_pack. cbn [po_cls po_struct po_alloc po_bijective pk_cls pk_alloc pk_bijective pk_endian pk_chunks st_endian st_chunks].
    destruct (negb (isinstance h c)); auto. destruct (if forallb _ alloc then _ else _); cbn [bind]; auto.
    destruct (map_res (first_value h) alloc); cbn [bind]; auto. apply pack_expand.
  - intros b. unfold po_unpack, pk_unpack, st_unpack. cbn [po_cls po_struct po_alloc po_bijective pk_cls pk_alloc pk_bijective pk_endian pk_chunks st_endian st_chunks].
    now rewrite unpack_expand by exact P.
Qed.

Lemma pobject_err c e y : make_pobject c e = Err y <-> make_header_packer c e = Err y.
Proof.
  unfold make_header_packer, make_pobject, compile_format. destruct (compile_struct c (fmt_start c) (fmt_length c)) as [[chunks alloc]|z]; cbn [bind].
  - rewrite parse_format. cbn [bind]. split; discriminate.
  - split; intros [= ->]; reflexivity.
Qed.

Lemma pobject_pickles c e o v v' : make_pobject c e = Ok o ->
  (v = v' -> po_setstate v' (po_getstate v o) = Ok o) /\ (v <> v' -> po_setstate v' (po_getstate v o) = Err TypeError).
Proof.
  intros M. destruct (pobject_agrees c e o M) as (_ & _ & _ & S & _). unfold po_setstate, po_getstate.
  cbn [ps_version ps_cls ps_format ps_alloc ps_bijective]. split; intros H.
  - subst v'. rewrite Z.eqb_refl. cbn [negb]. rewrite S. cbn [bind]. now destruct o.
  - apply Z.eqb_neq in H. now rewrite H.
Qed.
