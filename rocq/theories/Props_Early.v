(* Formats with fields before the start offset (C76) and the arguments of the
   header constructor (C77): what the code does instead. *)
From Coq Require Import String ZArith List Bool Lia.
From Verif Require Import Py Packing Spec_Packing Spec_Early PackingFacts FormatFacts HeaderFacts EarlyFacts.
Import ListNotations.
Local Open Scope string_scope.
Open Scope list_scope.
Open Scope Z_scope.

(* A packed header has the length of its format exactly if no field of the format
   lies before the start offset. *)
Theorem C76_exact : forall c e p h buf, class_ok c -> (forall f, is_field c f -> 0 <= fd_offset f) ->
  make_header_packer c e = Ok p -> h_cls h = c -> header_ok h -> pk_pack p h = Ok buf ->
  (header_length c (zlen buf) <-> starts_ok c).
Proof. exact early_length. Qed.
Print Assumptions C76_exact.

(* If the first field begins before it, everything is moved: the header is longer
   by as much, and every field is behind its place by as much. *)
Theorem C76_effect : forall c e p h m, class_ok c -> first_offset c m -> 0 <= m <= fmt_start c ->
  make_header_packer c e = Ok p -> h_cls h = c -> header_ok h ->
  exists len, header_length c len /\
    forall buf, pk_pack p h = Ok buf -> zlen buf = len + (fmt_start c - m) /\
      forall f v, is_field c f -> hdr_get h (fd_name f) = Ok v ->
        stored_at e buf (fd_offset f - fmt_start c + (fmt_start c - m)) (field_size f) v.
Proof.
  intros c e p h m K (Ex & Lo) Hm M C HO. destruct (moved_pack c e p m h Ex K Lo Hm M C HO) as (len & L & P). exists len. split; [exact L|].
  intros buf E. destruct (P buf E) as (Z1 & S). split; [exact Z1|]. intros f v Hf G. replace (fd_offset f - fmt_start c + (fmt_start c - m)) with (fd_offset f - m) by lia. now apply S.
Qed.
Print Assumptions C76_effect.

(* So no bytes of the length of the format can be unpacked. *)
Theorem C76_unusable : forall c e p m len buf, class_ok c -> first_offset c m -> 0 <= m < fmt_start c ->
  make_header_packer c e = Ok p -> header_length c len -> zlen buf = len -> pk_unpack p buf = Err ValueError.
Proof.
  intros c e p m len buf K (Ex & Lo) Hm M L Z1. apply (early_unpack c e p m buf K Lo Ex) with (len := len); auto; lia.
Qed.
Print Assumptions C76_unusable.

Example C76_example : class_ok early /\ first_offset early 1 /\ fmt_start early = 3 /\
  exists p h, make_header_packer early Big = Ok p /\ hdr_init early [] [("a", 258); ("b", 772)] = Ok h /\
    pk_pack p h = Ok [1; 2; 0; 0; 3; 4] /\ pk_unpack p [1; 2; 0; 0] = Err ValueError.
Proof.
  split; [apply early_accepted|]. split.
  { split.
    - exists (mk_field "a" Formats.Int16 1 0). split; [|reflexivity]. exists [], ("Early", [mk_field "a" Formats.Int16 1 0; mk_field "b" Formats.Int16 5 0]), [].
      split; [reflexivity|]. split; [now left|]. intros l g [].
    - intros f (l1 & l & l2 & E & I & _). assert (In l (fmt_levels early)) by (rewrite E; apply in_or_app; right; now left).
      destruct H as [<-|[]]. destruct I as [<-|[<-|[]]]; cbn; lia. }
  split; [reflexivity|]. eexists. eexists. repeat (apply conj; [vm_compute; reflexivity|]). vm_compute. reflexivity.
Qed.

(* Keyword arguments: a header is made exactly if every keyword is the name of a
   field that accepts the value or of another attribute of the class, methods
   included.  Else the first keyword that is neither decides: TypeError if the
   class has nothing of that name, ValueError if the field does not accept the
   value. *)
Theorem C77_keywords_partial : forall c kws, class_ok c ->
  ((exists h, hdr_init c [] kws = Ok h) /\ forall n v, In (n, v) kws -> recognised c n /\ value_ok c n v) \/
  (exists k1 n v k2, kws = k1 ++ (n, v) :: k2 /\ (forall m w, In (m, w) k1 -> recognised c m /\ value_ok c m w) /\
     ((hdr_init c [] kws = Err TypeError /\ ~ recognised c n) \/
      (hdr_init c [] kws = Err ValueError /\ recognised c n /\ ~ value_ok c n v))).
Proof.
  intros c kws K. rewrite init_keywords.
  destruct (keywords_outcome kws (mk_header c [] [])) as [((h & S & _) & A)|H]; [exact K|intros m []| |].
  - left. split; [eauto|exact A].
  - right. exact H.
Qed.
Print Assumptions C77_keywords_partial.

(* Positional arguments that are too many are dropped. *)
Theorem C77_positional : forall c args kws, hdr_init c args kws = hdr_init c (firstn (List.length (ordered_field_names c)) args) kws.
Proof. exact arguments_dropped. Qed.
Print Assumptions C77_positional.

(* A keyword that names no field has no effect on the fields. *)
Theorem C77_no_effect : forall c args k1 n v k2 h, class_ok c -> (forall f, is_field c f -> fd_name f <> n) ->
  hdr_init c args (k1 ++ (n, v) :: k2) = Ok h -> exists h', hdr_init c args (k1 ++ k2) = Ok h' /\ same_fields h h'.
Proof. exact attribute_no_effect. Qed.
Print Assumptions C77_no_effect.

Example C77_example :
  recognised early "copy" /\ (exists h, hdr_init early [] [("copy", 5); ("a", 3)] = Ok h /\ hdr_get h "a" = Ok 3) /\
  hdr_init early [] [("a", 3); ("copi", 5)] = Err TypeError /\ hdr_init early [] [("a", 70000); ("copi", 5)] = Err ValueError.
Proof.
  split; [right; vm_compute; tauto|]. split; [eexists; split; vm_compute; reflexivity|]. split; vm_compute; reflexivity.
Qed.
