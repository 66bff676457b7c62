(* Header formats as classes with any number of bases (C130) and sub-formats (C131). *)
From Coq Require Import String ZArith List Bool Lia.
From Verif Require Import Py Catalog Packing Formats Classes Spec_Classes ClassesFacts ClassesMade.
Import ListNotations.
Local Open Scope string_scope.
Open Scope list_scope.
Open Scope Z_scope.

(* ------------------------------------------------------------------ *)
(* C130 *)

(* Whatever classes a program declares: the names that ordered_field_names() gives for
   one of them are the fields of the classes on the way from it to the first of its
   bases, and so on up to BaseHeader, the oldest first.  Other bases do not count. *)
Theorem C130_order : forall ds t c l, declare_all ds = Ok t -> first_chain t c l -> field_names t c = Ok l.
Proof. intros ds t c l H. apply chain_order. apply declare_all_good with (1 := H). Qed.
Print Assumptions C130_order.

(* If that way leads to a class that is not a format, it raises AttributeError; one or
   the other is so for every format. *)
Theorem C130_outcome : forall ds t c, declare_all ds = Ok t -> format t c ->
  (exists l, first_chain t c l /\ field_names t c = Ok l) \/
  (exists a, reaches t c a /\ ~ format t a /\ field_names t c = Err AttributeError).
Proof.
  intros ds t c H F. assert (G := declare_all_good _ _ H). destruct (chain_or_lost t G c F) as [[l L]|(a & R & N)].
  - left. exists l. split; [exact L|]. apply chain_order; assumption.
  - right. exists a. split; [exact R|]. split; [exact N|]. apply lost with (a := a); assumption.
Qed.
Print Assumptions C130_outcome.

(* A format that is derived from classes with one base each has all the fields of all
   of them. *)
Theorem C130_all_fields_partial : forall ds t c, declare_all ds = Ok t -> format t c -> single t c ->
  exists l, field_names t c = Ok l /\ forall b n ty o d, derives t c b -> declares t b n ty o d -> In n l.
Proof.
  intros ds t c H F S. assert (G := declare_all_good _ _ H). destruct (single_fields t G c F S) as (l & L & A).
  exists l. split; [apply chain_order; assumption|exact A].
Qed.
Print Assumptions C130_all_fields_partial.

(* Such a format is what the rest of the model takes a format to be: the list of the
   classes that it is derived from, with their fields. *)
Theorem C130_described : forall ds t c, declare_all ds = Ok t -> format t c -> single t c -> unmixed t c ->
  field_names t c = Ok (ordered_field_names (class_fmt t c)) /\
  forall n, match class_getattr t c n with
            | Ok (AField ty o d) => class_field (class_fmt t c) n = Some (mk_field n ty o d)
            | _ => class_field (class_fmt t c) n = None
            end.
Proof.
  intros ds t c H F S U. assert (G := declare_all_good _ _ H). destruct (described t G c F S U) as [A B].
  split; [apply chain_order; assumption|exact B].
Qed.
Print Assumptions C130_described.
(* Its length and where it starts are those attributes, wherever inherited from. *)
Theorem C130_extent : forall (t : table) (c : nat),
  (forall v, class_getattr t c "LENGTH_IN_BYTES" = Ok (AOther v) -> fmt_length (class_fmt t c) = Some v) /\
  ((forall v, class_getattr t c "LENGTH_IN_BYTES" <> Ok (AOther v)) -> fmt_length (class_fmt t c) = None) /\
  (forall v, class_getattr t c "START_OFFSET_IN_BYTES" = Ok (AOther v) -> fmt_start (class_fmt t c) = v).
Proof.
  intros t c. unfold class_fmt, int_attr. cbn [fmt_length fmt_start]. split; [now intros v ->|]. split; [|now intros v ->].
  intros N. destruct (class_getattr t c "LENGTH_IN_BYTES") as [[| |w]|]; try reflexivity. now destruct (N w).
Qed.
Print Assumptions C130_extent.

(* class A(Header): a = field(Int32, ...); class B(Header): b = field(Int32, ...); class C(A, B):
   the field b of C can be used, but it is not among the fields, so it is
   neither read nor written. *)
Definition two_bases : list decl := [
  Format "A" [HEADER] [("LENGTH_IN_BYTES", AOther 8); ("a", AField Int32 0 0)];
  Format "B" [HEADER] [("b", AField Int32 4 0)];
  Plain "C" [3; 4]%nat []].
Theorem C130_all_fields_refuted : exists ds t c b, declare_all ds = Ok t /\ format t c /\ derives t c b /\
  declares t b "b" Int32 4 0 /\ class_getattr t c "b" = Ok (AField Int32 4 0) /\ field_names t c = Ok ["a"].
Proof.
  exists two_bases. eexists. exists 5%nat, 4%nat. split; [vm_compute; reflexivity|].
  split.
  - eapply derives_base; [eexists; split; [reflexivity|left; reflexivity]|].
    eapply derives_base; [eexists; split; [reflexivity|left; reflexivity]|].
    eapply derives_base; [eexists; split; [reflexivity|left; reflexivity]|].
    apply derives_self. apply Nat.ltb_lt. reflexivity.
  - split; [eapply derives_base; [eexists; split; [reflexivity|right; left; reflexivity]|apply derives_self; apply Nat.ltb_lt; reflexivity]|].
    split; [left; reflexivity|]. split; vm_compute; reflexivity.
Qed.
Print Assumptions C130_all_fields_refuted.

(* class Mixin: ...; class F(Mixin, Header): a = field(Int32, ...): the class can be
   made, but it has no ordered_field_names(), and so no header of it can be made, read or
   written. *)
Definition mixin_first : list decl := [
  Plain "Mixin" [] [("extra", AOther 1)];
  Plain "F" [3; HEADER]%nat [("LENGTH_IN_BYTES", AOther 4); ("a", AField Int32 0 0)]].
Theorem C130_mixin_refuted : exists ds t c, declare_all ds = Ok t /\ format t c /\ declares t c "a" Int32 0 0 /\
  field_names t c = Err AttributeError.
Proof.
  exists mixin_first. eexists. exists 4%nat. split; [vm_compute; reflexivity|]. split.
  - eapply derives_base; [eexists; split; [reflexivity|right; left; reflexivity]|].
    eapply derives_base; [eexists; split; [reflexivity|left; reflexivity]|].
    apply derives_self. apply Nat.ltb_lt. reflexivity.
  - split; [right; left; reflexivity|]. vm_compute. reflexivity.
Qed.
Print Assumptions C130_mixin_refuted.

(* From any class but a sub-format another can be derived.  It has what its body says,
   the last assignment to each name, and what the class it is derived from has for other
   names. *)
Theorem C130_inherits : forall ds t name b body, declare_all ds = Ok t -> (b < length t)%nat -> is_sub t b = false ->
  exists t', declare t (Plain name [b] body) = Ok t' /\
    (forall n, class_getattr t' (length t) n = match od_get String.eqb (rev body) n with Ok a => Ok a | Err _ => class_getattr t b n end) /\
    (forall a, derives t' (length t) a <-> a = length t \/ derives t b a).
Proof.
  intros ds t name b body H L S. destruct (declare_all_metas _ _ H) as [G M].
  destruct (derive_one t name b body G M L S) as (t' & D & A & I). exists t'. split; [exact D|]. split; [exact A|].
  intros a. rewrite <- (mro_derives t' (length t) a (declare_good _ _ _ G D)), <- (mro_derives t b a G). apply I.
Qed.
Print Assumptions C130_inherits.

(* The hypotheses are met: three generations; and a mixin that comes last does no harm. *)
Definition generations : list decl := [
  Plain "Mixin" [] [("extra", AOther 1)];
  Format "A" [HEADER] [("LENGTH_IN_BYTES", AOther 8); ("a", AField Int32 0 0)];
  Plain "B" [4]%nat [("b", AField Int16 4 7)];
  Plain "D" [5]%nat [("d", AField Int16 6 0); ("a", AField Int32 0 5)];
  Plain "E" [6; 3]%nat [("e", AField Int16 2 0)]].
Example C130_nonvacuous : exists t, declare_all generations = Ok t /\
  first_chain t 6 ["a"; "b"; "d"; "a"] /\ first_chain t 7 ["a"; "b"; "d"; "a"; "e"] /\
  format t 6 /\ single t 6 /\ unmixed t 6 /\ ordered_field_names (class_fmt t 6) = ["a"; "b"; "d"; "a"] /\
  class_field (class_fmt t 6) "a" = Some (mk_field "a" Int32 0 5).
Proof.
  eexists. split; [vm_compute; reflexivity|].
  match goal with |- first_chain ?t _ _ /\ _ => set (u := t) end.
  assert (A2 : first_chain u 2 []) by (apply (chain_step u 2 1 []); [discriminate|eexists; eexists; split; reflexivity|constructor]).
  assert (A4 : first_chain u 4 ["a"]) by (apply (chain_step u 4 2 []); [discriminate|eexists; eexists; split; reflexivity|exact A2]).
  assert (A5 : first_chain u 5 ["a"; "b"]) by (apply (chain_step u 5 4 ["a"]); [discriminate|eexists; eexists; split; reflexivity|exact A4]).
  assert (A6 : first_chain u 6 ["a"; "b"; "d"; "a"]) by (apply (chain_step u 6 5 ["a"; "b"]); [discriminate|eexists; eexists; split; reflexivity|exact A5]).
  split; [exact A6|]. split; [apply (chain_step u 7 6 ["a"; "b"; "d"; "a"]); [discriminate|eexists; eexists; split; reflexivity|exact A6]|].
  split.
  - do 4 (eapply derives_base; [eexists; split; [reflexivity|left; reflexivity]|]). apply derives_self. apply Nat.ltb_lt. reflexivity.
  - assert (L : forall a, derives u 6 a -> (a < 7)%nat).
    { intros a D. assert (K : forall c, derives u c a -> (c < 7)%nat -> (a < 7)%nat).
      { intros c E. induction E as [c _|c b a (q & Q & I) E IH]; [tauto|]. intros L. apply IH; [exact D|].
        do 7 (destruct c as [|c]; [injection Q as <-; cbn in I; lia|]). lia. }
      apply (K 6%nat D). lia. }
    split; [|split].
    + intros a k D. specialize (L a D). do 7 (destruct a as [|a]; [intros E; injection E as <-; cbn; lia|]). lia.
    + assert (F : forall b n a, derives u 6 b -> In (n, a) (ns u b) -> is_field a = existsb (String.eqb n) ["a"; "b"; "d"]).
      { intros b n a D. specialize (L b D).
        do 7 (destruct b as [|b]; [cbn; intros I; repeat (destruct I as [I|I]; [injection I as <- <-; reflexivity|]); destruct I|]). lia. }
      intros b b' n a a' D D' I I'. rewrite (F b n a D I), (F b' n a' D' I'). reflexivity.
    + split; vm_compute; reflexivity.
Qed.

(* ------------------------------------------------------------------ *)
(* C131 *)

(* A field that is asked for has the type, the offset and the default that it has in the
   parent, if no class that the parent is derived from gives its name to something else. *)
Theorem C131_fields_partial : forall ds t name bases body parent names t' n, declare_all ds = Ok t ->
  declare t (SubFormat name bases body parent names) = Ok t' -> In n names ->
  (forall b v, derives t parent b -> ~ In (n, AOther v) (ns t b)) ->
  exists ty o x, class_getattr t parent n = Ok (AField ty o x) /\ class_getattr t' (length t) n = Ok (AField ty o x).
Proof.
  intros ds t name bases body parent names t' n H D I M.
  apply (sub_fields_kept t name bases body parent names t' n (declare_all_good _ _ H) D I M).
Qed.
Print Assumptions C131_fields_partial.

(* With nothing in its body it has these fields only, in the order asked for. *)
Theorem C131_names_partial : forall ds t name parent names t', declare_all ds = Ok t ->
  declare t (SubFormat name [] [] parent names) = Ok t' -> NoDup names ->
  (forall n b v, In n names -> derives t parent b -> ~ In (n, AOther v) (ns t b)) ->
  field_names t' (length t) = Ok names.
Proof.
  intros ds t name parent names t' H D N M. assert (G := declare_all_good _ _ H).
  apply (sub_names t name parent names t' G D (declare_good _ _ _ G D) N M).
Qed.
Print Assumptions C131_names_partial.

(* Any other name that does not begin with an underscore has the value of the LAST of
   the classes that are searched for it in the parent, up to BaseHeader. *)
Theorem C131_attributes : forall ds t name bases body parent names t' n v pre rest, declare_all ds = Ok t ->
  declare t (SubFormat name bases body parent names) = Ok t' -> public n ->
  mro t parent = pre ++ BASE_HEADER :: rest -> ~ In BASE_HEADER pre -> bound_last t (pre ++ [BASE_HEADER]) n v ->
  class_getattr t' (length t) n = Ok (AOther v).
Proof.
  intros ds t name bases body parent names t' n v pre rest H D P M N B.
  apply (sub_attribute t name bases body parent names t' n v pre rest (declare_all_named _ _ H) D P M N B).
Qed.
Print Assumptions C131_attributes.

(* So it has the value that it has in the parent if the classes the parent is derived
   from have one base each and give it no other value. *)
Theorem C131_attributes_partial : forall ds t name bases body parent names t' n v, declare_all ds = Ok t ->
  declare t (SubFormat name bases body parent names) = Ok t' -> public n -> format t parent -> single t parent ->
  class_getattr t parent n = Ok (AOther v) -> (forall b w, derives t parent b -> In (n, AOther w) (ns t b) -> w = v) ->
  class_getattr t' (length t) n = Ok (AOther v).
Proof.
  intros ds t name bases body parent names t' n v H D P F S A U.
  apply (sub_attribute_single t name bases body parent names t' n v (declare_all_good _ _ H) (declare_all_named _ _ H) D P F S A U).
Qed.
Print Assumptions C131_attributes_partial.

(* class Base(Header): LENGTH_IN_BYTES = 4 ...; class Derived(Base): LENGTH_IN_BYTES = 8,
   b = field(Int32, 4, ...): a sub-format of Derived has the length of Base.  Headers of
   Derived can be packed, those of the sub-format cannot. *)
Definition longer : list decl := [
  Format "Base" [HEADER] [("START_OFFSET_IN_BYTES", AOther 0); ("LENGTH_IN_BYTES", AOther 4); ("a", AField Int32 0 0)];
  Plain "Derived" [3]%nat [("LENGTH_IN_BYTES", AOther 8); ("b", AField Int32 4 0)]].
Theorem C131_refuted : exists t t' pk, declare_all longer = Ok t /\
  declare t (SubFormat "Sub" [] [] 4 ["b"]) = Ok t' /\
  class_getattr t 4 "LENGTH_IN_BYTES" = Ok (AOther 8) /\ class_getattr t' 5 "LENGTH_IN_BYTES" = Ok (AOther 4) /\
  make_header_packer (class_fmt t 4) Big = Ok pk /\ make_header_packer (class_fmt t' 5) Big = Err ValueError.
Proof.
  eexists. eexists. eexists. do 5 (split; [vm_compute; reflexivity|]). vm_compute. reflexivity.
Qed.
Print Assumptions C131_refuted.

(* class Base(Header): b = 4; class Derived(Base): b = field(Int32, ...): a sub-format of
   Derived with the field b does not have it. *)
Definition hidden : list decl := [
  Format "Base" [HEADER] [("LENGTH_IN_BYTES", AOther 4); ("b", AOther 4)];
  Plain "Derived" [3]%nat [("b", AField Int32 0 0)]].
Theorem C131_fields_refuted : exists t t', declare_all hidden = Ok t /\
  declare t (SubFormat "Sub" [] [] 4 ["b"]) = Ok t' /\
  class_getattr t 4 "b" = Ok (AField Int32 0 0) /\ class_getattr t' 5 "b" = Ok (AOther 4) /\ field_names t' 5 = Ok [].
Proof. eexists. eexists. do 4 (split; [vm_compute; reflexivity|]). vm_compute. reflexivity. Qed.
Print Assumptions C131_fields_refuted.

(* A sub-format can be made of any names that are fields of the parent, if only classes
   derived from Header give values to them. *)
Theorem C131_made : forall ds t name body parent names, declare_all ds = Ok t ->
  (forall n, In n names -> exists ty o x, class_getattr t parent n = Ok (AField ty o x)) ->
  (forall n b x, In n names -> derives t parent b -> In (n, x) (ns t b) -> derives t b HEADER) ->
  exists t', declare t (SubFormat name [] body parent names) = Ok t'.
Proof. intros ds t name body parent names H. destruct (declare_all_metas _ _ H) as [G M]. apply sub_format_made; assumption. Qed.
Print Assumptions C131_made.

(* Of a name that is not a field of the parent it cannot. *)
Theorem C131_refused : forall t name bases body parent names n, In n names ->
  (forall ty o x, class_getattr t parent n <> Ok (AField ty o x)) ->
  declare t (SubFormat name bases body parent names) = Err AttributeError \/
  declare t (SubFormat name bases body parent names) = Err AssertionError.
Proof. exact sub_format_refused. Qed.
Print Assumptions C131_refused.

(* class Mixin: a = field(Int32, ...); class F(Header, Mixin): the field a has no name, and
   a sub-format with it cannot be made. *)
Definition unnamed : list decl := [
  Plain "Mixin" [] [("a", AField Int32 0 0)];
  Plain "F" [HEADER; 3]%nat [("LENGTH_IN_BYTES", AOther 4)]].
Theorem C131_made_refuted : exists t, declare_all unnamed = Ok t /\ class_getattr t 4 "a" = Ok (AField Int32 0 0) /\
  declare t (SubFormat "Sub" [] [] 4 ["a"]) = Err AssertionError.
Proof. eexists. do 2 (split; [vm_compute; reflexivity|]). vm_compute. reflexivity. Qed.
Print Assumptions C131_made_refuted.

(* Whatever copy() the parent defines and whatever the body of the sub-format says:
   the copy() of a sub-format is the one of BaseHeader. *)
Theorem C131_copy_refuted : forall ds t name bases body parent names t', declare_all ds = Ok t -> format t parent ->
  declare t (SubFormat name bases body parent names) = Ok t' ->
  class_getattr t' (length t) "copy" = class_getattr t BASE_HEADER "copy".
Proof.
  intros ds t name bases body parent names t' H F D. assert (G := declare_all_good _ _ H).
  assert (I : In BASE_HEADER (mro t parent)) by (apply mro_derives; assumption).
  destruct (first_split _ _ I) as (pre & rest & E & N).
  assert (X : class_getattr t BASE_HEADER "copy" = Ok (AOther 0)) by (destruct G as [[r ->] _]; reflexivity).
  rewrite X. apply (C131_attributes ds t name bases body parent names t' "copy" 0 pre rest H D); [exact Logic.I|exact E|exact N|].
  exists pre, BASE_HEADER, []. split; [reflexivity|]. split; [|intros b w []]. destruct G as [[r ->] _]. right. left. reflexivity.
Qed.
Print Assumptions C131_copy_refuted.

(* A sub-format cannot be derived from, unless as another sub-format. *)
Theorem C131_final : forall ds t name bases body parent names t', declare_all ds = Ok t ->
  declare t (SubFormat name bases body parent names) = Ok t' ->
  forall name' bases' body', In (length t) bases' ->
    declare t' (Plain name' bases' body') = Err TypeError /\ declare t' (Format name' bases' body') = Err TypeError.
Proof.
  intros ds t name bases body parent names t' _ D name' bases' body' I.
  assert (S : is_sub t' (length t) = true).
  { cbn [declare] in D. unfold new_sub_format in D. destruct (copy_fields _ _ _ _) as [d|]; cbn in D; [|discriminate].
    unfold new_format, make_class in D. destruct (negb _); [discriminate|]. destruct (linearize _ _) as [m|]; cbn in D; [|discriminate].
    injection D as <-. unfold is_sub. rewrite nth_error_app2 by lia. rewrite Nat.sub_diag. reflexivity. }
  assert (X : existsb (is_sub t') bases' = true) by (apply existsb_exists; exists (length t); split; [exact I|exact S]).
  cbn [declare]. destruct bases' as [|b bs]; [destruct I|]. rewrite X. split; reflexivity.
Qed.
Print Assumptions C131_final.

(* class Base(Header): def copy(self): ... (here AOther 7): its sub-format does not have it. *)
Definition copying : list decl := [
  Format "Base" [HEADER] [("LENGTH_IN_BYTES", AOther 4); ("a", AField Int32 0 0); ("copy", AOther 7)]].
Example C131_copy_nonvacuous : exists t t', declare_all copying = Ok t /\ class_getattr t 3 "copy" = Ok (AOther 7) /\
  declare t (SubFormat "Sub" [] [("copy", AOther 8)] 3 ["a"]) = Ok t' /\ class_getattr t' 4 "copy" = Ok (AOther 0).
Proof. eexists. eexists. do 3 (split; [vm_compute; reflexivity|]). vm_compute. reflexivity. Qed.

(* A sub-format with its names in another order. *)
Example C131_nonvacuous : exists t t', declare_all generations = Ok t /\
  declare t (SubFormat "Sub" [] [] 6 ["d"; "a"]) = Ok t' /\ field_names t' (length t) = Ok ["d"; "a"] /\
  class_getattr t' (length t) "a" = Ok (AField Int32 0 5) /\
  mro t 6 = [6; 5; 4; 2]%nat ++ BASE_HEADER :: [OBJECT] /\ bound_last t ([6; 5; 4; 2]%nat ++ [BASE_HEADER]) "LENGTH_IN_BYTES" 8 /\
  class_getattr t' (length t) "LENGTH_IN_BYTES" = Ok (AOther 8).
Proof.
  eexists. eexists. do 5 (split; [vm_compute; reflexivity|]). split; [|vm_compute; reflexivity].
  exists [6; 5]%nat, 4%nat, [2; 1]%nat. split; [reflexivity|]. split; [left; reflexivity|].
  intros b w [<-|[<-|[]]]; cbn; intros I; [tauto|]. destruct I as [I|[I|[]]]; discriminate I.
Qed.
