(* Proofs for C130 and C131: which classes can be made, and what they inherit. *)
From Coq Require Import String ZArith List Bool Lia.
From Verif Require Import Py Catalog Packing Classes Spec_Classes ClassesFacts.
Import ListNotations.
Local Open Scope string_scope.
Open Scope list_scope.

(* ------------------------------------------------------------------ *)
(* formats are derived from BaseHeader; what is derived from Header is a format *)

Definition metas (t : table) : Prop :=
  forall c, (is_meta t c = true -> is_header t c = true) /\ (In HEADER (mro t c) -> is_meta t c = true).

Lemma is_meta_app t k c : (c < length t)%nat -> is_meta (t ++ [k]) c = is_meta t c.
Proof. intros L. unfold is_meta. rewrite nth_error_app1 by exact L. reflexivity. Qed.
Lemma is_meta_new t k : is_meta (t ++ [k]) (length t) = match k_meta k with MType => false | _ => true end.
Proof. unfold is_meta. rewrite nth_error_app2 by lia. rewrite Nat.sub_diag. reflexivity. Qed.
Lemma mro_new t k : mro (t ++ [k]) (length t) = k_mro k.
Proof. unfold mro. rewrite nth_error_app2 by lia. rewrite Nat.sub_diag. reflexivity. Qed.
Lemma mro_none t c : (length t <= c)%nat -> mro t c = [].
Proof. intros L. unfold mro. destruct (nth_error t c) eqn:E; [|reflexivity]. assert (X : nth_error t c <> None) by congruence. apply nth_error_Some in X. lia. Qed.
Lemma is_meta_none t c : (length t <= c)%nat -> is_meta t c = false.
Proof. intros L. unfold is_meta. destruct (nth_error t c) eqn:E; [|reflexivity]. assert (X : nth_error t c <> None) by congruence. apply nth_error_Some in X. lia. Qed.

Lemma made t name bases namespace meta t' : make_class t name bases namespace meta = Ok t' ->
  exists m, linearize t bases = Ok m /\ t' = t ++ [mk_class name namespace bases (length t :: m) meta] /\ forall b, In b bases -> (b < length t)%nat.
Proof.
  unfold make_class. destruct (forallb _ bases) eqn:Eb; cbn [negb]; [|discriminate].
  destruct (linearize t bases) as [m|]; cbn; [|discriminate]. intros H. injection H as <-. exists m.
  split; [reflexivity|]. split; [reflexivity|]. intros b I. rewrite forallb_forall in Eb. apply Nat.ltb_lt. apply Eb. exact I.
Qed.

Lemma make_class_metas t name bases namespace meta t' : good t -> metas t -> bases <> [] ->
  (meta <> MType -> existsb (is_header t) bases = true) ->
  (meta = MType -> existsb (is_meta t) bases = false) ->
  make_class t name bases namespace meta = Ok t' -> metas t'.
Proof.
  intros G M NE F O H. assert (G' := make_class_good _ _ _ _ _ _ G NE H).
  destruct (made _ _ _ _ _ _ H) as (m & El & -> & B).
  assert (In_new : forall x, In x (length t :: m) <-> x = length t \/ exists b, In b bases /\ In x (mro t b)).
  { intros x. destruct G' as [_ G']. assert (X : nth_error (t ++ [mk_class name namespace bases (length t :: m) meta]) (length t) = Some (mk_class name namespace bases (length t :: m) meta)).
    { rewrite nth_error_app2 by lia. rewrite Nat.sub_diag. reflexivity. }
    assert (Q := gc_in _ _ _ (G' _ _ X) x). cbn [k_mro k_bases] in Q. rewrite Q. split; intros [E|(b & I & J)]; [left; exact E|right; exists b|left; exact E|right; exists b]; (split; [exact I|]).
    - rewrite mro_app in J by (apply B; exact I). exact J.
    - rewrite mro_app by (apply B; exact I). exact J. }
  assert (L3 := length_initial t G).
  intros c. destruct (Nat.lt_trichotomy c (length t)) as [L|[->|L]].
  - rewrite is_meta_app by exact L. unfold is_header. rewrite mro_app by exact L. apply M.
  - rewrite is_meta_new. unfold is_header. rewrite mro_new. cbn [k_meta k_mro]. split.
    + intros X. apply nmem_In. apply In_new. right. assert (Y : existsb (is_header t) bases = true) by (apply F; intros ->; discriminate).
      apply existsb_exists in Y. destruct Y as (b & I & Y). exists b. split; [exact I|]. apply nmem_In. exact Y.
    + intros X. apply In_new in X. destruct X as [X|(b & I & X)]; [unfold HEADER in X; lia|].
      destruct meta; [|reflexivity|reflexivity]. exfalso. specialize (O eq_refl).
      assert (Y : existsb (is_meta t) bases = true) by (apply existsb_exists; exists b; split; [exact I|apply M; exact X]). congruence.
  - rewrite is_meta_none by (rewrite app_length; cbn; lia). rewrite mro_none by (rewrite app_length; cbn; lia). split; [discriminate|intros []].
Qed.

Lemma new_format_metas t name bases namespace meta t' : good t -> metas t -> meta <> MType ->
  new_format t name bases namespace meta = Ok t' -> metas t'.
Proof.
  intros G M N. unfold new_format. apply make_class_metas; [exact G|exact M| |intros _|intros E; congruence].
  - unfold header_bases. destruct (existsb (is_header t) bases) eqn:E; [|discriminate]. destruct bases; discriminate.
  - unfold header_bases. destruct (existsb (is_header t) bases) eqn:E; [exact E|]. cbn [existsb].
    destruct G as [[r ->] _]. reflexivity.
Qed.

Lemma declare_metas t d t' : good t -> metas t -> declare t d = Ok t' -> metas t'.
Proof.
  intros G M H. destruct d as [name bases body|name bases body|name bases body parent names]; cbn [declare] in H.
  - destruct (existsb (is_sub t) _); [discriminate|]. destruct (existsb _ _) eqn:E.
    + apply new_format_metas with (4 := H); [exact G|exact M|discriminate].
    + apply make_class_metas with (6 := H); [exact G|exact M|destruct bases; discriminate|congruence|intros _; exact E].
  - destruct (existsb (is_sub t) bases); [discriminate|]. apply new_format_metas with (4 := H); [exact G|exact M|discriminate].
  - unfold new_sub_format in H. destruct (copy_fields _ _ _ _); cbn in H; [|discriminate].
    apply new_format_metas with (4 := H); [exact G|exact M|discriminate].
Qed.

Lemma initial_metas : metas initial.
Proof.
  intros c. destruct c as [|[|[|c]]]; [| | |unfold is_meta, mro; destruct c; (split; [discriminate|intros []])];
    vm_compute; (split; [congruence|]); intros I; repeat (destruct I as [I|I]; [try discriminate I; reflexivity|]); destruct I.
Qed.

Lemma declare_all_metas ds t : declare_all ds = Ok t -> good t /\ metas t.
Proof.
  unfold declare_all.
  assert (G : forall u, Ok initial = Ok u -> good u /\ metas u) by (intros u E; injection E as <-; split; [exact initial_good|exact initial_metas]).
  revert G. generalize (@Ok table initial). induction ds as [|d ds IH]; cbn [fold_left]; intros r G H; [apply G; exact H|].
  apply IH with (2 := H). intros u E. destruct r as [u0|]; cbn in E; [|discriminate].
  destruct (G u0 eq_refl) as [G0 M0]. split; [apply declare_good with (1 := G0) (2 := E)|apply declare_metas with (1 := G0) (2 := M0) (3 := E)].
Qed.

(* ------------------------------------------------------------------ *)
(* what a class with one base has *)

Lemma od_of_get (l : list (string * attr)) : forall n, od_get String.eqb (od_of String.eqb l) n = od_get String.eqb (rev l) n.
Proof.
  intros n. unfold od_of. induction l as [|[m a] l IH] using rev_ind; [reflexivity|].
  rewrite fold_left_app. cbn [fold_left]. rewrite rev_app_distr. cbn [rev app od_get]. rewrite od_get_set. rewrite IH. reflexivity.
Qed.

Lemma search_app t k n : forall cs, (forall x, In x cs -> (x < length t)%nat) -> search (t ++ [k]) cs n = search t cs n.
Proof.
  induction cs as [|c cs IH]; intros L; [reflexivity|]. cbn [search].
  assert (E : ns (t ++ [k]) c = ns t c) by (unfold ns; rewrite nth_error_app1 by (apply L; left; reflexivity); reflexivity).
  rewrite E, IH by (intros x I; apply L; right; exact I). reflexivity.
Qed.

Lemma mro_lt t c x : good t -> In x (mro t c) -> (x < length t)%nat.
Proof. intros G I. apply mro_derives in I; [|exact G]. destruct (derives_lt _ _ _ G I). lia. Qed.

Lemma linearize_good t b : good t -> (b < length t)%nat -> linearize t [b] = Ok (mro t b).
Proof.
  intros G L. destruct (good_mro t b G L) as (k & _ & E & K). destruct (gc_mro _ _ _ K) as [m M].
  rewrite E, M. apply linearize_one; [congruence|]. rewrite <- M. apply gc_nodup with (1 := K).
Qed.

Lemma make_one t name b namespace meta : good t -> (b < length t)%nat ->
  exists t', make_class t name [b] namespace meta = Ok t' /\
    (forall n, class_getattr t' (length t) n = match od_get String.eqb namespace n with Ok a => Ok a | Err _ => class_getattr t b n end) /\
    (forall x, In x (mro t' (length t)) <-> x = length t \/ In x (mro t b)).
Proof.
  intros G L. eexists. split; [|split].
  - unfold make_class. cbn [forallb]. rewrite (proj2 (Nat.ltb_lt _ _) L). cbn [andb negb]. rewrite linearize_good by assumption. reflexivity.
  - intros n. unfold class_getattr. rewrite mro_new. cbn [k_mro search].
    assert (E : ns (t ++ [mk_class name namespace [b] (length t :: mro t b) meta]) (length t) = namespace).
    { unfold ns. rewrite nth_error_app2 by lia. rewrite Nat.sub_diag. reflexivity. }
    rewrite E. destruct (od_get String.eqb namespace n); [reflexivity|]. apply search_app. intros x I. apply mro_lt with (2 := I). exact G.
  - intros x. rewrite mro_new. cbn [k_mro]. split; (intros [I|I]; [left; symmetry; exact I|right; exact I]).
Qed.

Lemma derive_one t name b body : good t -> metas t -> (b < length t)%nat -> is_sub t b = false ->
  exists t', declare t (Plain name [b] body) = Ok t' /\
    (forall n, class_getattr t' (length t) n = match od_get String.eqb (rev body) n with Ok a => Ok a | Err _ => class_getattr t b n end) /\
    (forall x, In x (mro t' (length t)) <-> x = length t \/ In x (mro t b)).
Proof.
  intros G M L S. cbn [declare existsb]. rewrite S. cbn [orb].
  destruct (is_meta t b) eqn:E; cbn [orb].
  - unfold new_format, header_bases. cbn [existsb]. rewrite (proj1 (M b) E). cbn [orb].
    destruct (make_one t name b (od_of String.eqb body) MFormat G L) as (t' & T & A & I). exists t'. split; [exact T|]. split; [|exact I].
    intros n. rewrite A, od_of_get. reflexivity.
  - destruct (make_one t name b (od_of String.eqb body) MType G L) as (t' & T & A & I). exists t'. split; [exact T|]. split; [|exact I].
    intros n. rewrite A, od_of_get. reflexivity.
Qed.

(* ------------------------------------------------------------------ *)
(* sub-formats *)

Lemma named t n : forall cs a, search t cs n = Ok a ->
  (forall b x, In b cs -> In (n, x) (ns t b) -> is_meta t b = true) -> is_named t cs n = true.
Proof.
  induction cs as [|c cs IH]; cbn [search is_named]; intros a H D; [discriminate|].
  destruct (od_get String.eqb (ns t c) n) as [y|] eqn:E.
  - apply (D c y); [left; reflexivity|]. apply od_get_in. exact E.
  - apply (IH a H). intros b x I. apply D. right. exact I.
Qed.

Lemma copy_ok t parent names : (forall n, In n names -> exists ty o x, class_getattr t parent n = Ok (AField ty o x)) ->
  (forall n, In n names -> is_named t (mro t parent) n = true) -> forall d, exists d', copy_fields t parent names d = Ok d'.
Proof.
  induction names as [|n names IH]; intros A B d; cbn [copy_fields]; [exists d; reflexivity|].
  destruct (A n (or_introl eq_refl)) as (ty & o & x & E). rewrite E. cbn. rewrite (B n (or_introl eq_refl)).
  apply IH; intros m I; [apply A|apply B]; right; exact I.
Qed.

Lemma sub_format_made t name body parent names : good t -> metas t ->
  (forall n, In n names -> exists ty o x, class_getattr t parent n = Ok (AField ty o x)) ->
  (forall n b x, In n names -> derives t parent b -> In (n, x) (ns t b) -> derives t b HEADER) ->
  exists t', declare t (SubFormat name [] body parent names) = Ok t'.
Proof.
  intros G M A B. cbn [declare]. unfold new_sub_format.
  destruct (copy_ok t parent names A) with (d := od_of String.eqb body) as [d E].
  { intros n I. destruct (A n I) as (ty & o & x & F). apply (named t n _ _ F). intros b y J K.
    apply M. apply mro_derives; [exact G|]. apply (B n b y I); [apply mro_derives; [exact G|exact J]|exact K]. }
  rewrite E. cbn [bind]. unfold new_format, header_bases. cbn [existsb].
  destruct (make_one t name BASE_HEADER (fold_left (fun d p => od_set String.eqb d (fst p) (snd p)) (collect_attributes t parent BASE_HEADER is_public) d) MSubFormat G) as (t' & T & _).
  { assert (X := length_initial t G). unfold BASE_HEADER. lia. }
  exists t'. exact T.
Qed.

Lemma sub_format_refused t name bases body parent names n : In n names ->
  (forall ty o x, class_getattr t parent n <> Ok (AField ty o x)) ->
  declare t (SubFormat name bases body parent names) = Err AttributeError \/
  declare t (SubFormat name bases body parent names) = Err AssertionError.
Proof.
  intros I N. cbn [declare]. unfold new_sub_format.
  assert (K : forall names d, In n names -> copy_fields t parent names d = Err AttributeError \/ copy_fields t parent names d = Err AssertionError).
  { clear I names. induction names as [|m names IH]; intros d I; [destruct I|]. cbn [copy_fields].
    destruct (class_getattr t parent m) as [a|e] eqn:E; cbn [bind].
    - destruct a as [ty o x| |v]; [|left; reflexivity|left; reflexivity].
      destruct (is_named t (mro t parent) m); [|right; reflexivity].
      destruct I as [->|I]; [destruct (N _ _ _ E)|]. apply IH. exact I.
    - left. f_equal. unfold class_getattr in E. clear -E. revert E. generalize (mro t parent).
      induction l as [|c cs IH]; cbn [search]; [congruence|]. destruct (od_get String.eqb (ns t c) m); [discriminate|exact IH]. }
  destruct (K names (od_of String.eqb body) I) as [E|E]; rewrite E; [left|right]; reflexivity.
Qed.

Lemma first_split (l : list nat) x : In x l -> exists pre rest, l = pre ++ x :: rest /\ ~ In x pre.
Proof.
  induction l as [|y l IH]; intros I; [destruct I|]. destruct (Nat.eq_dec y x) as [->|N].
  - exists [], l. split; [reflexivity|intros []].
  - destruct I as [I|I]; [congruence|]. destruct (IH I) as (pre & rest & -> & P). exists (y :: pre), rest.
    split; [reflexivity|]. intros [J|J]; [congruence|exact (P J)].
Qed.
