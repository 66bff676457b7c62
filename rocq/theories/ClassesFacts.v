From Coq Require Import String Ascii ZArith List Bool Lia.
From Verif Require Import Py Catalog Packing Classes Spec_Classes.
Import ListNotations.
Local Open Scope string_scope.
Open Scope list_scope.

(* ------------------------------------------------------------------ *)
(* merging *)

Lemma nmem_In x l : nmem x l = true <-> In x l.
Proof.
  unfold nmem. rewrite existsb_exists. split.
  - intros (y & I & E). apply Nat.eqb_eq in E. subst. exact I.
  - intros I. exists x. split; [exact I|apply Nat.eqb_refl].
Qed.
Lemma nmem_not x l : nmem x l = false <-> ~ In x l.
Proof. rewrite <- nmem_In. destruct (nmem x l); split; congruence. Qed.
Lemma nat_distinct_ok l : nat_distinct l = true -> NoDup l.
Proof.
  induction l as [|x l IH]; cbn; intros H; constructor; apply andb_true_iff in H; destruct H as [A B].
  - apply nmem_not. apply negb_true_iff. exact A.
  - apply IH. exact B.
Qed.

Lemma heads_in ls x : In x (heads ls) <-> exists r, In (x :: r) ls.
Proof.
  unfold heads. rewrite in_flat_map. split.
  - intros ([|y r] & I & J); [destruct J|]. destruct J as [->|[]]. exists r. exact I.
  - intros [r I]. exists (x :: r). split; [exact I|]. left. reflexivity.
Qed.
Lemma in_tail_spec ls x : in_tail ls x = true <-> exists l, In l ls /\ In x (tl l).
Proof.
  unfold in_tail. rewrite existsb_exists. split; intros (l & I & J); exists l; (split; [exact I|]); apply nmem_In; exact J.
Qed.

Lemma merge_in fuel : forall ls r, merge fuel ls = Ok r -> forall y, In y r -> exists l, In l ls /\ In y l.
Proof.
  induction fuel as [|fuel IH]; intros ls r H y I; cbn [merge] in H.
  - destruct (heads ls) as [|h hs] eqn:Eh; [injection H as <-; destruct I|].
    destruct (find _ _); discriminate.
  - destruct (heads ls) as [|h hs] eqn:Eh; [injection H as <-; destruct I|].
    destruct (find _ _) as [x|] eqn:Ef; [|discriminate].
    destruct (merge fuel (map (drop_head x) ls)) as [q|] eqn:Em; cbn in H; [|discriminate].
    injection H as <-. destruct I as [<-|I].
    + apply find_some in Ef. destruct Ef as [J _]. rewrite <- Eh in J. apply heads_in in J. destruct J as [q' J].
      exists (x :: q'). split; [exact J|left; reflexivity].
    + destruct (IH _ _ Em y I) as (l & J & K). apply in_map_iff in J. destruct J as (l0 & <- & J).
      exists l0. split; [exact J|]. destruct l0 as [|z l0]; cbn in K; [destruct K|].
      destruct (Nat.eqb x z); [right|]; exact K.
Qed.

Lemma merge_nodup fuel : forall ls r, (forall l, In l ls -> NoDup l) -> merge fuel ls = Ok r -> NoDup r.
Proof.
  induction fuel as [|fuel IH]; intros ls r N H; cbn [merge] in H.
  - destruct (heads ls) as [|h hs] eqn:Eh; [injection H as <-; constructor|].
    destruct (find _ _); discriminate.
  - destruct (heads ls) as [|h hs] eqn:Eh; [injection H as <-; constructor|].
    destruct (find _ _) as [x|] eqn:Ef; [|discriminate].
    destruct (merge fuel (map (drop_head x) ls)) as [q|] eqn:Em; cbn in H; [|discriminate].
    injection H as <-. apply find_some in Ef. destruct Ef as [_ T]. apply negb_true_iff in T. constructor.
    + intros I. destruct (merge_in _ _ _ Em x I) as (l & J & K). apply in_map_iff in J. destruct J as (l0 & <- & J).
      destruct l0 as [|z l0]; cbn in K; [destruct K|]. destruct (Nat.eqb x z) eqn:Ez.
      * apply Nat.eqb_eq in Ez. subst z. apply N in J. inversion J. contradiction.
      * apply Nat.eqb_neq in Ez. destruct K as [->|K]; [congruence|].
        assert (in_tail ls x = true) by (apply in_tail_spec; exists (z :: l0); split; [exact J|exact K]). congruence.
    + apply IH with (2 := Em). intros l J. apply in_map_iff in J. destruct J as (l0 & <- & J). apply N in J.
      destruct l0 as [|z l0]; cbn; [constructor|]. destruct (Nat.eqb x z); [inversion J; assumption|exact J].
Qed.

(* the first base comes first *)
Lemma merge_first fuel (f : nat -> list nat) b bs r :
  (forall x, In x (b :: bs) -> exists m, f x = x :: m) -> NoDup (b :: bs) ->
  merge fuel (map f (b :: bs) ++ [b :: bs]) = Ok r -> exists m, r = b :: m.
Proof.
  intros F N H. set (ls := map f (b :: bs) ++ [b :: bs]) in *.
  assert (Hh : exists hs, heads ls = b :: hs /\ forall x, In x hs -> In x (b :: bs)).
  { destruct (F b (or_introl eq_refl)) as [m Em]. unfold ls. cbn [map app heads flat_map]. rewrite Em. cbn [app].
    eexists. split; [reflexivity|]. intros x I. apply in_flat_map in I. destruct I as (l & I & J).
    apply in_app_or in I. destruct I as [I|[<-|[]]].
    - apply in_map_iff in I. destruct I as (y & <- & I). destruct (F y (or_intror I)) as [m' E']. rewrite E' in J.
      destruct J as [<-|[]]. right. exact I.
    - destruct J as [<-|[]]. left. reflexivity. }
  destruct Hh as (hs & Eh & Hs). destruct fuel as [|fuel]; cbn [merge] in H; rewrite Eh in H.
  - destruct (find _ _); discriminate.
  - destruct (find _ _) as [x|] eqn:Ef; [|discriminate].
    destruct (merge fuel (map (drop_head x) ls)) as [q|] eqn:Em; cbn in H; [|discriminate]. injection H as <-.
    apply find_some in Ef. destruct Ef as [I T]. apply negb_true_iff in T.
    assert (J : In x (b :: bs)) by (destruct I as [<-|I]; [left; reflexivity|apply Hs; exact I]).
    destruct J as [<-|J]; [exists q; reflexivity|].
    assert (in_tail ls x = true).
    { apply in_tail_spec. exists (b :: bs). split; [|exact J]. unfold ls. apply in_or_app. right. left. reflexivity. }
    congruence.
Qed.

Lemma merge_one fuel : forall m e, NoDup m -> (length m <= fuel)%nat -> Forall (fun l => l = []) e -> merge fuel (m :: e) = Ok m.
Proof.
  induction fuel as [|fuel IH]; intros m e N L E.
  - destruct m; [|cbn in L; lia]. cbn [merge heads flat_map app].
    assert (H : flat_map (fun l => match l with x :: _ => [x] | [] => [] end) e = []).
    { induction E as [|l e -> E IH]; [reflexivity|exact IH]. }
    rewrite H. reflexivity.
  - assert (H : flat_map (fun l => match l with x :: _ => [x] | [] => [] end) e = []).
    { induction E as [|l e -> E IHe]; [reflexivity|exact IHe]. }
    destruct m as [|x m].
    + cbn [merge heads flat_map app]. rewrite H. reflexivity.
    + cbn [merge heads flat_map app]. rewrite H. cbn [find].
      assert (T : in_tail ((x :: m) :: e) x = false).
      { destruct (in_tail _ x) eqn:Et; [|reflexivity]. apply in_tail_spec in Et. destruct Et as (l & [<-|I] & J).
        - inversion N. contradiction.
        - rewrite Forall_forall in E. rewrite (E l I) in J. destruct J. }
      rewrite T. cbn [negb map drop_head]. rewrite Nat.eqb_refl. rewrite IH.
      * reflexivity.
      * inversion N. assumption.
      * cbn in L. lia.
      * apply Forall_forall. intros l I. apply in_map_iff in I. destruct I as (l0 & <- & I).
        rewrite Forall_forall in E. rewrite (E l0 I). reflexivity.
Qed.

Lemma linearize_one t b m : mro t b = b :: m -> NoDup (b :: m) -> linearize t [b] = Ok (b :: m).
Proof.
  intros E N. unfold linearize. cbn [nat_distinct nmem existsb negb andb map app]. rewrite E.
  cbn [concat app length]. rewrite app_length. cbn [length].
  cbn [merge heads flat_map app find].
  assert (T : in_tail [b :: m; [b]] b = false).
  { destruct (in_tail _ b) eqn:Et; [|reflexivity]. apply in_tail_spec in Et. destruct Et as (l & [<-|[<-|[]]] & J).
    - inversion N. contradiction.
    - destruct J. }
  rewrite T. cbn [negb map drop_head]. rewrite Nat.eqb_refl. rewrite merge_one.
  - reflexivity.
  - inversion N. assumption.
  - lia.
  - constructor; [reflexivity|constructor].
Qed.

(* ------------------------------------------------------------------ *)
(* the classes a program has declared *)

Record good_class (t : table) (c : nat) (k : pyclass) : Prop := {
  gc_mro : exists m, k_mro k = c :: m;
  gc_nodup : NoDup (k_mro k);
  gc_old : forall x, In x (k_mro k) -> (x <= c)%nat;
  gc_bases : forall b, In b (k_bases k) -> (b < c)%nat;
  gc_first : forall b bs, k_bases k = b :: bs -> exists m, k_mro k = c :: b :: m;
  gc_one : forall b, k_bases k = [b] -> k_mro k = c :: mro t b;
  gc_some : k_bases k = [] -> c = OBJECT;
  gc_in : forall x, In x (k_mro k) <-> x = c \/ exists b, In b (k_bases k) /\ In x (mro t b) }.

Definition good (t : table) : Prop :=
  (exists r, t = initial ++ r) /\ forall c k, nth_error t c = Some k -> good_class t c k.

Lemma mro_app t k c : (c < length t)%nat -> mro (t ++ [k]) c = mro t c.
Proof. intros L. unfold mro. rewrite nth_error_app1 by exact L. reflexivity. Qed.
Lemma nth_app t (k : pyclass) c x : nth_error (t ++ [k]) c = Some x -> (c < length t)%nat /\ nth_error t c = Some x \/ c = length t /\ x = k.
Proof.
  intros H. destruct (Nat.lt_ge_cases c (length t)) as [L|L].
  - left. rewrite nth_error_app1 in H by exact L. split; assumption.
  - right. rewrite nth_error_app2 in H by exact L. destruct (c - length t)%nat as [|j] eqn:E.
    + cbn in H. injection H as <-. split; [lia|reflexivity].
    + destruct j; discriminate.
Qed.

Lemma merge_all fuel : forall ls r, merge fuel ls = Ok r -> forall l y, In l ls -> In y l -> In y r.
Proof.
  induction fuel as [|fuel IH]; intros ls r H l y I J; cbn [merge] in H.
  - destruct (heads ls) as [|h hs] eqn:Eh.
    + destruct l as [|x l]; [destruct J|]. assert (K : In x (heads ls)) by (apply heads_in; exists l; exact I). rewrite Eh in K. destruct K.
    + destruct (find _ _); discriminate.
  - destruct (heads ls) as [|h hs] eqn:Eh.
    + destruct l as [|x l]; [destruct J|]. assert (K : In x (heads ls)) by (apply heads_in; exists l; exact I). rewrite Eh in K. destruct K.
    + destruct (find _ _) as [x|] eqn:Ef; [|discriminate].
      destruct (merge fuel (map (drop_head x) ls)) as [q|] eqn:Em; cbn in H; [|discriminate]. injection H as <-.
      destruct (Nat.eq_dec x y) as [->|Nxy]; [left; reflexivity|right].
      apply (IH _ _ Em (drop_head x l) y).
      * apply in_map. exact I.
      * destruct l as [|z l]; [destruct J|]. cbn. destruct (Nat.eqb x z) eqn:Ez; [|exact J].
        apply Nat.eqb_eq in Ez. subst z. destruct J as [J|J]; [congruence|exact J].
Qed.

Lemma good_mro t c : good t -> (c < length t)%nat -> exists k, nth_error t c = Some k /\ mro t c = k_mro k /\ good_class t c k.
Proof.
  intros [_ G] L. destruct (nth_error t c) as [k|] eqn:E.
  - exists k. split; [reflexivity|]. split; [unfold mro; rewrite E; reflexivity|]. apply G. exact E.
  - apply nth_error_None in E. lia.
Qed.

Lemma make_class_good t name bases namespace meta t' : good t -> bases <> [] ->
  make_class t name bases namespace meta = Ok t' -> good t'.
Proof.
  intros G NE H. unfold make_class in H.
  destruct (forallb _ bases) eqn:Eb; cbn [negb] in H; [|discriminate].
  destruct (linearize t bases) as [m|] eqn:El; cbn in H; [|discriminate]. injection H as <-.
  rewrite forallb_forall in Eb.
  assert (B : forall b, In b bases -> (b < length t)%nat) by (intros b I; apply Nat.ltb_lt; apply Eb; exact I).
  assert (D : nat_distinct bases = true) by (unfold linearize in El; destruct (nat_distinct bases); [reflexivity|discriminate]).
  assert (El0 := El). unfold linearize in El0. rewrite D in El0. cbn [negb] in El0. cbv zeta in El0.
  set (ls := map (mro t) bases ++ [bases]) in *.
  assert (Dn := nat_distinct_ok _ D).
  assert (LN : forall l, In l ls -> NoDup l).
  { intros l I. apply in_app_or in I. destruct I as [I|[<-|[]]]; [|exact Dn].
    apply in_map_iff in I. destruct I as (b & <- & I). destruct (good_mro t b G (B b I)) as (k & _ & -> & K). apply gc_nodup with (1 := K). }
  assert (LO : forall x, In x m -> (x < length t)%nat).
  { intros x I. destruct (merge_in _ _ _ El0 x I) as (l & J & K). apply in_app_or in J. destruct J as [J|[<-|[]]]; [|apply B; exact K].
    apply in_map_iff in J. destruct J as (b & <- & J). destruct (good_mro t b G (B b J)) as (k & _ & E & Q). rewrite E in K.
    assert (X := gc_old _ _ _ Q x K). specialize (B b J). lia. }
  destruct G as [[r Er] G]. split.
  - exists (r ++ [mk_class name namespace bases (length t :: m) meta]). rewrite Er at 1. rewrite app_assoc. reflexivity.
  - intros c k H. apply nth_app in H. destruct H as [[L H]|[-> ->]].
    + assert (Q := G c k H). destruct Q as [Q1 Q2 Q3 Q4 Q5 Q6 Q7 Q8]. constructor; try assumption.
      * intros b E. rewrite mro_app; [apply Q6; exact E|]. assert (b < c)%nat by (apply Q4; rewrite E; left; reflexivity). lia.
      * intros x. rewrite Q8. split; intros [->|(b & I & J)]; [left; reflexivity|right; exists b|left; reflexivity|right; exists b];
          (split; [exact I|]); assert (b < c)%nat by (apply Q4; exact I);
          [rewrite mro_app by lia; exact J|rewrite mro_app in J by lia; exact J].
    + constructor; cbn [k_mro k_bases].
      * exists m. reflexivity.
      * constructor; [intros I; apply LO in I; lia|]. apply merge_nodup with (2 := El0). exact LN.
      * intros x [<-|I]; [lia|]. apply LO in I. lia.
      * exact B.
      * intros b bs ->. destruct (merge_first (length (concat ls)) (mro t) b bs m) as [m' E']; [|exact Dn|exact El0|exists m'; rewrite E'; reflexivity].
        intros x I. destruct (good_mro t x (conj (ex_intro _ r Er) G) (B x I)) as (k & _ & E & K). rewrite E. apply gc_mro with (1 := K).
      * intros b ->. destruct (good_mro t b (conj (ex_intro _ r Er) G) (B b (or_introl eq_refl))) as (k & _ & E & K).
        destruct (gc_mro _ _ _ K) as [mb Emb]. assert (X : linearize t [b] = Ok (b :: mb)).
        { apply linearize_one; [congruence|]. rewrite <- Emb. apply gc_nodup with (1 := K). }
        rewrite mro_app by (apply B; left; reflexivity). rewrite X in El. injection El as <-. congruence.
      * congruence.
      * intros x. split.
        -- intros [E|I]; [left; symmetry; exact E|right]. destruct (merge_in _ _ _ El0 _ I) as (l & J & K). apply in_app_or in J. destruct J as [J|[<-|[]]].
           ++ apply in_map_iff in J. destruct J as (b & <- & J). exists b. split; [exact J|]. rewrite mro_app by (apply B; exact J). exact K.
           ++ exists x. split; [exact K|]. rewrite mro_app by (apply B; exact K).
              destruct (good_mro t x (conj (ex_intro _ r Er) G) (B x K)) as (k & _ & E & Q). rewrite E. destruct (gc_mro _ _ _ Q) as [q ->]. left. reflexivity.
        -- intros [E|(b & I & J)]; [left; symmetry; exact E|right]. rewrite mro_app in J by (apply B; exact I).
           apply (merge_all _ _ _ El0 (mro t b)); [|exact J]. apply in_or_app. left. apply in_map. exact I.
Qed.

Lemma initial_good : good initial.
Proof.
  split; [exists []; reflexivity|]. intros c k H.
  destruct c as [|[|[|c]]]; cbn in H; [| | |destruct c; discriminate]; injection H as <-; constructor; cbn [k_mro k_bases].
  - exists []. reflexivity.
  - constructor; [intros []|constructor].
  - intros x [<-|[]]. unfold OBJECT. lia.
  - intros b [].
  - intros b bs E. discriminate E.
  - intros b E. discriminate E.
  - intros _. reflexivity.
  - intros x. split; [intros [H|[]]; left; symmetry; exact H|intros [H|(b & [] & _)]; left; symmetry; exact H].
  - exists [OBJECT]. reflexivity.
  - constructor; [intros [H|[]]; discriminate H|constructor; [intros []|constructor]].
  - intros x [<-|[<-|[]]]; unfold OBJECT, BASE_HEADER; lia.
  - intros b [<-|[]]; unfold OBJECT; lia.
  - intros b bs E. injection E as <- <-. exists []. reflexivity.
  - intros b E. injection E as <-. reflexivity.
  - intros E. discriminate E.
  - intros x. split.
    + intros [H|H]; [left; symmetry; exact H|right]. exists OBJECT. split; [left; reflexivity|exact H].
    + intros [H|(b & [<-|[]] & H)]; [left; symmetry; exact H|right; exact H].
  - exists [BASE_HEADER; OBJECT]. reflexivity.
  - constructor; [intros [H|[H|[]]]; discriminate H|constructor; [intros [H|[]]; discriminate H|constructor; [intros []|constructor]]].
  - intros x [<-|[<-|[<-|[]]]]; unfold OBJECT, BASE_HEADER, HEADER; lia.
  - intros b [<-|[]]; unfold BASE_HEADER; lia.
  - intros b bs E. injection E as <- <-. exists [OBJECT]. reflexivity.
  - intros b E. injection E as <-. reflexivity.
  - intros E. discriminate E.
  - intros x. split.
    + intros [H|H]; [left; symmetry; exact H|right]. exists BASE_HEADER. split; [left; reflexivity|exact H].
    + intros [H|(b & [<-|[]] & H)]; [left; symmetry; exact H|right; exact H].
Qed.

Lemma new_format_good t name bases namespace meta t' : good t -> new_format t name bases namespace meta = Ok t' -> good t'.
Proof.
  intros G. unfold new_format. apply make_class_good; [exact G|].
  unfold header_bases. destruct (existsb (is_header t) bases) eqn:E; [|discriminate].
  destruct bases; [discriminate|discriminate].
Qed.

Lemma declare_good t d t' : good t -> declare t d = Ok t' -> good t'.
Proof.
  intros G H. destruct d as [name bases body|name bases body|name bases body parent names]; cbn [declare] in H.
  - destruct (existsb (is_sub t) _); [discriminate|]. destruct (existsb _ _); [apply new_format_good with (1 := G) (2 := H)|].
    apply make_class_good with (1 := G) (3 := H). destruct bases; discriminate.
  - destruct (existsb _ _); [discriminate|]. apply new_format_good with (1 := G) (2 := H).
  - unfold new_sub_format in H. destruct (copy_fields _ _ _ _) as [m|] eqn:E; cbn in H; [|discriminate].
    apply new_format_good with (1 := G) (2 := H).
Qed.

Lemma declare_all_good ds t : declare_all ds = Ok t -> good t.
Proof.
  unfold declare_all. assert (G : forall u, Ok initial = Ok u -> good u) by (intros u E; injection E as <-; exact initial_good).
  revert G. generalize (@Ok table initial). induction ds as [|d ds IH]; cbn [fold_left]; intros r G H; [apply G; exact H|].
  apply IH with (2 := H). intros u E. destruct r as [u0|]; cbn in E; [|discriminate].
  apply declare_good with (2 := E). apply G. reflexivity.
Qed.

(* ------------------------------------------------------------------ *)
(* headers and their field names *)

Lemma is_header_mro t c : is_header t c = true <-> In BASE_HEADER (mro t c).
Proof. unfold is_header. apply nmem_In. Qed.

Lemma length_initial t : good t -> (3 <= length t)%nat.
Proof. intros [[r ->] _]. rewrite app_length. cbn. lia. Qed.

Lemma base_lt t c b : good t -> base_of t c b -> (b < c)%nat /\ (c < length t)%nat.
Proof.
  intros [_ G] (k & E & I). split.
  - apply gc_bases with (1 := G _ _ E). exact I.
  - apply nth_error_Some. congruence.
Qed.

Lemma derives_lt t c b : good t -> derives t c b -> (b <= c)%nat /\ (c < length t)%nat.
Proof.
  intros G D. induction D as [c L|c b a B D IH]; [lia|]. apply base_lt in B; [|exact G]. lia.
Qed.

Lemma mro_derives t c x : good t -> (In x (mro t c) <-> derives t c x).
Proof.
  intros G. split.
  - revert c. apply (well_founded_induction (well_founded_ltof nat (fun x => x)) (fun c => In x (mro t c) -> derives t c x)).
    unfold ltof. intros c IH I.
    destruct (nth_error t c) as [k|] eqn:E; [|unfold mro in I; rewrite E in I; destruct I].
    assert (L : (c < length t)%nat) by (apply nth_error_Some; congruence).
    destruct G as [X G]. assert (K := G c k E). unfold mro in I. rewrite E in I. apply (gc_in _ _ _ K) in I.
    destruct I as [->|(b & J & I)]; [apply derives_self; exact L|].
    apply derives_base with b; [exists k; split; assumption|]. apply IH; [apply (gc_bases _ _ _ K); exact J|exact I].
  - intros D. induction D as [c L|c b a B D IH].
    + destruct (good_mro t c G L) as (k & _ & E & K). rewrite E. apply gc_in with (1 := K). left. reflexivity.
    + assert (B' := base_lt _ _ _ G B). destruct (good_mro t c G) as (k & E & -> & K); [lia|].
      destruct B as (k' & E' & I). assert (k' = k) by congruence. subst k'. apply gc_in with (1 := K). right.
      exists b. split; [exact I|exact IH].
Qed.

Lemma format_header t c : good t -> (format t c <-> is_header t c = true).
Proof. intros G. rewrite is_header_mro. unfold format. symmetry. apply mro_derives. exact G. Qed.

Lemma super_first t c b : good t -> first_base t c b -> super_class t c = Ok b.
Proof.
  intros [_ G] (k & bs & E & B). destruct (gc_first _ _ _ (G _ _ E) _ _ B) as [m M].
  unfold super_class, mro. rewrite E, M. reflexivity.
Qed.

Lemma own_names_filter t c : own_names t c = map fst (filter (fun p => is_field (snd p)) (ns t c)).
Proof.
  unfold own_names. induction (ns t c) as [|[n a] l IH]; [reflexivity|]. cbn [flat_map filter snd fst].
  destruct a; cbn [is_field app map]; rewrite IH; reflexivity.
Qed.

Lemma first_base_of t c b : first_base t c b -> base_of t c b.
Proof. intros (k & bs & E & B). exists k. split; [exact E|]. rewrite B. left. reflexivity. Qed.

Lemma chain_header t c l : good t -> first_chain t c l -> is_header t c = true.
Proof.
  intros G H. apply format_header; [exact G|]. induction H as [|c b l N F H IH].
  - apply derives_self. assert (X := length_initial t G). unfold BASE_HEADER. lia.
  - apply derives_base with b; [apply first_base_of; exact F|exact IH].
Qed.

Lemma names_chain t c l fuel : good t -> first_chain t c l -> (c <= fuel)%nat -> names_of fuel t c = Ok l.
Proof.
  intros G H. revert fuel. induction H as [|c b l N F H IH]; intros fuel L.
  - assert (X : is_header t BASE_HEADER = true) by (apply (chain_header t _ []); [exact G|constructor]).
    destruct fuel; cbn [names_of]; rewrite X; reflexivity.
  - assert (X : is_header t c = true) by (apply (chain_header t c (l ++ map fst (filter (fun p => is_field (snd p)) (ns t c)))); [exact G|econstructor; eassumption]).
    assert (B := base_lt t c b G (first_base_of _ _ _ F)).
    destruct fuel as [|fuel]; [lia|]. cbn [names_of]. rewrite X. cbn [negb].
    apply Nat.eqb_neq in N. rewrite N. rewrite (super_first t c b G F). cbn. rewrite IH by lia. cbn.
    rewrite own_names_filter. reflexivity.
Qed.

Lemma chain_order t c l : good t -> first_chain t c l -> field_names t c = Ok l.
Proof.
  intros G H. apply names_chain; [exact G|exact H|].
  assert (F := chain_header t c l G H). apply format_header in F; [|exact G]. apply derives_lt in F; [|exact G]. lia.
Qed.

Lemma names_lost t c a fuel : good t -> reaches t c a -> ~ format t a -> (c <= fuel)%nat -> names_of fuel t c = Err AttributeError.
Proof.
  intros G R F L. revert fuel L. induction R as [c|c b a N B R IH]; intros fuel L.
  - rewrite format_header in F by exact G. destruct fuel; cbn [names_of]; destruct (is_header t c); [congruence|reflexivity|congruence|reflexivity].
  - assert (Bl := base_lt t c b G (first_base_of _ _ _ B)).
    destruct fuel as [|fuel]; [lia|]. cbn [names_of]. destruct (is_header t c); [|reflexivity]. cbn [negb].
    apply Nat.eqb_neq in N. rewrite N. rewrite (super_first t c b G B). cbn. rewrite IH; [reflexivity|exact F|lia].
Qed.

Lemma lost t c a : good t -> format t c -> reaches t c a -> ~ format t a -> field_names t c = Err AttributeError.
Proof.
  intros G C R F. apply names_lost with (2 := R); [exact G|exact F|]. apply derives_lt in C; [|exact G]. lia.
Qed.

(* one of the two *)
Lemma reaches_trans t c b a : reaches t c b -> reaches t b a -> reaches t c a.
Proof. intros R. induction R as [c|c b' a' N B R IH]; intros Q; [exact Q|]. apply reaches_base with b'; [exact N|exact B|apply IH; exact Q]. Qed.

Lemma chain_or_lost t : good t -> forall c, format t c -> (exists l, first_chain t c l) \/ (exists a, reaches t c a /\ ~ format t a).
Proof.
  intros G. apply (well_founded_induction (well_founded_ltof nat (fun x => x)) (fun c => format t c -> (exists l, first_chain t c l) \/ (exists a, reaches t c a /\ ~ format t a))).
  unfold ltof. intros c IH F. destruct (Nat.eq_dec c BASE_HEADER) as [->|N]; [left; exists []; constructor|].
  assert (L := derives_lt _ _ _ G F). destruct (good_mro t c G) as (k & E & M & K); [lia|].
  destruct (k_bases k) as [|b bs] eqn:B.
  - assert (c = OBJECT) by (apply (gc_some _ _ _ K); exact B). subst c. apply format_header in F; [|exact G]. apply is_header_mro in F.
    rewrite M in F. apply (gc_old _ _ _ K) in F. unfold OBJECT, BASE_HEADER in F. lia.
  - assert (FB : first_base t c b) by (exists k, bs; split; assumption).
    destruct (is_header t b) eqn:Eb.
    + apply format_header in Eb; [|exact G].
      destruct (IH b) as [[l C]|(a & R & Na)]; [apply (gc_bases _ _ _ K); rewrite B; left; reflexivity|exact Eb| |].
      * left. eexists. apply chain_step with b; eassumption.
      * right. exists a. split; [apply reaches_base with b; assumption|exact Na].
    + right. exists b. split; [apply reaches_base with b; [exact N|exact FB|apply reaches_self]|]. rewrite format_header by exact G. congruence.
Qed.

(* ------------------------------------------------------------------ *)
(* classes with one base *)

Lemma single_base t c b : single t c -> base_of t c b -> single t b.
Proof. intros S B a k D. apply S. apply derives_base with b; assumption. Qed.

Lemma single_class t c : good t -> format t c -> single t c -> c <> BASE_HEADER ->
  exists b, first_base t c b /\ base_of t c b /\ mro t c = c :: mro t b /\ single t b /\ format t b /\ (forall a, derives t c a <-> a = c \/ derives t b a).
Proof.
  intros G F S N. assert (L := derives_lt _ _ _ G F). destruct (good_mro t c G) as (k & E & M & K); [lia|].
  assert (D : derives t c c) by (apply derives_self; lia).
  assert (One := S c k D E). destruct (k_bases k) as [|b bs] eqn:B.
  - assert (c = OBJECT) by (apply (gc_some _ _ _ K); exact B). subst c. apply format_header in F; [|exact G]. apply is_header_mro in F.
    rewrite M in F. apply (gc_old _ _ _ K) in F. unfold OBJECT, BASE_HEADER in F. lia.
  - destruct bs as [|b' bs]; [|cbn in One; lia]. exists b.
    assert (FB : first_base t c b) by (exists k, []; split; assumption).
    assert (BO : base_of t c b) by (apply first_base_of; exact FB).
    assert (Bl := base_lt _ _ _ G BO).
    repeat split.
    + exact FB.
    + exact BO.
    + rewrite M. apply (gc_one _ _ _ K). exact B.
    + apply single_base with c; assumption.
    + apply format_header; [exact G|]. apply is_header_mro. apply format_header in F; [|exact G]. apply is_header_mro in F. rewrite M in F.
      rewrite (gc_one _ _ _ K b B) in F. destruct F as [F|F]; [congruence|exact F].
    + intros Da. inversion Da as [x Lx|x b0 a0 B0 D0]; subst; [left; reflexivity|right].
      destruct B0 as (k0 & E0 & I0). assert (k0 = k) by congruence. subst k0. rewrite B in I0. destruct I0 as [<-|[]]. exact D0.
    + intros [->|Da]; [exact D|]. apply derives_base with b; assumption.
Qed.

Lemma single_fields t : good t -> forall c, format t c -> single t c ->
  exists l, first_chain t c l /\ forall b n ty o d, derives t c b -> declares t b n ty o d -> In n l.
Proof.
  intros G. apply (well_founded_induction (well_founded_ltof nat (fun x => x)) (fun c => format t c -> single t c ->
    exists l, first_chain t c l /\ forall b n ty o d, derives t c b -> declares t b n ty o d -> In n l)).
  unfold ltof. intros c IH F S. destruct (Nat.eq_dec c BASE_HEADER) as [->|N].
  - exists []. split; [constructor|]. intros b n ty o d D Dc. exfalso. apply derives_lt in D; [|exact G].
    destruct G as [[r ->] _]. unfold BASE_HEADER in D. unfold declares, ns in Dc.
    destruct b as [|[|b]]; [|destruct Dc as [X|[X|[]]]; discriminate X|lia]. destruct Dc.
  - destruct (single_class t c G F S N) as (b & FB & BO & M & Sb & Fb & D).
    assert (Bl := base_lt _ _ _ G BO). destruct (IH b) as (l & C & A); [lia|exact Fb|exact Sb|].
    eexists. split; [apply chain_step with b; eassumption|].
    intros x n ty o d Dx Dc. apply in_or_app. apply D in Dx. destruct Dx as [->|Dx].
    + right. apply in_map_iff. exists (n, AField ty o d). split; [reflexivity|]. apply filter_In. split; [exact Dc|reflexivity].
    + left. apply A with (1 := Dx) (2 := Dc).
Qed.

(* ------------------------------------------------------------------ *)
(* the formats of the other model files *)

Definition levels (t : table) (c : nat) : list (string * list fieldd) := fmt_levels (class_fmt t c).

Lemma until_some b cs : cs <> [] -> until b cs <> [].
Proof. destruct cs as [|c cs]; [congruence|]. intros _. cbn. destruct (Nat.eqb c b); discriminate. Qed.

Lemma levels_base t : good t -> levels t BASE_HEADER = [].
Proof. intros [[r ->] _]. reflexivity. Qed.

Lemma levels_step t c b : good t -> c <> BASE_HEADER -> mro t c = c :: mro t b -> format t b ->
  levels t c = levels t b ++ [(class_name t c, own_fields t c)].
Proof.
  intros G N M F. unfold levels, class_fmt. cbn [fmt_levels]. rewrite M. cbn [until].
  apply Nat.eqb_neq in N. rewrite N.
  assert (X : mro t b <> []) by (apply format_header in F; [|exact G]; apply is_header_mro in F; intros E; rewrite E in F; destruct F).
  apply until_some with (b := BASE_HEADER) in X. cbn [removelast].
  destruct (until BASE_HEADER (mro t b)) as [|u us]; [congruence|].
  change (rev (c :: removelast (u :: us))) with (rev (removelast (u :: us)) ++ [c]).
  rewrite map_app. reflexivity.
Qed.

Lemma own_fields_names t c : map fd_name (own_fields t c) = own_names t c.
Proof.
  unfold own_fields, own_names. induction (ns t c) as [|[n a] l IH]; [reflexivity|].
  destruct a; cbn [flat_map snd fst app map]; [cbn [fd_name]; f_equal|..]; exact IH.
Qed.

Lemma find_level_last n ls l : find_level n (ls ++ [l]) = match find_field n (snd l) with Some f => Some f | None => find_level n ls end.
Proof.
  induction ls as [|x ls IH]; cbn [app find_level]; [destruct (find_field n (snd l)); reflexivity|].
  rewrite IH. destruct (find_field n (snd l)); [reflexivity|]. reflexivity.
Qed.

(* in one class *)
Definition no_mix (l : list (string * attr)) : Prop := forall n a a', In (n, a) l -> In (n, a') l -> is_field a = is_field a'.

Lemma find_own t c n : no_mix (ns t c) ->
  match od_get String.eqb (ns t c) n with
  | Ok (AField ty o d) => find_field n (own_fields t c) = Some (mk_field n ty o d)
  | _ => find_field n (own_fields t c) = None
  end.
Proof.
  unfold own_fields, find_field. induction (ns t c) as [|[m a] l IH]; intros M; [reflexivity|].
  assert (M' : no_mix l) by (intros x b b' I J; apply (M x); right; assumption).
  specialize (IH M'). cbn [od_get flat_map snd fst].
  destruct (String.eqb n m) eqn:E.
  - apply String.eqb_eq in E. subst m. destruct a as [ty o d| |v].
    + cbn [app find fd_name]. rewrite String.eqb_refl. reflexivity.
    + cbn [app]. destruct (find _ _) as [f|] eqn:Ef; [|reflexivity]. exfalso. apply find_some in Ef. destruct Ef as [I Q].
      apply in_flat_map in I. destruct I as ([m b] & I & J). cbn [snd fst] in J. destruct b; [|destruct J..]. destruct J as [<-|[]].
      cbn [fd_name] in Q. apply String.eqb_eq in Q. subst m. discriminate (M n _ _ (or_introl eq_refl) (or_intror I)).
    + cbn [app]. destruct (find _ _) as [f|] eqn:Ef; [|reflexivity]. exfalso. apply find_some in Ef. destruct Ef as [I Q].
      apply in_flat_map in I. destruct I as ([m b] & I & J). cbn [snd fst] in J. destruct b; [|destruct J..]. destruct J as [<-|[]].
      cbn [fd_name] in Q. apply String.eqb_eq in Q. subst m. discriminate (M n _ _ (or_introl eq_refl) (or_intror I)).
  - destruct a as [ty o d| |v]; cbn [app]; [cbn [find fd_name]; rewrite String.eqb_sym, E|..]; exact IH.
Qed.

Lemma od_get_in (l : list (string * attr)) n a : od_get String.eqb l n = Ok a -> In (n, a) l.
Proof.
  induction l as [|[m b] l IH]; cbn [od_get]; [discriminate|]. destruct (String.eqb n m) eqn:E.
  - intros H. injection H as <-. apply String.eqb_eq in E. subst. left. reflexivity.
  - intros H. right. apply IH. exact H.
Qed.
Lemma od_get_err (l : list (string * attr)) n e : od_get String.eqb l n = Err e -> forall a, ~ In (n, a) l.
Proof.
  induction l as [|[m b] l IH]; cbn [od_get]; intros H a I; [destruct I|]. destruct (String.eqb n m) eqn:E; [discriminate|].
  destruct I as [I|I]; [injection I as -> ->; rewrite String.eqb_refl in E; discriminate|]. apply (IH H a). exact I.
Qed.

Lemma search_found t : forall cs n a, search t cs n = Ok a -> exists c, In c cs /\ In (n, a) (ns t c).
Proof.
  induction cs as [|c cs IH]; cbn [search]; intros n a H; [discriminate|].
  destruct (od_get String.eqb (ns t c) n) as [b|] eqn:E.
  - injection H as <-. exists c. split; [left; reflexivity|]. apply od_get_in. exact E.
  - destruct (IH n a H) as (x & I & J). exists x. split; [right; exact I|exact J].
Qed.

Lemma unmixed_base t c b : unmixed t c -> base_of t c b -> unmixed t b.
Proof. intros U B x y n a a' Dx Dy. apply U with (b := x) (b' := y); apply derives_base with b; assumption. Qed.

Lemma described t : good t -> forall c, format t c -> single t c -> unmixed t c ->
  first_chain t c (ordered_field_names (class_fmt t c)) /\
  forall n, match class_getattr t c n with
            | Ok (AField ty o d) => class_field (class_fmt t c) n = Some (mk_field n ty o d)
            | _ => class_field (class_fmt t c) n = None
            end.
Proof.
  intros G. apply (well_founded_induction (well_founded_ltof nat (fun x => x)) (fun c => format t c -> single t c -> unmixed t c ->
    first_chain t c (ordered_field_names (class_fmt t c)) /\
    forall n, match class_getattr t c n with
              | Ok (AField ty o d) => class_field (class_fmt t c) n = Some (mk_field n ty o d)
              | _ => class_field (class_fmt t c) n = None
              end)).
  unfold ltof. intros c IH F S U. destruct (Nat.eq_dec c BASE_HEADER) as [->|N].
  - split.
    + unfold ordered_field_names. change (fmt_levels (class_fmt t BASE_HEADER)) with (levels t BASE_HEADER). rewrite levels_base by exact G. constructor.
    + intros n. unfold class_field. change (fmt_levels (class_fmt t BASE_HEADER)) with (levels t BASE_HEADER). rewrite levels_base by exact G. cbn [find_level].
      destruct (class_getattr t BASE_HEADER n) as [[ty o d| |v]|e] eqn:E; try reflexivity. exfalso.
      destruct G as [[r ->] _]. unfold class_getattr in E. apply search_found in E. destruct E as (c & [<-|[<-|[]]] & J).
      * destruct J as [J|[J|[]]]; discriminate J.
      * destruct J.
  - destruct (single_class t c G F S N) as (b & FB & BO & M & Sb & Fb & D).
    assert (Bl := base_lt _ _ _ G BO). destruct (IH b) as [C A]; [lia|exact Fb|exact Sb|apply unmixed_base with c; assumption|].
    assert (E := levels_step t c b G N M Fb). unfold levels in E. split.
    + replace (ordered_field_names (class_fmt t c)) with (ordered_field_names (class_fmt t b) ++ map fst (filter (fun p => is_field (snd p)) (ns t c))).
      * apply chain_step with b; assumption.
      * unfold ordered_field_names. rewrite E. rewrite flat_map_app. cbn [flat_map snd]. rewrite own_fields_names, app_nil_r, own_names_filter. reflexivity.
    + intros n. unfold class_field. rewrite E, find_level_last. cbn [snd].
      assert (DD : derives t c c) by (apply derives_self; lia).
      assert (X := find_own t c n (fun m a a' I J => U c c m a a' DD DD I J)).
      unfold class_getattr. rewrite M. cbn [search]. destruct (od_get String.eqb (ns t c) n) as [a|e] eqn:Eo.
      * destruct a as [ty o d| |v]; rewrite X; [reflexivity|..].
        -- specialize (A n). destruct (class_getattr t b n) as [[ty o d| |w]|e] eqn:Ea; try exact A. exfalso.
           unfold class_getattr in Ea. apply search_found in Ea. destruct Ea as (y & I & J).
           assert (Dy : derives t c y) by (apply D; right; apply mro_derives; [exact G|exact I]).
           apply od_get_in in Eo. discriminate (U c y n _ _ DD Dy Eo J).
        -- specialize (A n). destruct (class_getattr t b n) as [[ty o d| |w]|e] eqn:Ea; try exact A. exfalso.
           unfold class_getattr in Ea. apply search_found in Ea. destruct Ea as (y & I & J).
           assert (Dy : derives t c y) by (apply D; right; apply mro_derives; [exact G|exact I]).
           apply od_get_in in Eo. discriminate (U c y n _ _ DD Dy Eo J).
      * rewrite X. exact (A n).
Qed.

(* ------------------------------------------------------------------ *)
(* sub-formats *)

Lemma od_get_set {A} (d : list (string * A)) n m a :
  od_get String.eqb (od_set String.eqb d m a) n = if String.eqb n m then Ok a else od_get String.eqb d n.
Proof.
  induction d as [|[k b] d IH]; cbn [od_set od_get].
  - destruct (String.eqb n m); reflexivity.
  - destruct (String.eqb m k) eqn:E; cbn [od_get].
    + apply String.eqb_eq in E. subst k. destruct (String.eqb n m); reflexivity.
    + rewrite IH. destruct (String.eqb n k) eqn:F; [|reflexivity].
      apply String.eqb_eq in F. subst k. destruct (String.eqb n m) eqn:Q; [|reflexivity].
      apply String.eqb_eq in Q. subst m. rewrite String.eqb_refl in E. discriminate.
Qed.

Definition update (d ps : list (string * attr)) : list (string * attr) :=
  fold_left (fun d p => od_set String.eqb d (fst p) (snd p)) ps d.
Lemma update_app d ps qs : update d (ps ++ qs) = update (update d ps) qs.
Proof. unfold update. apply fold_left_app. Qed.
Lemma update_other ps : forall d n, (forall a, ~ In (n, a) ps) -> od_get String.eqb (update d ps) n = od_get String.eqb d n.
Proof.
  induction ps as [|[m b] ps IH]; intros d n H; [reflexivity|]. cbn [update fold_left fst snd].
  change (od_get String.eqb (update (od_set String.eqb d m b) ps) n = od_get String.eqb d n).
  rewrite IH; [|intros a I; apply (H a); right; exact I]. rewrite od_get_set. destruct (String.eqb n m) eqn:E; [|reflexivity].
  apply String.eqb_eq in E. subst m. destruct (H b). left. reflexivity.
Qed.
Lemma update_last d n a ps : (forall b, ~ In (n, b) ps) -> od_get String.eqb (update d ((n, a) :: ps)) n = Ok a.
Proof.
  intros H. cbn [update fold_left fst snd]. change (od_get String.eqb (update (od_set String.eqb d n a) ps) n = Ok a).
  rewrite update_other by exact H. rewrite od_get_set, String.eqb_refl. reflexivity.
Qed.

Lemma copy_fields_get t parent names : forall d d', copy_fields t parent names d = Ok d' ->
  forall n, In n names -> exists ty o x, class_getattr t parent n = Ok (AField ty o x) /\ od_get String.eqb d' n = Ok (AField ty o x).
Proof.
  induction names as [|m names IH]; cbn [copy_fields]; intros d d' H n I; [destruct I|].
  destruct (class_getattr t parent m) as [[ty o x| |v]|] eqn:E; cbn in H; try discriminate. destruct (is_named _ _ _); [|discriminate].
  destruct (in_dec string_dec n names) as [J|J]; [apply IH with (1 := H) (2 := J)|].
  destruct I as [<-|I]; [|contradiction]. exists ty, o, x. split; [exact E|].
  assert (O : forall l e e', copy_fields t parent l e = Ok e' -> ~ In m l -> od_get String.eqb e' m = od_get String.eqb e m).
  { clear. induction l as [|y l IH]; cbn [copy_fields]; intros e e' H N; [congruence|].
    destruct (class_getattr t parent y) as [[ty o x| |v]|]; cbn in H; try discriminate. destruct (is_named _ _ _); [|discriminate].
    rewrite (IH _ _ H) by (intros I; apply N; right; exact I). rewrite od_get_set.
    destruct (String.eqb m y) eqn:Q; [|reflexivity]. apply String.eqb_eq in Q. subst. destruct N. left. reflexivity. }
  rewrite (O _ _ _ H J). rewrite od_get_set, String.eqb_refl. reflexivity.
Qed.

Lemma sub_made t name bases body parent names t' :
  new_sub_format t name bases body parent names = Ok t' ->
  exists d, copy_fields t parent names (od_of String.eqb body) = Ok d /\
    forall n a, od_get String.eqb (update d (collect_attributes t parent BASE_HEADER is_public)) n = Ok a -> class_getattr t' (length t) n = Ok a.
Proof.
  unfold new_sub_format. destruct (copy_fields _ _ _ _) as [d|] eqn:E; cbn; [|discriminate].
  unfold new_format, make_class. destruct (negb _); [discriminate|]. destruct (linearize _ _) as [m|]; cbn; [|discriminate].
  intros H. injection H as <-. exists d. split; [reflexivity|]. intros n a O.
  unfold class_getattr, mro, ns. rewrite nth_error_app2 by lia. rewrite Nat.sub_diag. cbn [nth_error k_mro search].
  unfold ns. rewrite nth_error_app2 by lia. rewrite Nat.sub_diag. cbn [nth_error k_ns].
  change (od_get String.eqb (update d (collect_attributes t parent BASE_HEADER is_public)) n) with
    (od_get String.eqb (fold_left (fun d p => od_set String.eqb d (fst p) (snd p)) (collect_attributes t parent BASE_HEADER is_public) d) n) in O.
  rewrite O. reflexivity.
Qed.

Lemma until_split b pre rest : ~ In b pre -> until b (pre ++ b :: rest) = pre ++ [b].
Proof.
  induction pre as [|x pre IH]; cbn [until app]; intros N.
  - rewrite Nat.eqb_refl. reflexivity.
  - destruct (Nat.eqb x b) eqn:E; [apply Nat.eqb_eq in E; subst; destruct N; left; reflexivity|].
    rewrite IH; [reflexivity|]. intros I. apply N. right. exact I.
Qed.
Lemma until_in b cs x : In x (until b cs) -> In x cs.
Proof.
  induction cs as [|c cs IH]; cbn [until]; [tauto|]. destruct (Nat.eqb c b); intros [->|I]; [left; reflexivity|destruct I|left; reflexivity|right; apply IH; exact I].
Qed.

Lemma is_public_iff n a : is_public (n, a) = true <-> public n /\ exists v, a = AOther v.
Proof.
  unfold is_public, public. cbn [fst snd].
  destruct n as [|[[|] [|] [|] [|] [|] [|] [|] [|]] n]; destruct a; split; intros H;
    try (split; [exact I|eexists; reflexivity]); try discriminate H; try (destruct H as [H [w E]]; try discriminate E; try destruct H; reflexivity); reflexivity.
Qed.

Lemma collected t parent n a : In (n, a) (collect_attributes t parent BASE_HEADER is_public) <->
  exists c, In c (until BASE_HEADER (mro t parent)) /\ In (n, a) (ns t c) /\ public n /\ exists v, a = AOther v.
Proof.
  unfold collect_attributes. rewrite in_flat_map. split.
  - intros (c & I & J). apply filter_In in J. destruct J as [J P]. apply is_public_iff in P. exists c. tauto.
  - intros (c & I & J & P). exists c. split; [exact I|]. apply filter_In. split; [exact J|]. apply is_public_iff. exact P.
Qed.

Lemma sub_fields_kept t name bases body parent names t' n : good t ->
  new_sub_format t name bases body parent names = Ok t' -> In n names ->
  (forall b v, derives t parent b -> ~ In (n, AOther v) (ns t b)) ->
  exists ty o x, class_getattr t parent n = Ok (AField ty o x) /\ class_getattr t' (length t) n = Ok (AField ty o x).
Proof.
  intros G H I M. destruct (sub_made _ _ _ _ _ _ _ H) as (d & C & S).
  destruct (copy_fields_get _ _ _ _ _ C n I) as (ty & o & x & A & O). exists ty, o, x. split; [exact A|]. apply S.
  rewrite update_other; [exact O|]. intros a J. apply collected in J. destruct J as (c & J & Q & _ & v & ->).
  apply until_in in J. apply (mro_derives t parent c G) in J. apply (M c v J Q).
Qed.

Lemma bound_dec (l : list (string * attr)) n : (exists b, In (n, AOther b) l) \/ forall b, ~ In (n, AOther b) l.
Proof.
  induction l as [|[m b] l [[c J]|J]]; [right; intros b []|left; exists c; right; exact J|].
  destruct (string_dec n m) as [->|N]; [|right; intros c [E|K]; [injection E as E _; congruence|apply (J c); exact K]].
  destruct b as [ty o d| |v]; [right..|left; exists v; left; reflexivity]; (intros c [E|K]; [discriminate E|apply (J c); exact K]).
Qed.

(* a class binds a name once *)
Definition once (l : list (string * attr)) : Prop := forall n a a', In (n, a) l -> In (n, a') l -> a = a'.
Lemma od_set_in {A} (d : list (string * A)) n a m b : In (m, b) (od_set String.eqb d n a) -> (m = n /\ b = a) \/ In (m, b) d.
Proof.
  induction d as [|[k c] d IH]; cbn [od_set]; [intros [E|[]]; injection E as <- <-; left; split; reflexivity|].
  destruct (String.eqb n k) eqn:E.
  - apply String.eqb_eq in E. subst k. intros [Q|Q]; [injection Q as <- <-; left; split; reflexivity|right; right; exact Q].
  - intros [Q|Q]; [right; left; exact Q|]. destruct (IH Q) as [X|X]; [left; exact X|right; right; exact X].
Qed.
Lemma od_set_keys {A} (d : list (string * A)) n a : NoDup (map fst d) -> NoDup (map fst (od_set String.eqb d n a)).
Proof.
  induction d as [|[k c] d IH]; cbn [od_set map fst]; intros N; [constructor; [intros []|constructor]|].
  inversion N as [|x l X Y]; subst. destruct (String.eqb n k) eqn:E; cbn [map fst]; [constructor; assumption|].
  constructor; [|apply IH; exact Y]. intros I. apply in_map_iff in I. destruct I as ([m b] & <- & I).
  apply od_set_in in I. cbn [fst] in *. destruct I as [[-> ->]|I]; [rewrite String.eqb_refl in E; discriminate|].
  apply X. apply in_map_iff. exists (m, b). split; [reflexivity|exact I].
Qed.
Lemma update_keys ps : forall d, NoDup (map fst d) -> NoDup (map fst (update d ps)).
Proof.
  induction ps as [|[m b] ps IH]; intros d N; [exact N|]. cbn [update fold_left fst snd].
  apply (IH (od_set String.eqb d m b)). apply od_set_keys. exact N.
Qed.
Lemma copy_keys t parent names : forall d d', copy_fields t parent names d = Ok d' -> NoDup (map fst d) -> NoDup (map fst d').
Proof.
  induction names as [|m names IH]; cbn [copy_fields]; intros d d' H N; [congruence|].
  destruct (class_getattr t parent m) as [[ty o x| |v]|]; cbn in H; try discriminate. destruct (is_named _ _ _); [|discriminate].
  apply IH with (1 := H). apply od_set_keys. exact N.
Qed.

Definition named_once (t : table) : Prop := forall c k, nth_error t c = Some k -> NoDup (map fst (k_ns k)).
Lemma make_class_named t name bases namespace meta t' : named_once t -> NoDup (map fst namespace) ->
  make_class t name bases namespace meta = Ok t' -> named_once t'.
Proof.
  intros W N H. unfold make_class in H. destruct (negb _); [discriminate|]. destruct (linearize _ _); cbn in H; [|discriminate].
  injection H as <-. intros c k E. apply nth_app in E. destruct E as [[_ E]|[-> ->]]; [apply W with (1 := E)|exact N].
Qed.
Lemma declare_named t d t' : named_once t -> declare t d = Ok t' -> named_once t'.
Proof.
  intros W H. assert (O : forall body : list (string * attr), NoDup (map fst (od_of String.eqb body))) by (intros body; apply (update_keys body []); constructor).
  destruct d as [name bases body|name bases body|name bases body parent names]; cbn [declare] in H.
  - destruct (existsb (is_sub t) _); [discriminate|]. destruct (existsb _ _); [unfold new_format in H|]; apply make_class_named with (3 := H); auto.
  - destruct (existsb _ _); [discriminate|]. unfold new_format in H. apply make_class_named with (3 := H); auto.
  - unfold new_sub_format in H. destruct (copy_fields _ _ _ _) as [m|] eqn:E; cbn in H; [|discriminate].
    unfold new_format in H. apply make_class_named with (3 := H); auto. apply update_keys. apply copy_keys with (1 := E). apply O.
Qed.
Lemma declare_all_named ds t : declare_all ds = Ok t -> named_once t.
Proof.
  unfold declare_all. assert (G : forall u, Ok initial = Ok u -> named_once u).
  { intros u E. injection E as <-. intros c k H. destruct c as [|[|[|c]]]; cbn in H; [| | |destruct c; discriminate]; injection H as <-; cbn [k_ns map fst].
    - constructor.
    - constructor; [intros [X|[]]; discriminate X|constructor; [intros []|constructor]].
    - constructor. }
  revert G. generalize (@Ok table initial). induction ds as [|d ds IH]; cbn [fold_left]; intros r G H; [apply G; exact H|].
  apply IH with (2 := H). intros u E. destruct r as [u0|]; cbn in E; [|discriminate].
  apply declare_named with (2 := E). apply G. reflexivity.
Qed.

Lemma nodup_split {A} (l : list (string * A)) n a : NoDup (map fst l) -> In (n, a) l -> exists p q, l = p ++ (n, a) :: q /\ (forall b, ~ In (n, b) p) /\ forall b, ~ In (n, b) q.
Proof.
  intros N I. apply in_split in I. destruct I as (p & q & ->). exists p, q. split; [reflexivity|].
  rewrite map_app in N. cbn [map fst] in N. apply NoDup_remove_2 in N. split; intros b J; apply N; apply in_or_app; [left|right];
    apply in_map_iff; exists (n, b); (split; [reflexivity|exact J]).
Qed.

Lemma sub_attribute t name bases body parent names t' n v pre rest : named_once t ->
  new_sub_format t name bases body parent names = Ok t' -> public n ->
  mro t parent = pre ++ BASE_HEADER :: rest -> ~ In BASE_HEADER pre ->
  bound_last t (pre ++ [BASE_HEADER]) n v -> class_getattr t' (length t) n = Ok (AOther v).
Proof.
  intros W H P M N (l & c & r & E & I & L). destruct (sub_made _ _ _ _ _ _ _ H) as (d & C & S). apply S. clear S.
  unfold collect_attributes. rewrite M, (until_split _ _ _ N), E. rewrite flat_map_app. cbn [flat_map].
  assert (D : NoDup (map fst (ns t c))).
  { unfold ns in I |- *. destruct (nth_error t c) as [k|] eqn:Ek; [apply W with (1 := Ek)|destruct I]. }
  destruct (nodup_split _ _ _ D I) as (p & q & Ep & _ & Q). rewrite Ep. rewrite filter_app. cbn [filter].
  assert (X : is_public (n, AOther v) = true) by (apply is_public_iff; split; [exact P|exists v; reflexivity]). rewrite X.
  rewrite update_app. rewrite <- app_assoc. rewrite update_app. cbn [app]. apply update_last.
  intros b J. apply in_app_or in J. destruct J as [J|J].
  - apply filter_In in J. apply (Q b). apply J.
  - apply in_flat_map in J. destruct J as (x & Jx & J). apply filter_In in J. destruct J as [J Pb]. apply is_public_iff in Pb.
    destruct Pb as [_ [w ->]]. apply (L x w Jx J).
Qed.

(* for a parent with one base *)
Lemma single_mro t : good t -> forall c, format t c -> single t c -> exists pre, mro t c = pre ++ [BASE_HEADER; OBJECT] /\ ~ In BASE_HEADER pre.
Proof.
  intros G. apply (well_founded_induction (well_founded_ltof nat (fun x => x)) (fun c => format t c -> single t c ->
    exists pre, mro t c = pre ++ [BASE_HEADER; OBJECT] /\ ~ In BASE_HEADER pre)).
  unfold ltof. intros c IH F S. destruct (Nat.eq_dec c BASE_HEADER) as [->|N].
  - exists []. split; [|intros []]. destruct G as [[r ->] _]. reflexivity.
  - destruct (single_class t c G F S N) as (b & FB & BO & M & Sb & Fb & D).
    assert (Bl := base_lt _ _ _ G BO). destruct (IH b) as (pre & E & P); [lia|exact Fb|exact Sb|].
    exists (c :: pre). split; [rewrite M, E; reflexivity|]. intros [X|X]; [congruence|contradiction].
Qed.

Lemma last_bound t n cs : forall v, (exists c, In c cs /\ In (n, AOther v) (ns t c)) ->
  exists w, bound_last t cs n w.
Proof.
  induction cs as [|x cs IH]; intros v (c & I & J); [destruct I|].
  assert (D : (exists w c, In c cs /\ In (n, AOther w) (ns t c)) \/ forall b w, In b cs -> ~ In (n, AOther w) (ns t b)).
  { clear. induction cs as [|y cs [(w & c & I & J)|K]]; [right; intros b w []|left; exists w, c; split; [right; exact I|exact J]|].
    destruct (bound_dec (ns t y) n) as [[w B]|B]; [left; exists w, y; split; [left; reflexivity|exact B]|right].
    intros b w [<-|I]; [apply B|apply K; exact I]. }
  destruct D as [(w & y & Iy & Jy)|K].
  - destruct (IH w (ex_intro _ y (conj Iy Jy))) as (u & l & c0 & r & -> & A & B). exists u, (x :: l), c0, r. split; [reflexivity|]. split; assumption.
  - destruct I as [<-|I]; [|destruct (K c v I J)]. exists v, [], x, cs. split; [reflexivity|]. split; [exact J|exact K].
Qed.

Lemma sub_attribute_single t name bases body parent names t' n v : good t -> named_once t ->
  new_sub_format t name bases body parent names = Ok t' -> public n -> format t parent -> single t parent ->
  class_getattr t parent n = Ok (AOther v) -> (forall b w, derives t parent b -> In (n, AOther w) (ns t b) -> w = v) ->
  class_getattr t' (length t) n = Ok (AOther v).
Proof.
  intros G W H P F S A U. destruct (single_mro t G parent F S) as (pre & M & N).
  unfold class_getattr in A. apply search_found in A. destruct A as (c & I & J).
  assert (Ic : In c (pre ++ [BASE_HEADER])).
  { rewrite M in I. apply in_app_or in I. apply in_or_app. destruct I as [I|[I|[I|[]]]]; [left; exact I|right; left; exact I|].
    subst c. destruct G as [[r ->] _]. destruct J. }
  destruct (last_bound t n (pre ++ [BASE_HEADER]) v (ex_intro _ c (conj Ic J))) as [w B].
  assert (w = v).
  { destruct B as (l & x & r & E & X & _). apply (U x w); [|exact X]. apply mro_derives; [exact G|]. rewrite M.
    assert (In x (pre ++ [BASE_HEADER])) by (rewrite E; apply in_or_app; right; left; reflexivity).
    apply in_app_or in H0. apply in_or_app. destruct H0 as [Y|[Y|[]]]; [left; exact Y|right; left; exact Y]. }
  subst w. apply (sub_attribute t name bases body parent names t' n v pre [OBJECT]); assumption.
Qed.

(* the fields of a sub-format without a body and without bases *)
Definition names_in (l : list (string * attr)) : list string := map fst (filter (fun p => is_field (snd p)) l).
Lemma od_set_new {A} (d : list (string * A)) n a : ~ In n (map fst d) -> od_set String.eqb d n a = d ++ [(n, a)].
Proof.
  induction d as [|[k b] d IH]; cbn [od_set map fst app]; intros N; [reflexivity|].
  destruct (String.eqb n k) eqn:E; [apply String.eqb_eq in E; subst; destruct N; left; reflexivity|].
  rewrite IH; [reflexivity|]. intros I. apply N. right. exact I.
Qed.
Lemma copied_names t parent names : forall d d', copy_fields t parent names d = Ok d' -> NoDup names ->
  (forall n, In n names -> ~ In n (map fst d)) -> map fst d' = map fst d ++ names /\ names_in d' = names_in d ++ names.
Proof.
  induction names as [|m names IH]; cbn [copy_fields]; intros d d' H N F.
  - injection H as <-. rewrite !app_nil_r. split; reflexivity.
  - destruct (class_getattr t parent m) as [[ty o x| |v]|]; cbn in H; try discriminate. destruct (is_named _ _ _); [|discriminate].
    inversion N as [|y l X Y]; subst. rewrite od_set_new in H by (apply F; left; reflexivity).
    destruct (IH _ _ H Y) as [A B].
    + intros n I J. rewrite map_app in J. apply in_app_or in J. destruct J as [J|[J|[]]]; [apply (F n (or_intror I) J)|].
      cbn [fst] in J. subst. contradiction.
    + split; [rewrite A, map_app, <- app_assoc; reflexivity|]. rewrite B. unfold names_in. rewrite filter_app, map_app, <- app_assoc. reflexivity.
Qed.
Lemma od_set_names d n v : ~ In n (names_in d) -> names_in (od_set String.eqb d n (AOther v)) = names_in d.
Proof.
  induction d as [|[k b] d IH]; cbn [od_set]; intros N; [reflexivity|]. unfold names_in in *. cbn [filter snd] in N.
  destruct (String.eqb n k) eqn:E.
  - apply String.eqb_eq in E. subst k. cbn [filter snd is_field]. destruct (is_field b) eqn:B; [|reflexivity].
    destruct N. left. reflexivity.
  - cbn [filter snd]. destruct (is_field b); cbn [map fst] in *; rewrite IH; try reflexivity; [|exact N].
    intros I. apply N. right. exact I.
Qed.
Lemma update_names ps : forall d, (forall n a, In (n, a) ps -> is_field a = false /\ ~ In n (names_in d)) ->
  (forall p, In p ps -> exists v, snd p = AOther v) -> names_in (update d ps) = names_in d.
Proof.
  induction ps as [|[m b] ps IH]; intros d F O; [reflexivity|]. cbn [update fold_left fst snd].
  destruct (O (m, b) (or_introl eq_refl)) as [v E]. cbn [snd] in E. subst b.
  destruct (F m _ (or_introl eq_refl)) as [_ M].
  change (names_in (update (od_set String.eqb d m (AOther v)) ps) = names_in d).
  rewrite IH; [apply od_set_names; exact M| |intros p I; apply O; right; exact I].
  intros n a I. rewrite od_set_names by exact M. apply F. right. exact I.
Qed.

Lemma sub_names t name parent names t' : good t -> new_sub_format t name [] [] parent names = Ok t' -> good t' -> NoDup names ->
  (forall n b v, In n names -> derives t parent b -> ~ In (n, AOther v) (ns t b)) ->
  field_names t' (length t) = Ok names.
Proof.
  intros G H G' N M. unfold new_sub_format in H. destruct (copy_fields _ _ _ _) as [d|] eqn:E; cbn in H; [|discriminate].
  destruct (copied_names _ _ _ _ _ E N) as [_ B]; [intros n _ []|]. cbn in B.
  unfold new_format, header_bases in H. cbn [existsb] in H. unfold make_class in H.
  destruct (negb _); [discriminate|]. destruct (linearize _ _) as [m|]; cbn in H; [|discriminate]. injection H as H.
  assert (L : (2 < length t)%nat) by (destruct G as [[r ->] _]; cbn; lia).
  assert (Q : nth_error t' (length t) = Some (mk_class name (fold_left (fun d p => od_set String.eqb d (fst p) (snd p))
     (collect_attributes t parent BASE_HEADER is_public) d) [BASE_HEADER] (length t :: m) MSubFormat)).
  { rewrite <- H. rewrite nth_error_app2 by lia. rewrite Nat.sub_diag. reflexivity. }
  apply chain_order; [exact G'|]. replace names with ([] ++ names) by reflexivity. rewrite <- B.
  replace (names_in d) with (names_in (ns t' (length t))).
  - apply (chain_step t' (length t) BASE_HEADER []); [unfold BASE_HEADER; lia| |constructor].
    eexists. exists []. split; [exact Q|reflexivity].
  - unfold ns at 1. rewrite Q. cbn [k_ns].
    apply (update_names (collect_attributes t parent BASE_HEADER is_public) d).
    + intros n a I. apply collected in I. destruct I as (c & I & J & _ & v & ->). split; [reflexivity|].
      rewrite B. intros K. apply until_in in I. apply (mro_derives t parent c G) in I. apply (M n c v K I J).
    + intros [n a] I. apply collected in I. destruct I as (c & _ & _ & _ & v & ->). exists v. reflexivity.
Qed.
