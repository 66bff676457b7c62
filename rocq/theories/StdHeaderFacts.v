(* Proofs about the standard textual header. *)
From Coq Require Import String ZArith List Bool Lia.
From Coq Require Import ZifyBool ZifyNat.
From Verif Require Import Py PyFacts Util UtilFacts Spec_Util FileIO Text TextIO Spec_Text TextFacts TextIOFacts ExtReadFacts.
Import ListNotations.
Open Scope Z_scope.

(* ------------------------------------------------------------------ *)
(* strip                                                                *)

Lemma is_space_iff c : is_space c = true <-> In c white.
Proof. unfold is_space, white. cbn [In]. lia. Qed.
Lemma lstrip_split s : exists a, s = a ++ lstrip s /\ (forall c, In c a -> In c white) /\
  (forall c t, lstrip s = c :: t -> ~ In c white).
Proof.
  induction s as [|c s (a & E & A & N)]; cbn [lstrip].
  - exists []. split; auto. split; [intros ? []|discriminate].
  - destruct (is_space c) eqn:Q.
    + exists (c :: a). split; [cbn; now f_equal|]. split; auto. intros d [<-|D]; auto. now apply is_space_iff.
    + exists []. split; auto. split; [intros ? []|]. intros d t H. injection H as <- <-. rewrite <- is_space_iff. congruence.
Qed.
Lemma strip_stripped s : stripped s (strip s).
Proof.
  unfold strip. destruct (lstrip_split s) as (a & E & A & N). destruct (lstrip_split (rev (lstrip s))) as (b & F & B & M).
  set (u := lstrip s) in *. set (w := lstrip (rev u)) in *.
  assert (U : u = rev w ++ rev b) by (rewrite <- rev_app_distr, <- F, rev_involutive; reflexivity).
  split; [|split].
  - exists a, (rev b). split. { now rewrite <- U. } intros c [H|H]; auto. apply B. now apply in_rev.
  - intros c t H. apply (N c (t ++ rev b)). rewrite U, H. reflexivity.
  - intros c t H. apply (M c (rev t)). rewrite <- (rev_involutive w), H, rev_app_distr. reflexivity.
Qed.
Lemma lstrip_white_app a s : (forall c, In c a -> In c white) -> lstrip (a ++ s) = lstrip s.
Proof.
  induction a as [|c a IH]; intros H; cbn [app lstrip]; auto. replace (is_space c) with true.
  - apply IH. intros. apply H. now right.
  - symmetry. apply is_space_iff, H. now left.
Qed.
Lemma lstrip_app_nonwhite s c t b : lstrip s = c :: t -> lstrip (s ++ b) = lstrip s ++ b.
Proof. induction s as [|d s IH]; cbn [lstrip app]; [discriminate|]. destruct (is_space d); auto. Qed.
Lemma strip_white_end s b : (forall c, In c b -> In c white) -> strip (s ++ b) = strip s.
Proof.
  intros H. unfold strip. destruct (lstrip s) as [|c t] eqn:E.
  - destruct (lstrip_split s) as (a & F & A & _). rewrite E, app_nil_r in F. subst a. rewrite lstrip_white_app by auto.
    rewrite <- (app_nil_r b), lstrip_white_app by auto. reflexivity.
  - rewrite (lstrip_app_nonwhite _ _ _ _ E), E, rev_app_distr, lstrip_white_app; auto. intros d D. apply H. now apply in_rev.
Qed.
(* the stripped text is unique *)
Lemma stripped_unique s r : stripped s r -> r = strip s.
Proof.
  intros ((a & b & -> & W) & H & T). rewrite app_assoc, strip_white_end by auto. unfold strip. rewrite lstrip_white_app by auto.
  assert (L : forall u, (forall c t, u = c :: t -> ~ In c white) -> lstrip u = u).
  { intros [|c t] Q; auto. cbn [lstrip]. specialize (Q c t eq_refl). rewrite <- is_space_iff in Q. now destruct (is_space c). }
  rewrite (L r H), L. { now rewrite rev_involutive. }
  intros c t Q. apply (T c (rev t)). rewrite <- (rev_involutive r), Q. reflexivity.
Qed.
Lemma strip_fit w v : strip (fit w v) = strip (firstn (Z.to_nat w) v).
Proof.
  unfold fit, ljust, py_slice. cbn [skipn Z.to_nat]. rewrite Z.sub_0_r. apply strip_white_end.
  intros c H. apply repeat_spec in H. subst. unfold SPACE, white. cbn. tauto.
Qed.

(* ------------------------------------------------------------------ *)
(* rendering a template                                                 *)

Definition slot : Set := (string * interval)%type.
Definition value (kw : list (string * text)) (arg : string) : text := match lookup arg kw with Some v => v | None => [] end.
Fixpoint render (template : text) (idx : Z) (slots : list slot) (stop : Z) (kw : list (string * text)) : text :=
  match slots with
  | [] => py_slice template idx stop
  | (arg, (a, b)) :: slots => py_slice template idx a ++ fit (b - a) (value kw arg) ++ render template b slots stop kw
  end.
Definition resolve (ph : string * interval) : res slot := do arg <- template_field_name (fst ph) ;; Ok (arg, snd ph).

Lemma lookup_del_other {A} n m (kw : list (string * A)) : n <> m -> lookup n (dict_del m kw) = lookup n kw.
Proof.
  intros N. induction kw as [|(k, v) kw IH]; auto. cbn [dict_del lookup]. destruct (String.eqb_spec k m) as [->|K]; cbn [lookup].
  - destruct (String.eqb_spec m n); congruence.
  - destruct (String.eqb k n); auto.
Qed.
Lemma lookup_In {A} n v (kw : list (string * A)) : lookup n kw = Some v -> In (n, v) kw.
Proof.
  induction kw as [|(k, w) kw IH]; cbn [lookup]; [discriminate|]. destruct (String.eqb_spec k n) as [->|]; intros H.
  - injection H as ->. now left.
  - right. auto.
Qed.
Lemma lookup_None {A} n (kw : list (string * A)) : lookup n kw = None <-> ~ In n (map fst kw).
Proof.
  induction kw as [|(k, w) kw IH]; cbn [lookup map In fst]; [tauto|]. destruct (String.eqb_spec k n) as [->|N].
  - split; [discriminate|]. tauto.
  - rewrite IH. tauto.
Qed.
Lemma lookup_NoDup {A} n v (kw : list (string * A)) : NoDup (map fst kw) -> In (n, v) kw -> lookup n kw = Some v.
Proof.
  induction kw as [|(k, w) kw IH]; [intros _ []|]. intros D [H|H]; cbn [lookup]; inversion D; subst.
  - injection H as -> ->. now rewrite String.eqb_refl.
  - destruct (String.eqb_spec k n) as [->|]; auto. exfalso. apply H2. now apply (in_map fst) in H.
Qed.
Lemma dict_del_In {A} n (kw : list (string * A)) p : NoDup (map fst kw) -> (In p (dict_del n kw) <-> In p kw /\ fst p <> n).
Proof.
  induction kw as [|(k, w) kw IH]; cbn [dict_del map In fst]; [tauto|]. intros D. inversion D; subst.
  destruct (String.eqb_spec k n) as [->|N].
  - split.
    + intros H. split; auto. intros <-. now apply (in_map fst) in H.
    + intros ([<-|H] & N); auto. now cbn in N.
  - cbn [In]. rewrite IH by auto. split.
    + intros [<-|(H & Q)]; auto.
    + intros ([<-|H] & Q); auto.
Qed.
Lemma dict_del_NoDup {A} n (kw : list (string * A)) : NoDup (map fst kw) -> NoDup (map fst (dict_del n kw)).
Proof.
  induction kw as [|(k, w) kw IH]; cbn [dict_del map]; auto. intros D. inversion D; subst. destruct (String.eqb_spec k n) as [->|N]; auto.
  cbn [map]. constructor; auto. cbn [fst] in *. intros H. apply H1. apply in_map_iff in H. destruct H as ((k', w') & <- & H). 
  apply dict_del_In in H; auto. apply in_map_iff. exists (k', w'). tauto.
Qed.
Lemma dict_pop_eq n kw : NoDup (map fst kw) -> exists kw', dict_pop n kw = (value kw n, kw') /\ NoDup (map fst kw') /\
  (forall p, In p kw' <-> In p kw /\ fst p <> n) /\ (forall m, m <> n -> lookup m kw' = lookup m kw).
Proof.
  intros D. unfold dict_pop, value. destruct (lookup n kw) as [v|] eqn:E.
  - exists (dict_del n kw). split; auto. split. { now apply dict_del_NoDup. } split. { intros. now apply dict_del_In. }
    intros. now apply lookup_del_other.
  - exists kw. split; auto. split; auto. split; auto. intros p. apply lookup_None in E. split; [|tauto]. intros H. split; auto.
    intros <-. apply E. now apply in_map.
Qed.

Lemma render_ext template slots stop kw kw' : forall idx,
  (forall arg, In arg (map fst slots) -> lookup arg kw = lookup arg kw') -> render template idx slots stop kw = render template idx slots stop kw'.
Proof.
  induction slots as [|(arg, (a, b)) slots IH]; intros idx H; cbn [render]; auto. f_equal. f_equal.
  - unfold value. now rewrite (H arg) by (now left).
  - apply IH. intros. apply H. now right.
Qed.

Lemma format_chunks_run template stop : forall phs slots idx kw, map_res resolve phs = Ok slots -> NoDup (map fst slots) -> NoDup (map fst kw) ->
  exists chunks rest, format_chunks_loop template (zip_longest (compl_loop idx (map snd phs) stop) phs) kw = Ok (chunks, rest) /\
    concat chunks = render template idx slots stop kw /\
    (forall p, In p rest <-> In p kw /\ ~ In (fst p) (map fst slots)).
Proof.
  induction phs as [|(ph, (a, b)) phs IH]; intros slots idx kw R D Dk.
  - injection R as <-. cbn. exists [py_slice template idx stop], kw. split; auto. split. { apply app_nil_r. } intros. tauto.
  - cbn [map_res] in R. unfold resolve in R at 1. cbn [fst snd] in R. destruct (template_field_name ph) as [arg|] eqn:T; cbn [bind] in R; [|discriminate].
    destruct (map_res resolve phs) as [sl|] eqn:E; cbn [bind] in R; [|discriminate]. injection R as <-.
    inversion D as [|? ? Na D']; subst. cbn [map fst] in Na.
    destruct (dict_pop_eq arg kw Dk) as (kw' & P & Dk' & M & L). destruct (IH sl b kw' eq_refl D' Dk') as (chunks & rest & F & C & I).
    cbn [map snd compl_loop zip_longest format_chunks_loop fst]. rewrite T. cbn [bind]. rewrite P. cbn [bind]. rewrite F. cbn [bind].
    eexists _, rest. split; [reflexivity|]. split.
    + cbn [app concat render]. rewrite C. f_equal. f_equal. apply render_ext. intros m H. apply L. intros ->. contradiction.
    + intros p. rewrite I, M. cbn [map In fst]. split; [intros ((H1 & H2) & H3); split; auto; intros [->|]; auto|].
      intros (H1 & H2). split; [split; auto|]; intros Q; apply H2; auto.
Qed.

(* slots in order within idx..stop *)
Lemma render_zlen template slots stop kw : forall idx, 0 <= idx -> ordered_within idx stop (map snd slots) -> stop <= zlen template ->
  zlen (render template idx slots stop kw) = stop - idx.
Proof.
  induction slots as [|(arg, (a, b)) slots IH]; intros idx I O S; cbn [render map snd ordered_within fst] in *.
  - rewrite zlen_py_slice by lia. lia.
  - destruct O as (O1 & O2 & O3).
    assert (B : forall l x, ordered_within x stop l -> x <= stop).
    { clear. induction l as [|(u, v) l IH]; intros x H; cbn in H; [lia|]. destruct H as (H1 & H2 & H3). specialize (IH _ H3). cbn in *. lia. }
    specialize (B _ _ O3). rewrite !zlen_app, IH by (auto; lia). rewrite fit_zlen, zlen_py_slice by lia. lia.
Qed.
Lemma py_slice_nth {A} (l : list A) a b i d : 0 <= a -> 0 <= i < b - a -> nth (Z.to_nat i) (py_slice l a b) d = nth (Z.to_nat (a + i)) l d.
Proof. intros A0 H. unfold py_slice. rewrite nth_firstn' by lia. rewrite nth_skipn'. f_equal. lia. Qed.

Lemma nth_before_z {A} (l m : list A) k dflt : 0 <= k < zlen l -> nth (Z.to_nat k) (l ++ m) dflt = nth (Z.to_nat k) l dflt.
Proof. intros. apply app_nth1. unfold zlen in *. lia. Qed.
Lemma nth_after_z {A} (l m : list A) k dflt : zlen l <= k -> nth (Z.to_nat k) (l ++ m) dflt = nth (Z.to_nat (k - zlen l)) m dflt.
Proof. intros. rewrite app_nth2 by (unfold zlen in *; lia). f_equal. unfold zlen in *. lia. Qed.
Lemma render_nth template slots stop kw : forall idx, 0 <= idx -> ordered_within idx stop (map snd slots) -> stop <= zlen template ->
  forall i, idx <= i < stop ->
  (forall arg a b, In (arg, (a, b)) slots -> a <= i < b -> nth (Z.to_nat (i - idx)) (render template idx slots stop kw) 0 = nth (Z.to_nat (i - a)) (fit (b - a) (value kw arg)) 0) /\
  ((forall arg a b, In (arg, (a, b)) slots -> ~ (a <= i < b)) -> nth (Z.to_nat (i - idx)) (render template idx slots stop kw) 0 = nth (Z.to_nat i) template 0).
Proof.
  induction slots as [|(arg, (a, b)) slots IH]; intros idx I O S i Hi; cbn [render map snd ordered_within fst] in *.
  - split; [intros ? ? ? []|]. intros _. rewrite py_slice_nth by lia. f_equal. lia.
  - destruct O as (O1 & O2 & O3).
    assert (B : forall l x, ordered_within x stop l -> x <= stop /\ forall u v, In (u, v) l -> x <= u).
    { clear. induction l as [|(u, v) l IH]; intros x H; cbn in H. { split; [lia|]. intros ? ? []. }
      destruct H as (H1 & H2 & H3). specialize (IH _ H3). cbn in *. destruct IH as (Q1 & Q2). split; [lia|].
      intros u' v' [E|H]. { injection E as <- <-. auto. } specialize (Q2 _ _ H). lia. }
    destruct (B _ _ O3) as (B1 & B2). pose proof (zlen_py_slice template idx a I O1) as L1. pose proof (fit_zlen (b - a) (value kw arg) ltac:(lia)) as L2.
    assert (C : forall t, nth (Z.to_nat (i - idx)) (py_slice template idx a ++ fit (b - a) (value kw arg) ++ t) 0 =
       if i <? a then nth (Z.to_nat i) template 0 else if i <? b then nth (Z.to_nat (i - a)) (fit (b - a) (value kw arg)) 0 else nth (Z.to_nat (i - b)) t 0).
    { intros t. destruct (i <? a) eqn:Q1.
      - rewrite nth_before_z by lia. rewrite py_slice_nth by lia. f_equal. lia.
      - rewrite nth_after_z by lia. destruct (i <? b) eqn:Q2.
        + rewrite nth_before_z by lia. f_equal. lia.
        + rewrite nth_after_z by lia. f_equal. lia. }
    rewrite C. split.
    + intros arg' a' b' [E|H] R.
      * injection E as <- <- <-. destruct (i <? a) eqn:Q1; [lia|]. destruct (i <? b) eqn:Q2; [reflexivity|lia].
      * assert (b <= a') by (apply (B2 a' b'); apply (in_map snd) in H; exact H).
        destruct (i <? a) eqn:Q1; [lia|]. destruct (i <? b) eqn:Q2; [lia|]. apply (IH b ltac:(lia) O3 S i ltac:(lia)); auto.
    + intros N. destruct (i <? a) eqn:Q1; auto. destruct (i <? b) eqn:Q2.
      * exfalso. apply (N arg a b); [now left|lia].
      * apply (IH b ltac:(lia) O3 S i ltac:(lia)). intros. eapply N. right. eauto.
Qed.

(* ------------------------------------------------------------------ *)
(* the shipped template                                                 *)

Definition slot_of (c : string * Z * Z * Z) : slot :=
  let '(name, card, col, width) := c in (name, (80 * (card - 1) + col - 1, 80 * (card - 1) + col - 1 + width)).
Definition slots : list slot := map slot_of card_fields.

Lemma slots_ok : map_res resolve (parse_template TEMPLATE) = Ok slots.
Proof. vm_compute. reflexivity. Qed.
Fixpoint orderedb (a b : Z) (l : list (Z * Z)) : bool :=
  match l with [] => a <=? b | i :: rest => (a <=? fst i) && (fst i <=? snd i) && orderedb (snd i) b rest end.
Lemma orderedb_ok l b : forall a, orderedb a b l = true -> ordered_within a b l.
Proof.
  induction l as [|(u, v) l IH]; intros a H; cbn in *; [lia|]. apply andb_prop in H. destruct H as (H1 & H2). apply andb_prop in H1.
  destruct H1. repeat split; try lia. auto.
Qed.
Lemma slots_ordered : ordered_within 0 3200 (map snd slots).
Proof. apply orderedb_ok. vm_compute. reflexivity. Qed.
Fixpoint nodupb (l : list string) : bool :=
  match l with [] => true | x :: l => negb (existsb (String.eqb x) l) && nodupb l end.
Lemma nodupb_ok l : nodupb l = true -> NoDup l.
Proof.
  induction l as [|x l IH]; cbn [nodupb]; intros H; constructor; apply andb_prop in H; destruct H as (H1 & H2); auto.
  intros I. apply negb_true_iff in H1. assert (Q : existsb (String.eqb x) l = true); [|congruence].
  apply existsb_exists. exists x. split; auto. apply String.eqb_refl.
Qed.
Lemma slots_nodup : NoDup (map fst slots).
Proof. apply nodupb_ok. vm_compute. reflexivity. Qed.
Lemma template_placeholders : zlen (map snd (parse_template TEMPLATE)) = 92.
Proof. vm_compute. reflexivity. Qed.
Lemma template_zlen : zlen TEMPLATE = 3200.
Proof. vm_compute. reflexivity. Qed.
Fixpoint agree (pos : Z) (t b : text) (l : list interval) : bool :=
  match t, b with
  | x :: t, y :: b => ((x =? y) || existsb (fun iv => (fst iv <=? pos) && (pos <? snd iv)) l) && agree (pos + 1) t b l
  | [], [] => true
  | _, _ => false
  end.
Lemma agree_ok l t : forall b pos, agree pos t b l = true -> forall i, 0 <= i < zlen t ->
  (forall u v, In (u, v) l -> ~ (u <= pos + i < v)) -> nth (Z.to_nat i) t 0 = nth (Z.to_nat i) b 0.
Proof.
  induction t as [|x t IH]; intros [|y b] pos H i Hi N; cbn [agree] in H; try discriminate; auto.
  apply andb_prop in H. destruct H as (H1 & H2). rewrite zlen_cons in Hi. destruct (Z.eq_dec i 0) as [->|Q].
  - cbn. apply orb_prop in H1. destruct H1 as [H1|H1]; [lia|]. apply existsb_exists in H1. destruct H1 as ((u, v) & I & R). cbn [fst snd] in R.
    exfalso. apply (N u v I). lia.
  - replace (Z.to_nat i) with (Datatypes.S (Z.to_nat (i - 1))) by lia. cbn [nth]. apply (IH b (pos + 1) H2); [lia|].
    intros u v I. replace (pos + 1 + (i - 1)) with (pos + i) by lia. auto.
Qed.
Definition blank : text := concat (map lit blank_cards).
Lemma template_agrees : agree 0 TEMPLATE blank (map snd slots) = true.
Proof. vm_compute. reflexivity. Qed.
Lemma fields_placed : forallb (fun c => let '(_, card, col, width) := c in
  (1 <=? card) && (card <=? 40) && (1 <=? col) && (0 <=? width) && (col + width <=? 81)) card_fields = true.
Proof. vm_compute. reflexivity. Qed.
Lemma field_placed name card col width : In (name, card, col, width) card_fields ->
  1 <= card <= 40 /\ 1 <= col /\ 0 <= width /\ col + width <= 81.
Proof. intros H. pose proof fields_placed as Q. rewrite forallb_forall in Q. specialize (Q _ H). cbn in Q. lia. Qed.

Lemma cards_nth (ls : list (list Z)) card col : Forall (fun l => zlen l = 80) ls -> 1 <= card <= zlen ls -> 1 <= col <= 80 ->
  nth (Z.to_nat (col - 1)) (nth (Z.to_nat (card - 1)) ls []) 0 = nth (Z.to_nat (80 * (card - 1) + col - 1)) (concat ls) 0.
Proof.
  intros F C L. pose proof (concat_nth_slice ls 80 (card - 1) [] [] F ltac:(lia) ltac:(lia)) as Q. cbn [app] in Q. rewrite app_nil_r in Q. rewrite <- Q.
  rewrite nth_firstn', nth_skipn' by lia. f_equal. unfold zlen. cbn [length]. lia.
Qed.
Lemma columns_slice (ls : list (list Z)) card col width : Forall (fun l => zlen l = 80) ls -> 1 <= card <= zlen ls -> 1 <= col -> 0 <= width -> col + width <= 81 ->
  columns ls card col width = py_slice (concat ls) (80 * (card - 1) + col - 1) (80 * (card - 1) + col - 1 + width).
Proof.
  unfold columns. change text with (list Z). intros F C L W E. assert (Lc : zlen (nth (Z.to_nat (card - 1)) ls []) = 80).
  { rewrite Forall_forall in F. apply F, nth_In. unfold zlen in C. lia. }
  apply nth_ext with (d := 0) (d' := 0).
  - assert (Q : zlen (firstn (Z.to_nat width) (skipn (Z.to_nat (col - 1)) (nth (Z.to_nat (card - 1)) ls []))) = zlen (py_slice (concat ls) (80 * (card - 1) + col - 1) (80 * (card - 1) + col - 1 + width))).
    { rewrite zlen_firstn, zlen_skipn, zlen_py_slice, (concat_zlen _ 80), Lc by (auto; lia). lia. }
    unfold zlen in Q. lia.
  - intros n Hn. rewrite firstn_length in Hn. rewrite nth_firstn', nth_skipn' by lia.
    pose proof (py_slice_nth (concat ls) (80 * (card - 1) + col - 1) (80 * (card - 1) + col - 1 + width) (Z.of_nat n) 0) as Q. rewrite Nat2Z.id in Q.
    rewrite Q by lia. replace (Z.to_nat (col - 1) + n)%nat with (Z.to_nat (col + Z.of_nat n - 1)) by lia.
    rewrite cards_nth by (auto; lia). f_equal. lia.
Qed.

Lemma column_nth (xs : list (list Z)) card col : zlen xs = 40 -> Forall (fun l => zlen l = 80) xs -> 1 <= card <= 40 -> 1 <= col <= 80 ->
  columns xs card col 1 = [nth (Z.to_nat (80 * (card - 1) + col - 1)) (concat xs) 0].
Proof.
  intros Lx Fx P1 P2. rewrite <- cards_nth by (auto; lia). unfold columns. change text with (list Z). set (l := nth (Z.to_nat (card - 1)) xs []).
  assert (Ll : zlen l = 80). { rewrite Forall_forall in Fx. apply Fx, nth_In. unfold zlen in Lx. lia. }
  change (Z.to_nat 1) with 1%nat. assert (Q : (Z.to_nat (col - 1) < length l)%nat) by (unfold zlen in Ll; lia).
  clearbody l. revert Q. generalize (Z.to_nat (col - 1)). clear. induction l; intros [|n] Q; cbn in *; auto; try lia. apply IHl. lia.
Qed.

(* ------------------------------------------------------------------ *)
(* format                                                               *)

Definition with_marker (m : text) (kwargs : list (string * text)) : list (string * text) :=
  match lookup "end_marker"%string kwargs with Some _ => kwargs | None => kwargs ++ [("end_marker"%string, m)] end.
Lemma NoDup_app_snoc {A} (l : list A) x : NoDup l -> ~ In x l -> NoDup (l ++ [x]).
Proof. intros D N. apply NoDup_rev in D. rewrite <- (rev_involutive (l ++ [x])), rev_app_distr. apply NoDup_rev. cbn. constructor; auto. now rewrite <- in_rev. Qed.
Lemma with_marker_NoDup m kwargs : NoDup (map fst kwargs) -> NoDup (map fst (with_marker m kwargs)).
Proof.
  intros D. unfold with_marker. destruct (lookup _ kwargs) eqn:E; auto. apply lookup_None in E. rewrite map_app. cbn [map fst].
  apply NoDup_app_snoc; auto.
Qed.
Lemma with_marker_In m kwargs p : In p (with_marker m kwargs) -> In p kwargs \/ fst p = "end_marker"%string.
Proof. unfold with_marker. destruct (lookup _ kwargs); auto. intros H. apply in_app_iff in H. destruct H as [H|[<-|[]]]; auto. Qed.
Lemma with_marker_sub m kwargs p : In p kwargs -> In p (with_marker m kwargs).
Proof. unfold with_marker. destruct (lookup _ kwargs); auto. intros H. apply in_app_iff. now left. Qed.
Lemma field_value_value m kwargs name v : NoDup (map fst kwargs) -> field_value m kwargs name v -> value (with_marker m kwargs) name = v.
Proof.
  intros D [H|(N & ->)]; unfold value.
  - rewrite (lookup_NoDup name v); auto. { now apply with_marker_NoDup. } now apply with_marker_sub.
  - destruct (String.eqb_spec name "end_marker") as [->|Q].
    + unfold with_marker. rewrite (proj2 (lookup_None _ kwargs) N).
      rewrite (lookup_NoDup "end_marker"%string m); auto.
      * rewrite map_app. now apply NoDup_app_snoc.
      * apply in_app_iff. right. now left.
    + replace (lookup name (with_marker m kwargs)) with (@None text); auto. symmetry. apply lookup_None. intros H.
      apply in_map_iff in H. destruct H as (p & <- & H). apply with_marker_In in H. destruct H as [H|H]; [|contradiction]. apply N. now apply in_map.
Qed.

Lemma slots_in name card col width : In (name, card, col, width) card_fields ->
  In (name, (80 * (card - 1) + col - 1, 80 * (card - 1) + col - 1 + width)) slots.
Proof. intros H. apply (in_map slot_of) in H. exact H. Qed.
Lemma in_slots arg a b : In (arg, (a, b)) slots -> exists card col width, In (arg, card, col, width) card_fields /\
  a = 80 * (card - 1) + col - 1 /\ b = a + width.
Proof. intros H. apply in_map_iff in H. destruct H as ((((n, card), col), width) & E & H). cbn in E. injection E as -> <- <-. exists card, col, width. auto. Qed.

Lemma format_run revision kwargs m : END_MARKERS revision = Ok m -> NoDup (map fst kwargs) ->
  exists ls rest, zlen ls = 40 /\ Forall (fun l => zlen l = 80) ls /\ concat ls = render TEMPLATE 0 slots 3200 (with_marker m kwargs) /\
    (forall p, In p rest <-> In p (with_marker m kwargs) /\ ~ In (fst p) (map fst slots)) /\
    format_standard_textual_header revision kwargs = if 0 <? zlen rest then Err TypeError else Ok ls.
Proof.
  intros E D. unfold format_standard_textual_header. rewrite E. cbn [bind].
  fold (with_marker m kwargs). pose proof slots_ok as R.
  destruct (format_chunks_run TEMPLATE 3200 _ slots 0 (with_marker m kwargs) R slots_nodup (with_marker_NoDup m kwargs D)) as (chunks & rest & F & C & I).
  assert (Cm : complementary_intervals (map snd (parse_template TEMPLATE)) (Some 0) (Some (zlen TEMPLATE)) =
     Ok (compl_loop 0 (map snd (parse_template TEMPLATE)) 3200)).
  { rewrite template_zlen. unfold complementary_intervals. pose proof template_placeholders as N.
    destruct (map snd (parse_template TEMPLATE)); [discriminate|reflexivity]. }
  rewrite Cm. cbn [bind]. rewrite F. cbn [bind].
  assert (L : zlen (concat chunks) = 40 * 80).
  { rewrite C, render_zlen; try lia. { apply slots_ordered. } rewrite template_zlen. lia. }
  destruct (batched_exact (concat chunks) 80 40 ltac:(lia) ltac:(lia) L) as (ls & B & Ll & Fl & Cl).
  exists ls, rest. split; auto. split; auto. split; [congruence|]. split; auto. change CARD_LENGTH with 80. now rewrite B.
Qed.

Lemma marker_known : In "end_marker"%string (map fst slots).
Proof.
  assert (Q : existsb (String.eqb "end_marker") (map fst slots) = true) by (vm_compute; reflexivity).
  apply existsb_exists in Q. destruct Q as (x & H & E). apply String.eqb_eq in E. now subst x.
Qed.
Lemma card_names : map fst slots = map (fun c => fst (fst (fst c))) card_fields.
Proof. unfold slots. rewrite map_map. apply map_ext. intros (((n, c), o), w). reflexivity. Qed.

Lemma end_marker_ok revision m : end_marker_text revision m <-> END_MARKERS revision = Ok m.
Proof.
  unfold end_marker_text, END_MARKERS. destruct (Z.eqb_spec revision 0) as [->|N].
  - split. { intros [(_ & ->)|(H & _)]; [reflexivity|discriminate]. } intros H. injection H as <-. left. auto.
  - destruct (Z.eqb_spec revision 256) as [->|M].
    + split. { intros [(H & _)|(_ & ->)]; [discriminate|reflexivity]. } intros H. injection H as <-. right. auto.
    + split; [|discriminate]. intros [(H & _)|(H & _)]; contradiction.
Qed.

Lemma format_standard revision m kwargs : end_marker_text revision m -> NoDup (map fst kwargs) ->
  (forall p, In p kwargs -> In (fst p) (map (fun c => fst (fst (fst c))) card_fields)) ->
  exists ls, format_standard_textual_header revision kwargs = Ok ls /\ zlen ls = 40 /\ Forall (fun l => zlen l = 80) ls /\
    (forall name card col width v, In (name, card, col, width) card_fields -> field_value m kwargs name v ->
       fitted width v (columns ls card col width)) /\
    (forall card col, 1 <= card <= 40 -> 1 <= col <= 80 -> ~ in_field card col ->
       columns ls card col 1 = columns (map lit blank_cards) card col 1).
Proof.
  intros M D K. apply end_marker_ok in M. destruct (format_run revision kwargs m M D) as (ls & rest & L & F & C & I & E).
  assert (R : rest = []).
  { destruct rest as [|p rest]; auto. exfalso. destruct (proj1 (I p) (or_introl eq_refl)) as (H & N). apply N. apply with_marker_In in H.
    destruct H as [H|H]; [|rewrite H; apply marker_known]. rewrite card_names. auto. }
  subst rest. exists ls. split; [exact E|]. split; auto. split; auto.
  assert (O : 3200 <= zlen TEMPLATE) by (rewrite template_zlen; lia).
  split.
  - intros name card col width v H V. destruct (field_placed _ _ _ _ H) as (P1 & P2 & P3 & P4).
    rewrite columns_slice by (auto; lia). set (a := 80 * (card - 1) + col - 1).
    rewrite <- (field_value_value m kwargs name v D V).
    replace (py_slice (concat ls) a (a + width)) with (fit width (value (with_marker m kwargs) name)). { now apply fit_fitted. }
    assert (Lc : zlen (concat ls) = 3200) by (rewrite (concat_zlen _ 80) by auto; lia).
    apply nth_ext with (d := 0) (d' := 0).
    + pose proof (fit_zlen width (value (with_marker m kwargs) name) P3). pose proof (zlen_py_slice (concat ls) a (a + width) ltac:(lia) ltac:(lia)).
      unfold zlen in *. lia.
    + intros n Hn. pose proof (fit_zlen width (value (with_marker m kwargs) name) P3) as Lf. unfold zlen in Lf.
      pose proof (py_slice_nth (concat ls) a (a + width) (Z.of_nat n) 0 ltac:(lia) ltac:(lia)) as Q. rewrite Nat2Z.id in Q. rewrite Q, C.
      pose proof (render_nth TEMPLATE slots 3200 (with_marker m kwargs) 0 ltac:(lia) slots_ordered O (a + Z.of_nat n) ltac:(lia)) as (Rn & _).
      rewrite Z.sub_0_r in Rn. rewrite (Rn name a (a + width)); [|exact (slots_in _ _ _ _ H)|lia].
      f_equal; [lia|]. f_equal. lia.
  - intros card col P1 P2 N. unfold columns. set (a := 80 * (card - 1) + col - 1).
    assert (Lb : Forall (fun l => zlen l = 80) (map lit blank_cards)).
    { apply Forall_forall. intros x Hx. assert (Q : forallb (fun l => zlen l =? 80) (map lit blank_cards) = true) by (vm_compute; reflexivity).
      rewrite forallb_forall in Q. specialize (Q x Hx). lia. }
    assert (Lb' : zlen (map lit blank_cards) = 40) by reflexivity.
    pose proof (column_nth ls card col L F P1 P2) as Q1. pose proof (column_nth (map lit blank_cards) card col Lb' Lb P1 P2) as Q2.
    fold a in Q1, Q2. unfold columns in Q1, Q2. rewrite Q1, Q2. clear Q1 Q2. f_equal. rewrite C.
    pose proof (render_nth TEMPLATE slots 3200 (with_marker m kwargs) 0 ltac:(lia) slots_ordered O a ltac:(lia)) as (_ & Rn).
    rewrite Z.sub_0_r in Rn.
    assert (Out : forall arg u v, In (arg, (u, v)) slots -> ~ (u <= a < v)).
    { intros arg u v H R. destruct (in_slots arg u v H) as (card' & col' & w & H' & -> & ->). destruct (field_placed _ _ _ _ H') as (Q1 & Q2 & Q3 & Q4).
      assert (card' = card) by lia. subst card'. apply N. exists arg, col', w. split; auto. lia. }
    rewrite Rn by exact Out. apply (agree_ok _ _ _ 0 template_agrees). { lia. }
    intros u v H. apply in_map_iff in H. destruct H as ((arg, iv) & Q & H). cbn in Q. subst iv. rewrite Z.add_0_l. eapply Out; eauto.
Qed.

Lemma format_unknown revision m kwargs p : end_marker_text revision m -> NoDup (map fst kwargs) -> In p kwargs ->
  ~ In (fst p) (map (fun c => fst (fst (fst c))) card_fields) -> format_standard_textual_header revision kwargs = Err TypeError.
Proof.
  intros M D H N. apply end_marker_ok in M. destruct (format_run revision kwargs m M D) as (ls & rest & _ & _ & _ & I & E). rewrite E.
  destruct rest as [|q rest]. { exfalso. apply (I p). split. { now apply with_marker_sub. } now rewrite card_names. }
  rewrite zlen_cons. pose proof (zlen_nonneg rest). now replace (0 <? 1 + zlen rest) with true by lia.
Qed.
Lemma format_revision revision kwargs : revision <> 0 -> revision <> 256 -> format_standard_textual_header revision kwargs = Err KeyError.
Proof.
  intros A B. unfold format_standard_textual_header, END_MARKERS. replace (revision =? 0) with false by lia. now replace (revision =? 256) with false by lia.
Qed.

(* ------------------------------------------------------------------ *)
(* parse                                                                *)

Lemma dict_set_new {A} n (v : A) d : ~ In n (map fst d) -> dict_set n v d = d ++ [(n, v)].
Proof.
  induction d as [|(k, w) d IH]; cbn [dict_set map fst In]; intros N; auto. destruct (String.eqb_spec k n) as [->|]; [tauto|].
  rewrite IH by tauto. reflexivity.
Qed.
Lemma parse_fields_run header : forall phs sl d, map_res resolve phs = Ok sl -> NoDup (map fst d ++ map fst sl) ->
  parse_fields header phs d = Ok (d ++ map (fun s => (fst s, strip (py_slice header (fst (snd s)) (snd (snd s))))) sl).
Proof.
  induction phs as [|(ph, (a, b)) phs IH]; intros sl d R D.
  - injection R as <-. cbn. now rewrite app_nil_r.
  - cbn [map_res] in R. unfold resolve in R at 1. cbn [fst snd] in R. destruct (template_field_name ph) as [arg|] eqn:T; cbn [bind] in R; [|discriminate].
    destruct (map_res resolve phs) as [sl'|] eqn:E; cbn [bind] in R; [|discriminate]. injection R as <-.
    cbn [parse_fields]. rewrite T. cbn [bind]. cbn [map fst] in D. rewrite dict_set_new.
    + rewrite (IH sl') by (auto; rewrite map_app; cbn [map fst]; rewrite <- app_assoc; exact D). rewrite <- app_assoc. reflexivity.
    + apply NoDup_remove_2 in D. intros H. apply D. apply in_app_iff. now left.
Qed.

Lemma parse_ok (ls : list text) : zlen ls = 40 -> Forall (fun l => zlen l = 80) ls ->
  exists d, parse_standard_textual_header ls = Ok d /\ map fst d = map (fun c => fst (fst (fst c))) card_fields /\
    (forall name card col width, In (name, card, col, width) card_fields -> exists r, In (name, r) d /\ stripped (columns ls card col width) r).
Proof.
  intros L F. unfold parse_standard_textual_header. change CARDS_PER_HEADER with 40. rewrite L, Z.eqb_refl. cbn [negb].
  replace (existsb _ ls) with false.
  2: { symmetry. apply not_true_iff_false. intros H. apply existsb_exists in H. destruct H as (l & H & Q). rewrite Forall_forall in F.
       specialize (F l H). unfold CARD_LENGTH in Q. lia. }
  rewrite (parse_fields_run (concat ls) _ slots [] slots_ok slots_nodup). cbn [app]. eexists. split; [reflexivity|]. split.
  - rewrite map_map. cbn [fst]. apply card_names.
  - intros name card col width H. destruct (field_placed _ _ _ _ H) as (P1 & P2 & P3 & P4). exists (strip (columns ls card col width)).
    split; [|apply strip_stripped]. apply in_map_iff. eexists. split; [|exact (slots_in _ _ _ _ H)]. cbn [fst snd].
    rewrite columns_slice; auto. change (list Z) with text. lia.
Qed.
Lemma parse_rejects (ls : list text) : ~ (zlen ls = 40 /\ Forall (fun l => zlen l = 80) ls) -> parse_standard_textual_header ls = Err ValueError.
Proof.
  intros N. unfold parse_standard_textual_header. change CARDS_PER_HEADER with 40. destruct (zlen ls =? 40) eqn:E; auto. cbn [negb].
  match goal with |- context [existsb ?g ls] => destruct (existsb g ls) eqn:Q end; [reflexivity|]. exfalso. apply N. split; [lia|]. apply Forall_forall. intros l H.
  destruct (Z.eq_dec (zlen l) 80) as [|D]; auto. exfalso. apply not_true_iff_false in Q. apply Q. apply existsb_exists. exists l. split; auto.
  unfold CARD_LENGTH. lia.
Qed.

Lemma format_parse revision m kwargs : end_marker_text revision m -> NoDup (map fst kwargs) ->
  (forall p, In p kwargs -> In (fst p) (map (fun c => fst (fst (fst c))) card_fields)) ->
  exists ls d, format_standard_textual_header revision kwargs = Ok ls /\ parse_standard_textual_header ls = Ok d /\
    map fst d = map (fun c => fst (fst (fst c))) card_fields /\
    (forall name card col width v, In (name, card, col, width) card_fields -> field_value m kwargs name v ->
       exists r, In (name, r) d /\ stripped (firstn (Z.to_nat width) v) r).
Proof.
  intros M D K. destruct (format_standard revision m kwargs M D K) as (ls & E & L & F & V & _).
  destruct (parse_ok ls L F) as (d & P & N & S). exists ls, d. split; auto. split; auto. split; auto.
  intros name card col width v H Hv. destruct (S name card col width H) as (r & I & St). exists r. split; auto.
  apply stripped_unique in St. destruct (field_placed _ _ _ _ H) as (_ & _ & P3 & _).
  rewrite (fitted_unique width v _ (fit width v) (V name card col width v H Hv) (fit_fitted width v P3)) in St.
  rewrite strip_fit in St. subst r. apply strip_stripped.
Qed.
