(* Proofs about header objects. *)
From Coq Require Import String ZArith List Bool Lia ZifyBool.
From Verif Require Import Py PyFloat IbmFloat Packing Spec_Packing CompileFacts HeaderFacts FieldTypes Objects Spec_Objects.
Import ListNotations.
Open Scope list_scope.
Open Scope Z_scope.

Lemma find_filter {A} (p q : A -> bool) l : (forall x, p x = true -> q x = true) -> find p (filter q l) = find p l.
Proof.
  intros H. induction l as [|x l IH]; [reflexivity|]. cbn. destruct (q x) eqn:Q; cbn; destruct (p x) eqn:P; auto. apply H in P. congruence.
Qed.
Lemma find_filter_none {A} (p q : A -> bool) l : (forall x, p x = true -> q x = false) -> find p (filter q l) = None.
Proof.
  intros H. induction l as [|x l IH]; [reflexivity|]. cbn. destruct (q x) eqn:Q; cbn; auto. destruct (p x) eqn:P; auto. apply H in P. congruence.
Qed.

Section Facts.
Variable descr : fmt -> string -> Z.
Hypothesis AP : names_apart descr.

Definition agrees (hp : heap) (o : Z) (own : option header) : Prop :=
  match own with
  | None => class_of hp o = None /\ forall d, find (entry_of d o) (hp_data hp) = None
  | Some h => class_of hp o = Some (h_cls h) /\ forall n, class_field (h_cls h) n <> None ->
      match find (entry_of (descr (h_cls h) n) o) (hp_data hp) with Some x => assoc n (h_vals h) = Some (snd x) | None => assoc n (h_vals h) = None end
  end.

Lemma class_of_new hp o o' c : class_of (mk_heap ((o', c) :: hp_objs hp) (hp_data hp)) o = if o' =? o then Some c else class_of hp o.
Proof. unfold class_of. cbn. now destruct (o' =? o). Qed.
Lemma class_of_gone hp o o' l : class_of (mk_heap (filter (fun p => negb (fst p =? o')) (hp_objs hp)) l) o = if o' =? o then None else class_of hp o.
Proof.
  unfold class_of. cbn [hp_objs]. destruct (o' =? o) eqn:E.
  - rewrite find_filter_none; [reflexivity|]. intros x X. lia.
  - rewrite find_filter; [reflexivity|]. intros x X. lia.
Qed.

Lemma agrees_data hp hp' o own : class_of hp' o = class_of hp o -> (forall d, find (entry_of d o) (hp_data hp') = find (entry_of d o) (hp_data hp)) ->
  agrees hp o own -> agrees hp' o own.
Proof.
  intros C F. destruct own as [h|]; unfold agrees.
  - intros (A & B). split; [congruence|]. intros n N. rewrite F. exact (B n N).
  - intros (A & B). split; [congruence|]. intros d. rewrite F. auto.
Qed.

Lemma step_agrees hp o own ev : agrees hp o own -> agrees (step descr hp ev) o (live o own ev).
Proof.
  intros A. destruct ev as [o' c|o' n v|o']; cbn [step live].
  - destruct (o' =? o) eqn:E.
    + assert (o' = o) by lia. subst o'. destruct own as [h|].
      * destruct A as (C & D). rewrite C. now split.
      * destruct A as (C & D). rewrite C. split; [rewrite class_of_new; now rewrite Z.eqb_refl|]. intros n _. cbn [hp_data h_cls]. now rewrite D.
    + destruct (class_of hp o'); [exact A|]. apply (agrees_data hp); auto. rewrite class_of_new. now rewrite E.
  - destruct (o' =? o) eqn:E.
    + assert (o' = o) by lia. subst o'. destruct own as [h|]; [|destruct A as (C & D); rewrite C; now split].
      destruct A as (C & D). rewrite C. unfold hdr_assign. destruct (class_field (h_cls h) n) as [f|] eqn:F; [|now split].
      destruct (value_new (fd_type f) v) as [k|x]; cbn [bind]; [|now split].
      split; [exact C|]. intros m M. cbn [hp_data h_cls h_vals]. rewrite assoc_set_get. cbn [find].
      destruct (entry_of (descr (h_cls h) m) o (descr (h_cls h) n, o, k)) eqn:X.
      * unfold entry_of in X. cbn in X. assert (n = m) as -> by (apply (AP (h_cls h)); lia). now rewrite String.eqb_refl.
      * assert (NM : n <> m). { intros ->. unfold entry_of in X. cbn in X. lia. }
        apply String.eqb_neq in NM as ->. rewrite find_filter; [now apply D|].
        intros x Y. unfold entry_of in X, Y |- *. cbn in X. lia.
    + destruct (class_of hp o') as [c|]; [|exact A]. destruct (class_field c n) as [f|]; [|exact A]. destruct (value_new (fd_type f) v) as [k|]; [|exact A].
      apply (agrees_data hp); auto. intros d. cbn [hp_data find].
      replace (entry_of d o (descr c n, o', k)) with false by (unfold entry_of; cbn; lia). apply find_filter. intros x Y. unfold entry_of in Y |- *. lia.
  - destruct (o' =? o) eqn:E.
    + split; [rewrite class_of_gone; now rewrite E|]. intros d. cbn [hp_data]. apply find_filter_none. intros x Y. unfold entry_of in Y. lia.
    + apply (agrees_data hp); auto; [rewrite class_of_gone; now rewrite E|]. intros d. cbn [hp_data]. apply find_filter. intros x Y. unfold entry_of in Y. lia.
Qed.

Lemma run_agrees o hist : agrees (run_events descr hist) o (life o hist).
Proof.
  unfold run_events, life. assert (A : agrees empty_heap o None) by (split; reflexivity). revert A. generalize empty_heap, (@None header).
  induction hist as [|ev hist IH]; intros hp own A; [exact A|]. cbn [fold_left]. apply IH. now apply step_agrees.
Qed.

Lemma own_header o hist :
  match life o hist with
  | None => class_of (run_events descr hist) o = None
  | Some h => class_of (run_events descr hist) o = Some (h_cls h) /\ forall f, class_ok (h_cls h) -> is_field (h_cls h) f -> obj_get descr (run_events descr hist) o (fd_name f) = hdr_get h (fd_name f)
  end.
Proof.
  pose proof (run_agrees o hist) as A. destruct (life o hist) as [h|]; [|apply A]. destruct A as (C & D). split; [exact C|].
  intros f K F. unfold obj_get. rewrite C. pose proof (is_field_class _ _ K F) as X. rewrite X. specialize (D (fd_name f)). rewrite X in D.
  rewrite (hdr_get_field h f K F). destruct (find _ _) as [x|]; rewrite D by discriminate; reflexivity.
Qed.

Lemma others_unchanged o hist ev : about ev <> o ->
  class_of (run_events descr (hist ++ [ev])) o = class_of (run_events descr hist) o /\
  forall c f, class_of (run_events descr hist) o = Some c -> class_ok c -> is_field c f ->
    obj_get descr (run_events descr (hist ++ [ev])) o (fd_name f) = obj_get descr (run_events descr hist) o (fd_name f).
Proof.
  intros N. assert (L : life o (hist ++ [ev]) = life o hist).
  { unfold life. rewrite fold_left_app. cbn [fold_left]. generalize (fold_left (live o) hist None). intros own.
    destruct ev as [o' c|o' n v|o']; cbn in N |- *; now rewrite (proj2 (Z.eqb_neq _ _) N). }
  pose proof (own_header o (hist ++ [ev])) as A. rewrite L in A. pose proof (own_header o hist) as B. destruct (life o hist) as [h|].
  - destruct A as (CA & A), B as (CB & B). split; [congruence|]. intros c f E K F. rewrite CB in E. injection E as <-. rewrite A, B; auto.
  - split; [congruence|]. intros c f E. congruence.
Qed.
Lemma fresh_defaults o hist c f : class_of (run_events descr hist) o = None -> class_ok c -> is_field c f ->
  obj_get descr (run_events descr (hist ++ [New o c])) o (fd_name f) = Ok (fd_default f).
Proof.
  intros N K F. pose proof (own_header o hist) as B. pose proof (own_header o (hist ++ [New o c])) as A.
  assert (L : life o (hist ++ [New o c]) = Some (mk_header c [] [])).
  { destruct (life o hist) as [h|] eqn:E. { destruct B as (B & _). congruence. }
    unfold life in *. rewrite fold_left_app, E. cbn. now rewrite Z.eqb_refl. }
  rewrite L in A. destruct A as (_ & A). rewrite A by auto. now rewrite (hdr_get_field (mk_header c [] []) f K F).
Qed.
End Facts.
