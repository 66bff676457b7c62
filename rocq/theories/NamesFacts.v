(* Proofs for C144 and C145. *)
From Coq Require Import ZArith List Bool Lia ZifyBool ZifyNat.
From Verif Require Import Py Names Spec_Names.
Import ListNotations.
Open Scope list_scope.
Open Scope Z_scope.

Lemma byte_low r : Z.land r 255 = r mod 256.
Proof. change 255 with (Z.ones 8). now rewrite Z.land_ones by lia. Qed.
Lemma decimal_value r : decimal_revision r = 10 * ((r / 256) mod 256) + r mod 256.
Proof. unfold decimal_revision. rewrite !byte_low, Z.shiftr_div_pow2 by lia. reflexivity. Qed.
Lemma decimal_bytes hi lo : 0 <= hi < 256 -> 0 <= lo < 256 -> decimal_revision (256 * hi + lo) = 10 * hi + lo.
Proof.
  intros H L. rewrite decimal_value. replace (256 * hi + lo) with (lo + hi * 256) by lia. rewrite Z.div_add, Z.mod_add by lia. rewrite (Z.div_small lo), Z.add_0_l by lia.
  now rewrite !Z.mod_small by lia.
Qed.
Lemma decimal_any r : decimal_revision r = decimal_revision (r mod 65536).
Proof.
  rewrite !decimal_value. f_equal; [f_equal|].
  - change 65536 with (256 * 256). rewrite (Z.rem_mul_r r 256 256) by lia. replace (r mod 256 + 256 * ((r / 256) mod 256)) with (r mod 256 + ((r / 256) mod 256) * 256) by lia.
    rewrite Z.div_add by lia. rewrite (Z.div_small (r mod 256)) by (apply Z.mod_pos_bound; lia). rewrite Z.add_0_l, Zmod_mod. reflexivity.
  - change 65536 with (256 * 256). rewrite (Z.rem_mul_r r 256 256) by lia. rewrite Z.mul_comm, Z.mod_add by lia. now rewrite Zmod_mod.
Qed.
Lemma decimal_distinct r r' : 0 <= r < 65536 -> 0 <= r' < 65536 -> r mod 256 < 10 -> r' mod 256 < 10 -> decimal_revision r = decimal_revision r' -> r = r'.
Proof.
  intros R R' L L'. rewrite !decimal_value. pose proof (Z.div_mod r 256 ltac:(lia)). pose proof (Z.div_mod r' 256 ltac:(lia)).
  pose proof (Z.mod_pos_bound r 256 ltac:(lia)). pose proof (Z.mod_pos_bound r' 256 ltac:(lia)).
  rewrite !(Z.mod_small (_ / 256)) by (split; [apply Z.div_pos; lia|apply Z.div_lt_upper_bound; lia]). lia.
Qed.

Lemma lower_same c : same_letter c (lower c) /\ ~ capital_letter (lower c).
Proof. unfold same_letter, small_letter, capital_letter, lower. destruct ((65 <=? c) && (c <=? 90)) eqn:E; lia. Qed.
Lemma upper_same c : same_letter c (upper c) /\ ~ small_letter (upper c).
Proof. unfold same_letter, small_letter, capital_letter, upper. destruct ((97 <=? c) && (c <=? 122)) eqn:E; lia. Qed.
Lemma capitalize_ok w : capitalized w (capitalize w).
Proof.
  destruct w as [|c w]; [split; [constructor|exact I]|]. cbn [capitalize]. split.
  - constructor; [apply upper_same|]. induction w as [|x w IH]; [constructor|]. cbn [map]. constructor; [apply lower_same|exact IH].
  - split; [apply upper_same|]. apply Forall_map, Forall_forall. intros x _. apply lower_same.
Qed.
Lemma capitalized_unique w v v' : capitalized w v -> capitalized w v' -> v = v'.
Proof.
  assert (T : forall w v v', Forall2 same_letter w v -> Forall2 same_letter w v' -> Forall (fun c => ~ capital_letter c) v -> Forall (fun c => ~ capital_letter c) v' -> v = v').
  { clear. induction w as [|c w IH]; intros v v' A B C D; inversion A; inversion B; subst; [reflexivity|]. inversion C; inversion D; subst. f_equal; [|now apply IH].
    unfold same_letter, small_letter, capital_letter in *. lia. }
  intros (A & C) (B & D). destruct w as [|c w]; inversion A; inversion B; subst; [reflexivity|]. destruct C as (C & C'), D as (D & D'). f_equal; [|now apply (T w)].
  unfold same_letter, small_letter, capital_letter in *. lia.
Qed.
Lemma split_word sep w : ~ In sep w -> split_at sep w = [w].
Proof.
  induction w as [|c w IH]; intros N; [reflexivity|]. cbn [split_at]. replace (c =? sep) with false by (symmetry; apply Z.eqb_neq; intros ->; apply N; now left).
  rewrite IH by (intros X; apply N; now right). reflexivity.
Qed.
Lemma split_first sep w s : ~ In sep w -> split_at sep (w ++ sep :: s) = w :: split_at sep s.
Proof.
  induction w as [|c w IH]; intros N; [cbn [app split_at]; now rewrite Z.eqb_refl|]. cbn [app split_at]. replace (c =? sep) with false by (symmetry; apply Z.eqb_neq; intros ->; apply N; now left).
  rewrite IH by (intros X; apply N; now right). reflexivity.
Qed.
Lemma split_joined sep ws : ws <> [] -> Forall (fun w => ~ In sep w) ws -> split_at sep (joined sep ws) = ws.
Proof.
  induction ws as [|w ws IH]; intros N F; [now contradiction N|]. inversion F; subst. destruct ws as [|w' ws]; [now apply split_word|].
  change (joined sep (w :: w' :: ws)) with (w ++ sep :: joined sep (w' :: ws)). rewrite split_first by assumption. f_equal. apply IH; [discriminate|assumption].
Qed.
Lemma split_parts sep s : split_at sep s <> [] /\ Forall (fun w => ~ In sep w) (split_at sep s) /\ joined sep (split_at sep s) = s.
Proof.
  induction s as [|c s (N & F & J)]; cbn [split_at].
  - split; [discriminate|]. split; [constructor; [intros []|constructor]|reflexivity].
  - destruct (Z.eqb_spec c sep) as [->|NE].
    + split; [discriminate|]. split; [constructor; [intros []|exact F]|]. destruct (split_at sep s) as [|w ws]; [now contradiction N|]. cbn [joined app] in *. now rewrite J.
    + destruct (split_at sep s) as [|w ws]; [now contradiction N|]. inversion F; subst. split; [discriminate|]. split; [constructor; [intros [->|X]; auto|assumption]|].
      destruct ws; reflexivity.
Qed.
Lemma camelcase_words ws : ws <> [] -> Forall (fun w => ~ In 95 w) ws -> exists vs, underscores_to_camelcase (joined 95 ws) = concat vs /\ Forall2 capitalized ws vs.
Proof.
  intros N F. exists (map capitalize ws). unfold underscores_to_camelcase. rewrite split_joined by assumption. split; [reflexivity|].
  clear. induction ws; constructor; [apply capitalize_ok|assumption].
Qed.
Lemma camelcase_no_underscore s : ~ In 95 (underscores_to_camelcase s).
Proof.
  unfold underscores_to_camelcase. destruct (split_parts 95 s) as (_ & F & _). intros X. apply in_concat in X. destruct X as (v & V & X). apply in_map_iff in V. destruct V as (w & <- & W).
  rewrite Forall_forall in F. apply (F w W). destruct (capitalize_ok w) as (A & _). clear -A X. induction A as [|c c' w v S A IH]; [destruct X|]. destruct X as [->|X]; [left|right; auto].
  unfold same_letter, small_letter, capital_letter in S. lia.
Qed.

Lemma partition_ok sep s : match partition sep s with (a, b, r) => s = a ++ b ++ r /\ ~ In sep a /\ (b = [sep] \/ b = [] /\ r = []) end.
Proof.
  induction s as [|c s IH]; cbn [partition]; [split; [reflexivity|]; split; [intros []|now right]|]. destruct (Z.eqb_spec c sep) as [->|NE].
  - split; [reflexivity|]. split; [intros []|now left].
  - destruct (partition sep s) as [[a b] r]. destruct IH as (-> & N & B). split; [reflexivity|]. split; [intros [->|X]; auto|exact B].
Qed.
Lemma sentence_ok s : exists rest, s = first_sentence s ++ rest /\
  ((exists a, first_sentence s = a ++ [46] /\ ~ In 46 a) \/ (rest = [] /\ ~ In 46 s)).
Proof.
  unfold first_sentence. pose proof (partition_ok 46 s) as P. destruct (partition 46 s) as [[a b] r]. destruct P as (E & N & [B|(B & R)]); exists r; (split; [now rewrite <- app_assoc|]); subst b.
  - left. now exists a.
  - right. split; [exact R|]. rewrite E, R, !app_nil_r. exact N.
Qed.
Lemma startswith_ok p : forall s, startswith s p = true <-> exists r, s = p ++ r.
Proof.
  induction p as [|x p IH]; intros s; cbn [startswith]; [split; [intros _; now exists s|now destruct s]|].
  destruct s as [|y s]; [split; [discriminate|intros (r & E); discriminate E]|]. cbn [startswith]. rewrite andb_true_iff, IH, Z.eqb_eq. split.
  - intros (-> & r & ->). now exists r.
  - intros (r & E). injection E as -> ->. split; [reflexivity|now exists r].
Qed.
Lemma magic_ok name : is_magic_name name = true <-> exists root, root <> [] /\ name = [95; 95] ++ root ++ [95; 95].
Proof.
  unfold is_magic_name, endswith. rewrite !andb_true_iff, !startswith_ok. split.
  - intros ((L & r & E) & r' & E'). assert (E2 : name = rev r' ++ [95; 95]) by (rewrite <- (rev_involutive name), E'; cbn [rev app]; rewrite <- !app_assoc; reflexivity).
    subst name. destruct (exists_last (l := r)) as (r1 & y & ->); [intros ->; discriminate L|].
    destruct (exists_last (l := r1)) as (r2 & x & ->); [intros ->; discriminate L|].
    assert (X : ([95; 95] ++ r2) ++ [x; y] = rev r' ++ [95; 95]) by (rewrite <- E2, <- !app_assoc; reflexivity).
    apply (f_equal (@rev Z)) in X. rewrite !rev_app_distr in X. cbn [rev app] in X. injection X as -> -> _. exists r2. split; [intros ->; discriminate L|]. now rewrite <- !app_assoc.
  - intros (root & N & ->). split; [split|].
    + destruct root as [|c root]; [now contradiction N|]. unfold zlen. cbn [app length]. rewrite app_length. cbn [length]. lia.
    + eexists. reflexivity.
    + exists (rev ([95; 95] ++ root)). rewrite !rev_app_distr. cbn [rev app]. reflexivity.
Qed.
