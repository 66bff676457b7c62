(* Proofs about codecs, encoding guess and the text helpers. *)
From Coq Require Import String ZArith List Bool Lia Permutation.
From Coq Require Import ZifyBool ZifyNat.
From Verif Require Import Py PyFacts Util UtilFacts FileIO Text Spec_Text.
Import ListNotations.
Open Scope Z_scope.

(* ------------------------------------------------------------------ *)
(* map_res                                                              *)

Lemma map_res_iff {A B} (f : A -> res B) l r : map_res f l = Ok r <-> Forall2 (fun x y => f x = Ok y) l r.
Proof.
  revert r. induction l as [|x l IH]; intros r; cbn [map_res].
  - split; intros H. { injection H as <-. constructor. } { inversion H. reflexivity. }
  - split; intros H.
    + apply bind_ok in H. destruct H as (y & E & H). apply bind_ok in H. destruct H as (ys & E2 & H). injection H as <-.
      constructor; auto. now apply IH.
    + inversion H as [|? y ? ys E F]; subst. rewrite E. cbn [bind]. apply IH in F. rewrite F. reflexivity.
Qed.

Lemma map_res_err {A B} (f : A -> res B) l e :
  map_res f l = Err e <-> exists a x b, l = a ++ x :: b /\ Forall (fun y => exists r, f y = Ok r) a /\ f x = Err e.
Proof.
  induction l as [|x l IH]; cbn [map_res].
  - split; [discriminate|]. intros (a & x & b & E & _). destruct a; discriminate.
  - destruct (f x) as [y|e'] eqn:E; cbn [bind].
    + destruct (map_res f l) as [ys|e''] eqn:E2; cbn [bind].
      * split; [discriminate|]. intros (a & z & b & EQ & F & EZ). destruct a as [|w a]; injection EQ as <- EQ; [congruence|].
        inversion F; subst. assert (Q : Ok ys = Err e) by (apply IH; eauto 10). discriminate.
      * split; intros H.
        -- injection H as ->. destruct (proj1 IH eq_refl) as (a & z & b & -> & F & EZ). exists (x :: a), z, b.
           repeat split; auto. constructor; eauto.
        -- destruct H as (a & z & b & EQ & F & EZ). destruct a as [|w a]; injection EQ as <- EQ; [congruence|].
           inversion F; subst. f_equal. assert (Q : Err e'' = Err e) by (apply IH; eauto 10). congruence.
    + split; intros H.
      * injection H as ->. exists [], x, l. repeat split; auto.
      * destruct H as (a & z & b & EQ & F & EZ). destruct a as [|w a]; injection EQ as <- EQ.
        { congruence. } { inversion F; subst. destruct H1. congruence. }
Qed.

Lemma Forall2_firstn {A B} (R : A -> B -> Prop) l m n : Forall2 R l m -> Forall2 R (firstn n l) (firstn n m).
Proof. intros H. revert n. induction H; intros [|n]; cbn [firstn]; auto. Qed.
Lemma Forall2_skipn {A B} (R : A -> B -> Prop) l m n : Forall2 R l m -> Forall2 R (skipn n l) (skipn n m).
Proof. intros H. revert n. induction H; intros [|n]; cbn [skipn]; auto. Qed.
Lemma Forall2_zlen {A B} (R : A -> B -> Prop) l m : Forall2 R l m -> zlen l = zlen m.
Proof. induction 1; auto. rewrite !zlen_cons. lia. Qed.
Lemma map_res_zlen {A B} (f : A -> res B) l r : map_res f l = Ok r -> zlen r = zlen l.
Proof. intros H. apply map_res_iff in H. symmetry. eapply Forall2_zlen; eauto. Qed.
Lemma map_res_firstn {A B} (f : A -> res B) l r n : map_res f l = Ok r -> map_res f (firstn n l) = Ok (firstn n r).
Proof. rewrite !map_res_iff. apply Forall2_firstn. Qed.
Lemma map_res_app_ok {A B} (f : A -> res B) l m r s : map_res f l = Ok r -> map_res f m = Ok s -> map_res f (l ++ m) = Ok (r ++ s).
Proof. rewrite !map_res_iff. apply Forall2_app. Qed.
Lemma map_res_repeat {A B} (f : A -> res B) x y n : f x = Ok y -> map_res f (repeat x n) = Ok (repeat y n).
Proof. intros E. apply map_res_iff. induction n; cbn; auto. Qed.

(* ------------------------------------------------------------------ *)
(* codecs                                                               *)

Definition enc1 (e : encoding) (c : Z) : res Z :=
  match e with ASCII => ascii_encode_char c | EBCDIC => cp037_encode_char c | OtherEncoding => Err LookupError end.
Definition dec1 (e : encoding) (b : Z) : res Z :=
  match e with ASCII => ascii_decode_byte b | EBCDIC => cp037_decode_byte b | OtherEncoding => Err LookupError end.
Lemma encode_map e s : supported e -> encode e s = map_res (enc1 e) s.
Proof. intros [->| ->]; reflexivity. Qed.
Lemma decode_map e s : supported e -> decode e s = map_res (dec1 e) s.
Proof. intros [->| ->]; reflexivity. Qed.

Definition below (n : Z) : list Z := map Z.of_nat (seq 0 (Z.to_nat n)).
Lemma below_In n x : 0 <= x < n -> In x (below n).
Proof. intros H. apply in_map_iff. exists (Z.to_nat x). split; [lia|]. apply in_seq. lia. Qed.

Definition roundtrip_check (e : encoding) (c : Z) : bool :=
  match enc1 e c with
  | Ok b => (0 <=? b) && (b <? 256) && match dec1 e b with Ok c' => c' =? c | Err _ => false end
  | Err _ => false
  end.
Lemma ebcdic_check : forallb (roundtrip_check EBCDIC) (below 256) = true.
Proof. vm_compute. reflexivity. Qed.
Definition back_check (b : Z) : bool :=
  match dec1 EBCDIC b with
  | Ok c => (0 <=? c) && (c <? 256) && match enc1 EBCDIC c with Ok b' => b' =? b | Err _ => false end
  | Err _ => false
  end.
Lemma ebcdic_back_check : forallb back_check (below 256) = true.
Proof. vm_compute. reflexivity. Qed.

Lemma enc1_ok e c : supported e -> encodable_char e c ->
  exists b, enc1 e c = Ok b /\ 0 <= b < 256 /\ dec1 e b = Ok c.
Proof.
  intros [->| ->]; cbn [encodable_char]; intros H.
  - exists c. cbn [enc1 dec1]. unfold ascii_encode_char, ascii_decode_byte. replace (c <? 128) with true by lia. repeat split; lia.
  - pose proof ebcdic_check as Q. rewrite forallb_forall in Q. specialize (Q c (below_In 256 c H)). unfold roundtrip_check in Q.
    destruct (enc1 EBCDIC c) as [b|] eqn:E; [|discriminate]. exists b. split; auto. split; [lia|].
    destruct (dec1 EBCDIC b) as [c'|]; [|lia]. f_equal. lia.
Qed.

Lemma index_of_In c l : forall k b, index_of c l k = Some b -> In c l.
Proof.
  induction l as [|x l IH]; intros k b; cbn [index_of]; [discriminate|]. destruct (x =? c) eqn:E; intros H.
  - left. lia.
  - right. eapply IH; eauto.
Qed.
Lemma cp037_range : forallb (fun c => (0 <=? c) && (c <? 256)) cp037_table = true.
Proof. vm_compute. reflexivity. Qed.

Lemma enc1_err e c : supported e -> 0 <= c -> ~ encodable_char e c -> enc1 e c = Err UnicodeEncodeError.
Proof.
  intros [->| ->]; cbn [encodable_char enc1]; intros H N.
  - unfold ascii_encode_char. now replace (c <? 128) with false by lia.
  - unfold cp037_encode_char. destruct (index_of c cp037_table 0) as [b|] eqn:E; auto. apply index_of_In in E.
    pose proof cp037_range as Q. rewrite forallb_forall in Q. specialize (Q c E). lia.
Qed.

Lemma encodable_char_dec e c : {encodable_char e c} + {~ encodable_char e c}.
Proof.
  destruct e; cbn [encodable_char].
  - destruct (Z_le_dec 0 c); destruct (Z_lt_dec c 128); [left|right|right|right]; lia.
  - destruct (Z_le_dec 0 c); destruct (Z_lt_dec c 256); [left|right|right|right]; lia.
  - right. auto.
Qed.
Lemma encodable_dec e s : {encodable e s} + {~ encodable e s}.
Proof. apply Forall_dec. apply encodable_char_dec. Qed.

Lemma encode_decode e s : supported e -> encodable e s ->
  exists b, encode e s = Ok b /\ zlen b = zlen s /\ bytes_ok b /\ decode e b = Ok s.
Proof.
  intros S H. rewrite encode_map by auto. induction H as [|c s H _ (b & E & L & B & D)].
  - exists []. repeat split; auto. { constructor. } rewrite decode_map by auto. reflexivity.
  - destruct (enc1_ok e c S H) as (x & E1 & R & D1). exists (x :: b). cbn [map_res]. rewrite E1, E. cbn [bind].
    rewrite decode_map in * by auto. cbn [map_res]. rewrite D1, D. cbn [bind]. rewrite !zlen_cons, L. repeat split; auto. now constructor.
Qed.

Lemma encode_err e s : supported e -> is_text s -> ~ encodable e s -> encode e s = Err UnicodeEncodeError.
Proof.
  intros S T N. rewrite encode_map by auto. induction T as [|c s Hc T IH].
  - exfalso. apply N. constructor.
  - cbn [map_res]. destruct (encodable_char_dec e c) as [Y|Y].
    + destruct (enc1_ok e c S Y) as (x & -> & _). cbn [bind]. rewrite IH; auto. intros Q. apply N. now constructor.
    + rewrite enc1_err by (auto; lia). reflexivity.
Qed.

Lemma encode_iff e s : supported e -> is_text s ->
  ((exists b, encode e s = Ok b) <-> encodable e s) /\ (encode e s = Err UnicodeEncodeError <-> ~ encodable e s).
Proof.
  intros S T. destruct (encodable_dec e s) as [Y|N].
  - destruct (encode_decode e s S Y) as (b & E & _). rewrite E. split; split; intros H; eauto; try discriminate. contradiction.
  - rewrite (encode_err e s S T N). split; split; intros H; auto; try contradiction. destruct H; discriminate.
Qed.

Lemma decode_encode_ebcdic b : bytes_ok b ->
  exists s, decode EBCDIC b = Ok s /\ zlen s = zlen b /\ encodable EBCDIC s /\ encode EBCDIC s = Ok b.
Proof.
  intros H. cbn [decode encode]. change cp037_decode_byte with (dec1 EBCDIC). change cp037_encode_char with (enc1 EBCDIC).
  induction H as [|x b H _ (s & E & L & Y & D)].
  - exists []. repeat split; auto. constructor.
  - pose proof ebcdic_back_check as Q. rewrite forallb_forall in Q. specialize (Q x (below_In 256 x H)). unfold back_check in Q.
    destruct (dec1 EBCDIC x) as [c|] eqn:E1; [|discriminate]. destruct (enc1 EBCDIC c) as [x'|] eqn:E2; [|lia].
    exists (c :: s). cbn [map_res]. rewrite E1, E, E2, D. cbn [bind]. rewrite !zlen_cons, L. repeat split; auto.
    + constructor; auto. cbn. lia.
    + do 2 f_equal. lia.
Qed.

Lemma decode_ascii b : bytes_ok b ->
  (Forall (fun x => x < 128) b -> decode ASCII b = Ok b /\ encode ASCII b = Ok b) /\
  (~ Forall (fun x => x < 128) b -> decode ASCII b = Err UnicodeDecodeError).
Proof.
  intros H. cbn [decode encode]. split.
  - intros F. split; apply map_res_iff; induction F; constructor; auto.
    1, 3: unfold ascii_decode_byte, ascii_encode_char; replace (x <? 128) with true by lia; reflexivity.
    all: inversion H; auto.
  - intros N. induction H as [|x b Hx H IH].
    + exfalso. apply N. constructor.
    + cbn [map_res]. unfold ascii_decode_byte at 1. destruct (x <? 128) eqn:E; cbn [bind]; auto.
      rewrite IH; auto. intros F. apply N. constructor; auto. lia.
Qed.

Definition runs_check : bool :=
  forallb (fun r => forallb (fun p => match enc1 EBCDIC (snd p) with Ok b => b =? snd r + Z.of_nat (fst p) | Err _ => false end)
                            (combine (seq 0 (length (lit (fst r)))) (lit (fst r)))) ebcdic_runs.
Lemma runs_check_ok : runs_check = true. Proof. vm_compute. reflexivity. Qed.
Lemma combine_seq_nth {A} (l : list A) d : forall k i, (i < length l)%nat -> In ((k + i)%nat, nth i l d) (combine (seq k (length l)) l).
Proof.
  induction l as [|x l IH]; intros k i H; cbn [length] in *; [lia|]. cbn [seq combine]. destruct i as [|i].
  - left. rewrite Nat.add_0_r. reflexivity.
  - right. cbn [nth]. replace (k + Datatypes.S i)%nat with (Datatypes.S k + i)%nat by lia. apply IH. lia.
Qed.
Lemma ebcdic_points s b0 i : In (s, b0) ebcdic_runs -> 0 <= i < zlen (lit s) ->
  encode EBCDIC [nth (Z.to_nat i) (lit s) 0] = Ok [b0 + i].
Proof.
  intros H Hi. pose proof runs_check_ok as Q. unfold runs_check in Q. rewrite forallb_forall in Q. specialize (Q _ H).
  rewrite forallb_forall in Q. cbn [fst snd] in Q.
  specialize (Q _ (combine_seq_nth (lit s) 0 0 (Z.to_nat i) ltac:(unfold zlen in Hi; lia))). cbn [fst snd] in Q.
  cbn [encode map_res]. change cp037_encode_char with (enc1 EBCDIC). destruct (enc1 EBCDIC (nth (Z.to_nat i) (lit s) 0)); [|discriminate].
  cbn [bind]. do 2 f_equal. lia.
Qed.

(* ------------------------------------------------------------------ *)
(* guess_encoding                                                       *)

Lemma count_perm p l m : Permutation l m -> count_if p l = count_if p m.
Proof.
  intros H. unfold count_if. induction H; cbn [filter]; auto.
  - destruct (p x); rewrite ?zlen_cons; lia.
  - destruct (p x); destruct (p y); rewrite ?zlen_cons; lia.
  - lia.
Qed.
Lemma guess_perm l m num den : Permutation l m -> guess_encoding l num den = guess_encoding m num den.
Proof.
  intros H. unfold guess_encoding. 
  rewrite (count_perm (fun b => zmem b COMMON_EBCDIC_CHARS) l m H), (count_perm (fun b => zmem b COMMON_ASCII_CHARS) l m H),
    (count_perm (fun b => b =? 0) l m H).
  replace (zlen l) with (zlen m); [reflexivity|]. unfold zlen. f_equal. symmetry. now apply Permutation_length.
Qed.
Lemma count_if_le p l : 0 <= count_if p l <= zlen l.
Proof. unfold count_if. induction l; cbn [filter]; [cbn; lia|]. destruct (p a); rewrite ?zlen_cons; lia. Qed.
Lemma count_if_all p l : (forall x, In x l -> p x = true) -> count_if p l = zlen l.
Proof.
  unfold count_if. induction l; intros H; auto. cbn [filter]. rewrite (H a) by (now left). rewrite !zlen_cons, IHl; auto.
  intros x Hx. apply H. now right.
Qed.
Lemma count_if_none p l : (forall x, In x l -> p x = false) -> count_if p l = 0.
Proof.
  unfold count_if. induction l; intros H; auto. cbn [filter]. rewrite (H a) by (now left). apply IHl. intros x Hx. apply H. now right.
Qed.
Lemma guess_empty num den : guess_encoding [] num den = None.
Proof. reflexivity. Qed.
Lemma guess_zeros n num den : 0 < n -> guess_encoding (zrepeat 0 n) num den = Some ASCII.
Proof.
  intros H. unfold guess_encoding. rewrite (count_if_all (fun b => b =? 0)).
  2: { intros x Hx. apply repeat_spec in Hx. lia. }
  rewrite zlen_zrepeat by lia. replace (n =? 0) with false by lia. now rewrite Z.eqb_refl.
Qed.

Definition common_of (e : encoding) : list Z :=
  match e with ASCII => COMMON_ASCII_CHARS | EBCDIC => COMMON_EBCDIC_CHARS | OtherEncoding => [] end.
Lemma common_check e : supported e ->
  forallb (fun c => match enc1 e c with Ok b => zmem b (common_of e) && negb (b =? 0) | Err _ => false end) COMMON_CHARS = true.
Proof. intros [->| ->]; vm_compute; reflexivity. Qed.
Lemma encode_common e s b : supported e -> Forall (fun c => In c COMMON_CHARS) s -> encode e s = Ok b ->
  Forall (fun x => zmem x (common_of e) = true /\ x <> 0) b.
Proof.
  intros S F E. rewrite encode_map in E by auto. apply map_res_iff in E.
  pose proof (common_check e S) as Q. rewrite forallb_forall in Q.
  induction E as [|c x s b E1 E IH]; constructor; inversion F; subst; auto.
  specialize (Q c H1). rewrite E1 in Q. apply andb_true_iff in Q. destruct Q as (Q1 & Q2). split; auto. lia.
Qed.

Definition other (e : encoding) : encoding := match e with ASCII => EBCDIC | EBCDIC => ASCII | OtherEncoding => OtherEncoding end.
Lemma guess_right e s b : supported e -> Forall (fun c => In c COMMON_CHARS) s -> encode e s = Ok b ->
  2 * count_if (fun x => zmem x (common_of (other e))) b < zlen b -> guess_encoding b 1 2 = Some e.
Proof.
  intros S F E H. pose proof (encode_common e s b S F E) as C. rewrite Forall_forall in C.
  unfold guess_encoding. pose proof (count_if_le (fun x => zmem x (common_of (other e))) b) as P.
  replace (zlen b =? 0) with false by lia.
  replace (count_if (fun b => b =? 0) b =? zlen b) with false.
  2: { rewrite count_if_none; [lia|]. intros x Hx. specialize (C x Hx). lia. }
  assert (A : count_if (fun x => zmem x (common_of e)) b = zlen b) by (apply count_if_all; intros x Hx; apply C; auto).
  destruct S as [->| ->]; cbn [common_of other] in *.
  - rewrite A. replace (_ && _) with true by lia. reflexivity.
  - rewrite A. replace (_ && _) with false by lia. replace (_ && _) with true by lia. reflexivity.
Qed.

Lemma common_iff c : common_char c <-> In c COMMON_CHARS.
Proof.
  split.
  - intros H. assert (R : 0 <= c < 123) by (unfold common_char in H; lia).
    assert (Q : forallb (fun x => implb (((65 <=? x) && (x <=? 90)) || ((97 <=? x) && (x <=? 122)) || ((48 <=? x) && (x <=? 57)) || (x =? 58) || (x =? 95) || (x =? 45) || (x =? 32))
       (zmem x COMMON_CHARS)) (below 123) = true) by (vm_compute; reflexivity).
    rewrite forallb_forall in Q. specialize (Q c (below_In 123 c R)). apply zmem_In. unfold common_char in H.
    replace (_ || _) with true in Q by lia. exact Q.
  - intros H. assert (Q : forallb (fun x => ((65 <=? x) && (x <=? 90)) || ((97 <=? x) && (x <=? 122)) || ((48 <=? x) && (x <=? 57)) || (x =? 58) || (x =? 95) || (x =? 45) || (x =? 32)) COMMON_CHARS = true)
      by (vm_compute; reflexivity).
    rewrite forallb_forall in Q. specialize (Q c H). unfold common_char. lia.
Qed.
Lemma common_origin e x : supported e -> zmem x (common_of e) = true -> exists c, common_char c /\ encode e [c] = Ok [x].
Proof.
  intros S H. apply zmem_In in H.
  assert (Q : forallb (fun x => existsb (fun c => match enc1 e c with Ok b => b =? x | Err _ => false end) COMMON_CHARS) (common_of e) = true)
    by (destruct S as [->| ->]; vm_compute; reflexivity).
  rewrite forallb_forall in Q. specialize (Q x H). apply existsb_exists in Q. destruct Q as (c & C & E). exists c. split. { now apply common_iff. }
  rewrite encode_map by auto. cbn [map_res]. destruct (enc1 e c); [|discriminate]. cbn [bind]. apply Z.eqb_eq in E. now subst.
Qed.
Lemma count_if_app p l m : count_if p (l ++ m) = count_if p l + count_if p m.
Proof. unfold count_if. now rewrite filter_app, zlen_app. Qed.

Lemma guess_common e s b : supported e -> Forall common_char s -> encode e s = Ok b -> mostly_unambiguous b -> guess_encoding b 1 2 = Some e.
Proof.
  intros S F E (u & v & P & N & H).
  assert (F' : Forall (fun c => In c COMMON_CHARS) s) by (eapply Forall_impl; [|exact F]; intros c Hc; now apply common_iff).
  eapply guess_right; eauto. pose proof (encode_common e s b S F' E) as C. rewrite Forall_forall in C.
  rewrite (count_perm _ b (u ++ v) P), count_if_app.
  assert (Z0 : count_if (fun x => zmem x (common_of (other e))) v = 0).
  { apply count_if_none. intros x Hx. apply not_true_iff_false. intros M. rewrite Forall_forall in N. apply (N x Hx).
    assert (Ix : In x b) by (apply (Permutation_in x (Permutation_sym P)); apply in_app_iff; now right). destruct (C x Ix) as (M' & _).
    apply common_origin in M'; auto. apply common_origin in M; [|destruct S as [->| ->]; [now right|now left]].
    destruct S as [->| ->]; cbn [other] in M; split; auto. }
  rewrite Z0. pose proof (count_if_le (fun x => zmem x (common_of (other e))) u). lia.
Qed.
