(* Proofs about the texts that repr() gives. *)
From Coq Require Import String Ascii ZArith List Bool Lia ZifyBool ZifyNat DecimalString DecimalZ Decimal.
From Verif Require Import Py Util Catalog IbmFloat PyFloat Packing PyFacts Spec_Packing CompileFacts HeaderFacts PackingFacts Repr Spec_Repr.
Import ListNotations.
Local Open Scope string_scope.
Open Scope list_scope.
Open Scope Z_scope.

(* --- strings --- *)

Lemma sapp_assoc a b c : ((a ++ b) ++ c)%string = (a ++ (b ++ c))%string.
Proof. induction a as [|x a IH]; cbn; [reflexivity|]. now rewrite IH. Qed.
Lemma sapp_nil a : (a ++ "")%string = a.
Proof. induction a as [|x a IH]; cbn; [reflexivity|]. now rewrite IH. Qed.
Lemma sapp_inj a b c : (a ++ b)%string = (a ++ c)%string -> b = c.
Proof. induction a as [|x a IH]; cbn; intros H; [exact H|]. injection H as H. now apply IH. Qed.

(* the text begins with no such character *)
Definition stops (p : ascii -> bool) (s : string) : Prop := match s with EmptyString => True | String a _ => p a = false end.

Lemma span_app p a b : all_chars p a = true -> stops p b -> span p (a ++ b)%string = (a, b).
Proof.
  induction a as [|x a IH]; cbn [all_chars append span]; intros H N.
  - destruct b as [|y b]; cbn in N |- *; [reflexivity|]. now rewrite N.
  - apply andb_prop in H. destruct H as (H1 & H2). rewrite H1, (IH H2 N). reflexivity.
Qed.

(* --- ints --- *)

Lemma uint_chars d : all_chars digit (NilEmpty.string_of_uint d) = true.
Proof. induction d; cbn [NilEmpty.string_of_uint all_chars]; try reflexivity; rewrite IHd; reflexivity. Qed.
Lemma uint_chars0 d : all_chars digit (NilZero.string_of_uint d) = true.
Proof. destruct d; try reflexivity; exact (uint_chars _). Qed.
Lemma chars_weaken (p q : ascii -> bool) s : (forall a, p a = true -> q a = true) -> all_chars p s = true -> all_chars q s = true.
Proof.
  intros W. induction s as [|a s IH]; cbn [all_chars]; [auto|]. intros H. apply andb_prop in H. destruct H as (H1 & H2).
  now rewrite (W a H1), IH.
Qed.
Lemma show_chars n : all_chars int_char (show_int n) = true.
Proof.
  unfold show_int. assert (W : forall a, digit a = true -> int_char a = true) by (intros a H; unfold int_char; now rewrite H).
  destruct (Z.to_int n) as [d|d]; cbn [NilZero.string_of_int].
  - exact (chars_weaken _ _ _ W (uint_chars0 d)).
  - cbn [all_chars]. rewrite (chars_weaken _ _ _ W (uint_chars0 d)). reflexivity.
Qed.

Lemma to_uint_nonnil p : Pos.to_uint p <> Nil.
Proof. exact (DecimalPos.Unsigned.to_uint_nonnil p). Qed.

Lemma parse_show n r : stops int_char r -> parse_int (show_int n ++ r) = Some (n, r).
Proof.
  intros N. unfold parse_int. rewrite (span_app int_char _ r (show_chars n) N). unfold show_int.
  rewrite NilZero.isi; [now rewrite DecimalZ.of_to| |].
  - destruct n as [|p|p]; cbn; try discriminate. intros H. injection H as H. exact (to_uint_nonnil p H).
  - destruct n as [|p|p]; cbn; try discriminate. intros H. injection H as H. exact (to_uint_nonnil p H).
Qed.

(* --- lists of items --- *)

Definition followed (close : ascii) (r : string) : Prop := match r with String a _ => a = "," %char \/ a = close | EmptyString => False end.

Definition tails (show : list string) : string := fold_right (fun x s => (", " ++ x ++ s)%string) "" show.
Lemma concat_tails x l : String.concat ", " (x :: l) = (x ++ tails l)%string.
Proof.
  revert x. induction l as [|y l IH]; intros x; [cbn; now rewrite sapp_nil|].
  change (String.concat ", " (x :: y :: l)) with (x ++ ", " ++ String.concat ", " (y :: l))%string. rewrite IH. reflexivity.
Qed.

Section Items.
Variables (A : Type) (show : A -> string) (item : string -> option (A * string)) (close : ascii) (good : A -> Prop).
Hypothesis item_show : forall x r, good x -> followed close r -> item (show x ++ r)%string = Some (x, r).
Hypothesis close_comma : Ascii.eqb "," close = false.
Hypothesis show_start : forall x, good x -> match show x with String a _ => Ascii.eqb a close = false | EmptyString => False end.

Lemma tails_length l : (length l <= String.length (tails (map show l)))%nat.
Proof.
  assert (L : forall a b, String.length (a ++ b)%string = (String.length a + String.length b)%nat) by (induction a; cbn; intros; [lia|]; now rewrite IHa).
  induction l as [|x l IH]; [cbn; lia|]. change (tails (map show (x :: l))) with (", " ++ show x ++ tails (map show l))%string.
  rewrite !L. cbn [length]. change (String.length ", ") with 2%nat. lia.
Qed.

Lemma followed_tails l r : followed close (tails (map show l) ++ String close r)%string.
Proof. destruct l as [|x l]; cbn; [now right|now left]. Qed.

Lemma more_show l r fuel : Forall good l -> (length l < fuel)%nat ->
  parse_more item close fuel (tails (map show l) ++ String close r)%string = Some (l, r).
Proof.
  intros G. revert fuel. induction G as [|x l Gx G IH]; intros [|fuel] F; cbn [length] in F; try lia.
  - cbn. rewrite Ascii.eqb_refl. reflexivity.
  - change (tails (map show (x :: l))) with (", " ++ show x ++ tails (map show l))%string. rewrite !sapp_assoc.
    cbn [append parse_more]. rewrite close_comma.
    rewrite (item_show x _ Gx (followed_tails l r)). rewrite IH by lia. reflexivity.
Qed.

Lemma items_show l r : Forall good l ->
  parse_items item close (String.concat ", " (map show l) ++ String close r)%string = Some (l, r).
Proof.
  intros G. destruct l as [|x l].
  - cbn. now rewrite Ascii.eqb_refl.
  - inversion G as [|x' l' Gx Gl]; subst x' l'. cbn [map]. rewrite concat_tails, sapp_assoc.
    pose proof (item_show x _ Gx (followed_tails l r)) as I. pose proof (show_start x Gx) as S.
    unfold parse_items. destruct (show x) as [|a s] eqn:E; [contradiction|]. cbn [append] in I |- *.
    rewrite S, I. rewrite more_show; [reflexivity|exact Gl|]. pose proof (tails_length l).
    assert (L : forall a b, String.length (a ++ b)%string = (String.length a + String.length b)%nat) by (induction a0; cbn; intros; [lia|]; now rewrite IHa0).
    rewrite L. lia.
Qed.
End Items.

(* --- keyword arguments --- *)

Definition good_keyword (p : string * Z) : Prop := identifier (fst p).

Lemma name_stops_eq : name_char "=" = false. Proof. reflexivity. Qed.

Lemma keyword_show p r : good_keyword p -> followed ")" r -> parse_keyword (show_keyword p ++ r)%string = Some (p, r).
Proof.
  destruct p as (n, v). unfold good_keyword, show_keyword. cbn [fst snd]. intros (G1 & G2) F. unfold parse_keyword.
  rewrite !sapp_assoc. rewrite (span_app name_char n _ G1) by reflexivity.
  destruct n as [|a n]; [contradiction|]. cbn [append]. rewrite G2. rewrite parse_show; [reflexivity|].
  destruct r as [|c r]; [contradiction|]. destruct F as [->| ->]; reflexivity.
Qed.

Lemma letter_not_close a : letter a = true -> Ascii.eqb a ")" = false.
Proof. intros H. destruct (Ascii.eqb_spec a ")") as [->|]; [discriminate H|reflexivity]. Qed.

Lemma keywords_show kws r : Forall good_keyword kws ->
  parse_items parse_keyword ")" (String.concat ", " (map show_keyword kws) ++ String ")" r)%string = Some (kws, r).
Proof.
  apply items_show with (good := good_keyword); [exact keyword_show|reflexivity|].
  intros (n, v) (_ & G). cbn [fst] in G. unfold show_keyword. cbn [fst]. destruct n as [|a n]; [contradiction|]. cbn [append]. now apply letter_not_close.
Qed.

Lemma no_repeats_spec l : no_repeats l = true <-> NoDup l.
Proof.
  induction l as [|x l IH]; cbn [no_repeats]; [split; [constructor|reflexivity]|]. rewrite andb_true_iff, IH, negb_true_iff. split.
  - intros (H1 & H2). constructor; [|exact H2]. intros I. assert (E : existsb (String.eqb x) l = true); [|congruence].
    apply existsb_exists. exists x. split; [exact I|]. apply String.eqb_refl.
  - intros H. inversion H as [|y m N D]; subst. split; [|exact D]. destruct (existsb (String.eqb x) l) eqn:E; [|reflexivity].
    apply existsb_exists in E. destruct E as (y & I & Q). apply String.eqb_eq in Q. now subst y.
Qed.

Lemma call_show name kws : identifier name -> Forall good_keyword kws ->
  keyword_call (show_call name kws) = if no_repeats (map fst kws) then Some (name, kws) else None.
Proof.
  intros (N1 & N2) G. unfold keyword_call, show_call. rewrite (span_app name_char name _ N1) by reflexivity.
  destruct name as [|a name]; [contradiction|]. cbn [append]. rewrite N2. rewrite (keywords_show kws "" G). reflexivity.
Qed.

Lemma call_inj name kws kws' : Forall good_keyword kws -> Forall good_keyword kws' ->
  show_call name kws = show_call name kws' -> kws = kws'.
Proof.
  intros G G' H. unfold show_call in H. apply sapp_inj in H. injection H as H.
  pose proof (keywords_show kws "" G) as P. rewrite H in P. rewrite (keywords_show kws' "" G') in P. congruence.
Qed.

(* --- headers --- *)

Definition names_ok (c : fmt) : Prop := identifier (fmt_name c) /\ Forall identifier (ordered_field_names c).

Lemma repr_total h : class_ok (h_cls h) -> exists vs, map_res (hdr_get h) (ordered_field_names (h_cls h)) = Ok vs /\
  header_repr h = Ok (show_call (fmt_name (h_cls h)) (combine (ordered_field_names (h_cls h)) vs)).
Proof.
  intros K. exists (map (name_val h) (ordered_field_names (h_cls h))).
  assert (E : map_res (hdr_get h) (ordered_field_names (h_cls h)) = Ok (map (name_val h) (ordered_field_names (h_cls h)))).
  { apply map_res_get. intros n Hn. apply name_val_get. now apply ordered_names_In. }
  split; [exact E|]. unfold header_repr. now rewrite E.
Qed.

Lemma good_combine names (vs : list Z) : Forall identifier names -> Forall good_keyword (combine names vs).
Proof. intros H. revert vs. induction H as [|n names Hn H IH]; intros [|v vs]; cbn; constructor; [exact Hn|apply IH]. Qed.

Lemma map_res_len {A B} (f : A -> res B) l ys : map_res f l = Ok ys -> length ys = length l.
Proof. intros H. apply map_res_inv in H. induction H; cbn; congruence. Qed.

Lemma fst_combine {A B} (l : list A) (m : list B) : length m = length l -> map fst (combine l m) = l.
Proof. revert m. induction l as [|x l IH]; intros [|y m] H; try discriminate; cbn; [reflexivity|]. f_equal. apply IH. now injection H. Qed.

Lemma In_combine_get h names vs n v : map_res (hdr_get h) names = Ok vs -> In (n, v) (combine names vs) -> In n names /\ hdr_get h n = Ok v.
Proof.
  intros H. apply map_res_inv in H. induction H as [|a b names vs E H IH]; cbn [combine]; [intros []|].
  intros [Q|Q]; [injection Q as -> ->; split; [now left|exact E]|]. destruct (IH Q) as (I1 & I2). split; [now right|exact I2].
Qed.

Lemma combine_In_get h names vs n : map_res (hdr_get h) names = Ok vs -> In n names -> exists v, In (n, v) (combine names vs) /\ hdr_get h n = Ok v.
Proof.
  intros H. apply map_res_inv in H. induction H as [|a b names vs E H IH]; intros I; [destruct I|]. cbn [combine].
  destruct I as [->|I]; [exists b; split; [now left|exact E]|]. destruct (IH I) as (v & I1 & I2). exists v. split; [now right|exact I2].
Qed.

Lemma header_evaluates h : class_ok (h_cls h) -> names_ok (h_cls h) -> NoDup (ordered_field_names (h_cls h)) -> header_ok h ->
  exists s kws h', header_repr h = Ok s /\ keyword_call s = Some (fmt_name (h_cls h), kws) /\
    map fst kws = ordered_field_names (h_cls h) /\ hdr_init (h_cls h) [] kws = Ok h' /\ same_fields h h'.
Proof.
  intros K (N1 & N2) ND HO. destruct (repr_total h K) as (vs & E & R).
  set (names := ordered_field_names (h_cls h)) in *. assert (L := map_res_len _ _ _ E).
  exists (show_call (fmt_name (h_cls h)) (combine names vs)), (combine names vs).
  assert (F : map fst (combine names vs) = names) by now apply fst_combine.
  assert (W : kw_fields_ok (h_cls h) (combine names vs)).
  { intros n v I. destruct (In_combine_get _ _ _ _ _ E I) as (In1 & G). apply ordered_names_In in In1.
    destruct (class_field (h_cls h) n) as [f|] eqn:CF; [|easy]. apply class_field_spec in CF; auto using class_ok_levels.
    destruct CF as (Hf & Hn). exists f. split; [exact Hf|]. split; [exact Hn|]. destruct (HO f Hf) as (w & E1 & Ac). rewrite Hn in E1. congruence. }
  destruct (construct_ok (h_cls h) (combine names vs) K) as (h' & I & C & G); [now rewrite F|exact W|].
  exists h'. split; [exact R|]. split.
  { rewrite call_show; [|exact N1|now apply good_combine]. rewrite F. rewrite (proj2 (no_repeats_spec names) ND). reflexivity. }
  split; [exact F|]. split; [exact I|]. split; [exact C|]. intros f Hf. destruct (G f Hf) as (G1 & _).
  destruct (combine_In_get _ _ _ (fd_name f) E) as (v & Iv & Gv); [now apply field_name_In|]. rewrite Gv. now apply G1.
Qed.

Lemma header_distinct a b s : class_ok (h_cls a) -> names_ok (h_cls a) -> h_cls b = h_cls a ->
  header_repr a = Ok s -> header_repr b = Ok s -> same_fields a b.
Proof.
  intros K (N1 & N2) C Ra Rb. split; [exact C|]. intros f Hf.
  destruct (repr_total a K) as (vs & Ea & Ra'). destruct (repr_total b) as (ws & Eb & Rb'); [now rewrite C|].
  rewrite C in Eb, Rb'. rewrite Ra in Ra'. rewrite Rb in Rb'. injection Ra' as ->. injection Rb' as Q.
  apply call_inj in Q; [|now apply good_combine|now apply good_combine].
  destruct (combine_In_get _ _ _ (fd_name f) Ea) as (v & Iv & Gv); [now apply field_name_In|].
  rewrite Q in Iv. apply (In_combine_get _ _ _ _ _ Eb) in Iv. destruct Iv as (_ & Gw). congruence.
Qed.

Lemma header_same a b : class_ok (h_cls a) -> same_fields a b -> header_repr b = header_repr a.
Proof.
  intros K (C & G). destruct (repr_total a K) as (vs & Ea & Ra). destruct (repr_total b) as (ws & Eb & Rb); [now rewrite C|].
  rewrite Ra, Rb, C. rewrite C in Eb. assert (vs = ws); [|now subst].
  assert (E : map_res (hdr_get b) (ordered_field_names (h_cls a)) = Ok vs); [|congruence].
  assert (Q : forall n, In n (ordered_field_names (h_cls a)) -> hdr_get b n = hdr_get a n).
  { intros n Hn. apply ordered_names_In in Hn. destruct (class_field (h_cls a) n) as [f|] eqn:CF; [|easy].
    apply class_field_spec in CF; auto using class_ok_levels. destruct CF as (Hf & <-). now apply G. }
  clear Ra Rb Eb. revert vs Ea Q. generalize (ordered_field_names (h_cls a)). intros l. clear. induction l as [|n l IH]; intros vs Ea Q; cbn [map_res] in *; [exact Ea|].
  rewrite (Q n (or_introl eq_refl)). destruct (hdr_get a n) as [v|]; cbn [bind] in *; [|discriminate].
  destruct (map_res (hdr_get a) l) as [us|] eqn:El; cbn [bind] in *; [|discriminate]. rewrite (IH us eq_refl); [exact Ea|intros m Hm; apply Q; now right].
Qed.

Lemma header_redefined h : class_ok (h_cls h) -> names_ok (h_cls h) -> ~ NoDup (ordered_field_names (h_cls h)) ->
  exists s, header_repr h = Ok s /\ keyword_call s = None.
Proof.
  intros K (N1 & N2) ND. destruct (repr_total h K) as (vs & E & R). eexists. split; [exact R|].
  rewrite call_show; [|exact N1|now apply good_combine]. rewrite fst_combine by now apply map_res_len in E.
  destruct (no_repeats (ordered_field_names (h_cls h))) eqn:Q; [|reflexivity]. apply no_repeats_spec in Q. contradiction.
Qed.

(* --- sets --- *)

Lemma int_show close n r : int_char close = false -> followed close r -> parse_int (show_int n ++ r)%string = Some (n, r).
Proof. intros N F. apply parse_show. destruct r as [|c r]; [contradiction|]. destruct F as [->| ->]; [reflexivity|exact N]. Qed.

Lemma show_int_start n close : int_char close = false -> match show_int n with String a _ => Ascii.eqb a close = false | EmptyString => False end.
Proof.
  intros N. pose proof (show_chars n) as C. destruct (show_int n) as [|a s] eqn:E.
  - assert (P : parse_int (show_int n ++ "")%string = Some (n, "")) by (apply parse_show; exact I). rewrite E in P. discriminate P.
  - cbn in C. apply andb_prop in C. destruct C as (C & _). destruct (Ascii.eqb_spec a close) as [->|]; [congruence|reflexivity].
Qed.

Lemma sfs_evaluates s : list_call (sfs_repr s) = Some ("SortedFrozenSet", s).
Proof.
  unfold sfs_repr, list_call. destruct s as [|n s].
  - reflexivity.
  - set (l := n :: s). change ("SortedFrozenSet(" ++ list_repr l ++ ")")%string with ("SortedFrozenSet" ++ String "(" (list_repr l ++ ")"))%string.
    rewrite (span_app name_char "SortedFrozenSet" _ eq_refl) by reflexivity. cbn [letter]. unfold list_repr.
    change (letter "S") with true. cbv iota. rewrite !sapp_assoc. cbn [append].
    rewrite (items_show Z show_int parse_int "]" (fun _ => True)); [reflexivity| | | |].
    + intros x r _ F. now apply (int_show "]").
    + reflexivity.
    + intros x _. now apply show_int_start.
    + apply Forall_forall. auto.
Qed.

(* --- IBM floats --- *)

Definition nibbles : list Z := map Z.of_nat (seq 0 16).
Lemma hex_digit_inj a b : 0 <= a < 16 -> 0 <= b < 16 -> hex_digit a = hex_digit b -> a = b.
Proof.
  intros Ha Hb. assert (C : forallb (fun a => forallb (fun b => implb (String.eqb (hex_digit a) (hex_digit b)) (a =? b)) nibbles) nibbles = true) by (vm_compute; reflexivity).
  rewrite forallb_forall in C. assert (I : forall x, 0 <= x < 16 -> In x nibbles).
  { intros x Hx. unfold nibbles. apply in_map_iff. exists (Z.to_nat x). split; [lia|]. apply in_seq. lia. }
  specialize (C a (I a Ha)). rewrite forallb_forall in C. specialize (C b (I b Hb)). intros E. rewrite E, String.eqb_refl in C. cbn in C. lia.
Qed.
Lemma hex_digit_one a : 0 <= a < 16 -> exists c, hex_digit a = String c "".
Proof.
  intros Ha. assert (C : forallb (fun a => Nat.eqb (String.length (hex_digit a)) 1) nibbles = true) by (vm_compute; reflexivity).
  rewrite forallb_forall in C. specialize (C a). assert (I : In a nibbles).
  { unfold nibbles. apply in_map_iff. exists (Z.to_nat a). split; [lia|]. apply in_seq. lia. }
  specialize (C I). destruct (hex_digit a) as [|c [|d r]]; try discriminate. now exists c.
Qed.

Lemma hex_byte_inj a b r s : 0 <= a < 256 -> 0 <= b < 256 -> (hex_byte a ++ r)%string = (hex_byte b ++ s)%string -> a = b /\ r = s.
Proof.
  intros Ha Hb H. unfold hex_byte in H.
  destruct (hex_digit_one (a / 16)) as (a1 & A1); [Z.div_mod_to_equations; lia|]. destruct (hex_digit_one (a mod 16)) as (a2 & A2); [Z.div_mod_to_equations; lia|].
  destruct (hex_digit_one (b / 16)) as (b1 & B1); [Z.div_mod_to_equations; lia|]. destruct (hex_digit_one (b mod 16)) as (b2 & B2); [Z.div_mod_to_equations; lia|].
  assert (Q : a1 = b1 /\ a2 = b2 /\ r = s). { rewrite A1, A2, B1, B2 in H. cbn in H. injection H as H1 H2 H3. auto. }
  destruct Q as (Q1 & Q2 & Q3). split; [|exact Q3].
  assert (a / 16 = b / 16) by (apply hex_digit_inj; [Z.div_mod_to_equations; lia|Z.div_mod_to_equations; lia|congruence]).
  assert (a mod 16 = b mod 16) by (apply hex_digit_inj; [Z.div_mod_to_equations; lia|Z.div_mod_to_equations; lia|congruence]).
  Z.div_mod_to_equations; lia.
Qed.

Lemma ibm_repr_inj float_repr x y s : Forall (fun b => 0 <= b < 256) (ibm_bytes x) -> Forall (fun b => 0 <= b < 256) (ibm_bytes y) ->
  ibm_repr float_repr x = Ok s -> ibm_repr float_repr y = Ok s -> x = y.
Proof.
  unfold ibm_repr. destruct (ibm_float x) as [f|]; cbn [bind]; [|discriminate]. destruct (ibm_float y) as [g|]; cbn [bind]; [|discriminate].
  destruct x as [a b c d], y as [a' b' c' d']. unfold ibm_bytes. cbn [map w0 w1 w2 w3].
  intros Bx By Hx Hy.
  assert (H : (String.concat ", " [hex_byte a; hex_byte b; hex_byte c; hex_byte d] ++ "])) ≈ " ++ float_repr f)%string =
    (String.concat ", " [hex_byte a'; hex_byte b'; hex_byte c'; hex_byte d'] ++ "])) ≈ " ++ float_repr g)%string).
  { apply (sapp_inj "IBMFloat(bytes(["). unfold ibm_bytes in Hx, Hy. cbn [map] in Hx, Hy. congruence. }
  clear Hx Hy. rewrite !concat_tails, !sapp_assoc in H.
  inversion Bx as [|? ? X1 Bx1]; subst. inversion Bx1 as [|? ? X2 Bx2]; subst. inversion Bx2 as [|? ? X3 Bx3]; subst. inversion Bx3 as [|? ? X4 _]; subst.
  inversion By as [|? ? Y1 By1]; subst. inversion By1 as [|? ? Y2 By2]; subst. inversion By2 as [|? ? Y3 By3]; subst. inversion By3 as [|? ? Y4 _]; subst.
  assert (T : forall x l r, (tails (x :: l) ++ r)%string = (", " ++ (x ++ (tails l ++ r)))%string).
  { intros x l r. change (tails (x :: l)) with (", " ++ x ++ tails l)%string. now rewrite !sapp_assoc. }
  rewrite !T in H.
  apply hex_byte_inj in H; [|assumption|assumption]. destruct H as (-> & H). apply sapp_inj in H.
  apply hex_byte_inj in H; [|assumption|assumption]. destruct H as (-> & H). apply sapp_inj in H.
  apply hex_byte_inj in H; [|assumption|assumption]. destruct H as (-> & H). apply sapp_inj in H.
  apply hex_byte_inj in H; [|assumption|assumption]. destruct H as (-> & H). reflexivity.
Qed.

Lemma hex_byte_value b : 0 <= b < 256 -> hex_literal (hex_byte b) = Some b.
Proof.
  intros B. assert (H : forallb (fun n => match hex_literal (hex_byte (Z.of_nat n)) with Some v => v =? Z.of_nat n | None => false end) (seq 0 256) = true)
    by (vm_compute; reflexivity).
  rewrite forallb_forall in H. specialize (H (Z.to_nat b)). rewrite Z2Nat.id in H by lia.
  assert (I : In (Z.to_nat b) (seq 0 256)) by (apply in_seq; lia). specialize (H I).
  destruct (hex_literal (hex_byte b)); [|discriminate]. f_equal. lia.
Qed.

(* --- the theorems about headers, by their fields --- *)

Lemma fields_named c : class_ok c -> identifier (fmt_name c) -> (forall f, is_field c f -> identifier (fd_name f)) -> names_ok c.
Proof.
  intros K N F. split; [exact N|]. apply Forall_forall. intros n Hn. apply ordered_names_In in Hn.
  destruct (class_field c n) as [f|] eqn:E; [|easy]. apply class_field_spec in E; [|now apply class_ok_levels]. destruct E as (Hf & <-). now apply F.
Qed.

(* --- catalogs --- *)

Lemma names_letters l : forallb (fun s => all_chars name_char s && match s with String a _ => letter a | EmptyString => false end) l = true -> Forall identifier l.
Proof.
  intros H. apply Forall_forall. intros s I. rewrite forallb_forall in H. specialize (H s I). apply andb_prop in H. destruct H as (H1 & H2).
  split; [exact H1|]. destruct s; [discriminate|exact H2].
Qed.

Lemma regular_constant_evaluates a b c v :
  exists kws, keyword_call (regular_constant_repr a b c v) = Some ("RegularConstantCatalog", kws) /\
    bind_keywords ["key_min"; "key_max"; "key_stride"; "value"] kws = Ok [a; b; c; v].
Proof.
  exists [("key_min", a); ("key_max", b); ("key_stride", c); ("value", v)]. split; [|reflexivity].
  unfold regular_constant_repr. rewrite call_show; [reflexivity|split; reflexivity|].
  repeat constructor.
Qed.

Lemma linear_evaluates a b c x y z :
  exists kws, keyword_call (linear_regular_repr a b c x y z) = Some ("LinearRegularCatalog", kws) /\
    bind_keywords ["key_min"; "key_max"; "key_stride"; "value_start"; "value_stop"; "value_stride"] kws = Err TypeError /\
    kws = [("key_min", a); ("key_max", b); ("key_stride", c); ("value_first", x); ("value_last", y); ("value_stride", z)].
Proof.
  exists [("key_min", a); ("key_max", b); ("key_stride", c); ("value_first", x); ("value_last", y); ("value_stride", z)].
  split; [|split; reflexivity]. unfold linear_regular_repr. rewrite call_show; [reflexivity|split; reflexivity|].
  repeat constructor.
Qed.
