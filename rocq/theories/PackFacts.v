(* Proofs about Packing.v: integer codecs, struct, compile_struct. *)
From Coq Require Import String ZArith List Bool Lia ZifyBool ZifyNat Sorted Permutation.
From Verif Require Import Py Util Packing PyFacts Spec_Util UtilFacts Spec_Packing.
Import ListNotations.
Open Scope Z_scope.
Ltac Zify.zify_post_hook ::= Z.div_mod_to_equations.

(* --- bytes --- *)

Lemma ctype_size_spec c : ctype_size c = ctype_bytes c. Proof. destruct c; reflexivity. Qed.
Lemma ctype_size_pos c : 1 <= ctype_size c <= 4. Proof. destruct c; cbn; lia. Qed.
Lemma ctype_range_spec c v : (ctype_lo c <=? v) && (v <=? ctype_hi c) = true <-> in_ctype c v.
Proof. destruct c; unfold ctype_lo, ctype_hi, in_ctype; cbn; lia. Qed.

Lemma le_bytes_length n : forall v, length (le_bytes n v) = n.
Proof. induction n; cbn; auto. Qed.

Lemma le_bytes_nth n : forall v k, (k < n)%nat -> nth k (le_bytes n v) 0 = (v / 256 ^ Z.of_nat k) mod 256.
Proof.
  induction n as [|n IH]; intros v k H; [lia|]. cbn [le_bytes]. destruct k as [|k].
  - cbn [nth]. now rewrite Z.pow_0_r, Z.div_1_r.
  - cbn [nth]. rewrite IH by lia. rewrite Z.div_div by lia.
    replace (Z.of_nat (S k)) with (1 + Z.of_nat k) by lia. now rewrite Z.pow_add_r, Z.pow_1_r by lia.
Qed.

Lemma le_bytes_bytes n : forall v, all_bytes (le_bytes n v).
Proof. induction n; intros v; cbn [le_bytes]; constructor; [lia|apply IHn]. Qed.

Lemma le_value_range l : all_bytes l -> 0 <= le_value l < 256 ^ zlen l.
Proof.
  induction 1 as [|b l H _ IH]; [cbn; lia|].
  cbn [le_value]. rewrite zlen_cons, Z.pow_add_r, Z.pow_1_r by (try apply zlen_nonneg; lia). lia.
Qed.

Lemma le_value_bytes n : forall v, 0 <= v < 256 ^ Z.of_nat n -> le_value (le_bytes n v) = v.
Proof.
  induction n as [|n IH]; intros v H; [cbn in *; lia|].
  cbn [le_bytes le_value].
  replace (Z.of_nat (S n)) with (1 + Z.of_nat n) in H by lia. rewrite Z.pow_add_r, Z.pow_1_r in H by lia.
  rewrite IH; lia.
Qed.

Lemma le_bytes_value l : all_bytes l -> le_bytes (length l) (le_value l) = l.
Proof.
  induction 1 as [|b l H _ IH]; [reflexivity|].
  cbn [length le_value le_bytes]. f_equal; [lia|].
  replace ((b + 256 * le_value l) / 256) with (le_value l) by lia. exact IH.
Qed.

Lemma all_bytes_rev l : all_bytes l -> all_bytes (rev l).
Proof. unfold all_bytes. rewrite !Forall_forall. intros H x Hx. apply H. now apply in_rev. Qed.
Lemma all_bytes_app l m : all_bytes (l ++ m) <-> all_bytes l /\ all_bytes m.
Proof. apply Forall_app. Qed.
Lemma order_bytes_all e l : all_bytes l -> all_bytes (order_bytes e l).
Proof. destruct e; cbn; auto using all_bytes_rev. Qed.
Lemma order_bytes_length e l : length (order_bytes e l) = length l.
Proof. destruct e; cbn; auto using rev_length. Qed.
Lemma order_bytes_twice e l : order_bytes e (order_bytes e l) = l.
Proof. destruct e; cbn; auto using rev_involutive. Qed.

Lemma pow256 n : 0 <= n -> 256 ^ n = 2 ^ (8 * n).
Proof. intros. rewrite Z.pow_mul_r by lia. reflexivity. Qed.

Lemma pack_int_ok e c v : in_ctype c v ->
  pack_int e c v = Ok (order_bytes e (le_bytes (Z.to_nat (ctype_size c)) (v mod 2 ^ (8 * ctype_size c)))).
Proof. intros H. unfold pack_int. apply ctype_range_spec in H. now rewrite H. Qed.

Lemma pack_int_err e c v : ~ in_ctype c v -> pack_int e c v = Err StructError.
Proof.
  intros H. unfold pack_int. destruct (_ && _) eqn:E; auto. apply ctype_range_spec in E. contradiction.
Qed.

Lemma pack_int_inv e c v b : pack_int e c v = Ok b -> in_ctype c v /\ zlen b = ctype_size c /\ all_bytes b.
Proof.
  unfold pack_int. destruct (_ && _) eqn:E; [|discriminate]. apply ctype_range_spec in E.
  injection 1 as <-. split; auto. split.
  - unfold zlen. rewrite order_bytes_length, le_bytes_length. pose proof (ctype_size_pos c). lia.
  - apply order_bytes_all, le_bytes_bytes.
Qed.

Lemma unpack_pack_int e c v b : pack_int e c v = Ok b -> unpack_int e c b = v.
Proof.
  intros H. destruct (pack_int_inv _ _ _ _ H) as (Hv & _). rewrite pack_int_ok in H by auto.
  injection H as <-. unfold unpack_int. rewrite order_bytes_twice.
  pose proof (ctype_size_pos c) as Hs.
  rewrite le_value_bytes.
  - destruct c; cbn -[Z.modulo] in *; unfold in_ctype in Hv;
      change (2 ^ 32) with 4294967296 in *; change (2 ^ 31) with 2147483648 in *;
      change (2 ^ 16) with 65536 in *; change (2 ^ 15) with 32768 in *;
      change (2 ^ 8) with 256 in *; change (2 ^ 7) with 128 in *; 
      repeat match goal with |- context [Z.pow_pos ?a ?b] => let r := eval vm_compute in (Z.pow_pos a b) in change (Z.pow_pos a b) with r end;
      try match goal with |- context [if ?b then _ else _] => destruct b eqn:? end; lia.
  - rewrite Z2Nat.id by lia. rewrite pow256 by lia. apply Z.mod_pos_bound. lia.
Qed.

Lemma pack_unpack_int e c b : all_bytes b -> zlen b = ctype_size c ->
  pack_int e c (unpack_int e c b) = Ok b /\ in_ctype c (unpack_int e c b).
Proof.
  intros Hb Hl. unfold unpack_int. set (u := le_value (order_bytes e b)).
  assert (Hu : 0 <= u < 256 ^ ctype_size c).
  { unfold u. rewrite <- Hl. replace (zlen b) with (zlen (order_bytes e b)) by (unfold zlen; now rewrite order_bytes_length).
    apply le_value_range, order_bytes_all, Hb. }
  pose proof (ctype_size_pos c) as Hs. rewrite pow256 in Hu by lia.
  assert (Hin : in_ctype c (if ctype_signed c && (2 ^ (8 * ctype_size c - 1) <=? u) then u - 2 ^ (8 * ctype_size c) else u)).
  { destruct c; cbn -[Z.pow] in *; unfold in_ctype; try destruct (_ <=? _) eqn:?; lia. }
  split; auto. rewrite pack_int_ok by auto. f_equal.
  assert (E : (if ctype_signed c && (2 ^ (8 * ctype_size c - 1) <=? u) then u - 2 ^ (8 * ctype_size c) else u)
              mod 2 ^ (8 * ctype_size c) = u).
  { destruct (_ && _).
    - replace (u - 2 ^ (8 * ctype_size c)) with (u + (-1) * 2 ^ (8 * ctype_size c)) by ring.
      rewrite Z.mod_add by lia. now apply Z.mod_small.
    - now apply Z.mod_small. }
  rewrite E. unfold u.
  replace (Z.to_nat (ctype_size c)) with (length (order_bytes e b)) by (rewrite order_bytes_length; unfold zlen in Hl; lia).
  rewrite le_bytes_value by now apply order_bytes_all. apply order_bytes_twice.
Qed.

(* --- positions in a buffer --- *)

Lemma byte_at_app1 a b i : 0 <= i < zlen a -> byte_at (a ++ b) i = byte_at a i.
Proof. intros H. unfold byte_at, zlen in *. apply app_nth1. lia. Qed.
Lemma byte_at_app2 a b i : zlen a <= i -> byte_at (a ++ b) i = byte_at b (i - zlen a).
Proof. intros H. unfold byte_at, zlen in *. rewrite app_nth2 by lia. f_equal. lia. Qed.
Lemma byte_at_zeros n i : byte_at (zrepeat 0 n) i = 0.
Proof.
  unfold byte_at, zrepeat. destruct (Nat.lt_ge_cases (Z.to_nat i) (Z.to_nat n)).
  - now apply nth_repeat.
  - rewrite nth_overflow; auto. now rewrite repeat_length.
Qed.

Lemma stored_shift e a b pos size v : 0 <= pos -> stored_at e b pos size v -> stored_at e (a ++ b) (zlen a + pos) size v.
Proof.
  intros Hp (P & L & H). pose proof (zlen_nonneg a). split; [lia|]. split; [rewrite zlen_app; lia|].
  intros k Hk. specialize (H k Hk). rewrite byte_at_app2 by (destruct e; lia).
  rewrite <- H. f_equal. destruct e; lia.
Qed.

Lemma stored_front e a b size v : stored_at e a 0 size v -> stored_at e (a ++ b) 0 size v.
Proof.
  intros (P & L & H). pose proof (zlen_nonneg b). split; [lia|]. split; [rewrite zlen_app; lia|].
  intros k Hk. rewrite byte_at_app1 by (destruct e; lia). now apply H.
Qed.

Lemma mod_digit v n k : 0 <= k < n -> (v mod 256 ^ n / 256 ^ k) mod 256 = (v / 256 ^ k) mod 256.
Proof.
  intros H. assert (P : 0 < 256 ^ k) by (apply Z.pow_pos_nonneg; lia).
  assert (Q : 0 < 256 ^ (n - k - 1)) by (apply Z.pow_pos_nonneg; lia).
  assert (E : 256 ^ n = 256 ^ k * (256 * 256 ^ (n - k - 1))).
  { replace n with (k + (1 + (n - k - 1))) at 1 by lia. rewrite !Z.pow_add_r by lia. now rewrite Z.pow_1_r. }
  rewrite E. rewrite Z.rem_mul_r by lia.
  rewrite (Z.mul_comm (256 ^ k) ((v / 256 ^ k) mod _)), Z.div_add by lia.
  rewrite (Z.div_small (v mod 256 ^ k)) by (apply Z.mod_pos_bound; lia). rewrite Z.add_0_l.
  rewrite Z.rem_mul_r by lia.
  rewrite (Z.mul_comm 256), Z.mod_add by lia. apply Z.mod_mod. lia.
Qed.

Lemma pack_int_stored e c v b : pack_int e c v = Ok b -> stored_at e b 0 (ctype_size c) v.
Proof.
  intros H. destruct (pack_int_inv _ _ _ _ H) as (Hv & Hl & _). rewrite pack_int_ok in H by auto.
  apply (f_equal (fun r => match r with Ok x => x | Err _ => b end)) in H. cbv beta iota in H. subst b.
  pose proof (ctype_size_pos c) as Hs. split; [lia|]. split; [lia|]. intros k Hk.
  rewrite <- pow256 by lia. rewrite Z.add_0_l. unfold byte_at.
  destruct e; cbn [order_bytes].
  - rewrite le_bytes_nth by lia. rewrite Z2Nat.id by lia. now apply mod_digit.
  - rewrite rev_nth by (rewrite le_bytes_length; lia). rewrite le_bytes_length, le_bytes_nth by lia.
    replace (Z.of_nat (Z.to_nat (ctype_size c) - S (Z.to_nat (ctype_size c - 1 - k)))) with k by lia.
    now apply mod_digit.
Qed.

Lemma py_slice_zlen {A} (l : list A) a b : 0 <= a <= b -> b <= zlen l -> zlen (py_slice l a b) = b - a.
Proof. intros. unfold py_slice. rewrite zlen_firstn, zlen_skipn. lia. Qed.

Lemma nth_skipn {A} (l : list A) d : forall n i, nth i (skipn n l) d = nth (n + i) l d.
Proof.
  induction l as [|x l IH]; intros n i.
  - rewrite skipn_nil. now destruct i, n.
  - destruct n; cbn; auto.
Qed.
Lemma nth_firstn {A} (l : list A) d : forall n i, (i < n)%nat -> nth i (firstn n l) d = nth i l d.
Proof. induction l as [|x l IH]; intros [|n] [|i] H; cbn; auto; try lia. apply IH. lia. Qed.

Lemma byte_at_slice l a b i : 0 <= a -> 0 <= i < b - a -> byte_at (py_slice l a b) i = byte_at l (a + i).
Proof.
  intros Ha H. unfold byte_at, py_slice. rewrite nth_firstn by lia. rewrite nth_skipn. f_equal. lia.
Qed.

Lemma all_bytes_slice l a b : all_bytes l -> all_bytes (py_slice l a b).
Proof.
  unfold all_bytes, py_slice. intros H. rewrite Forall_forall in *. intros x Hx. apply H.
  apply (firstn_skipn (Z.to_nat a) l) || idtac. 
  rewrite <- (firstn_skipn (Z.to_nat a) l). apply in_or_app. right.
  rewrite <- (firstn_skipn (Z.to_nat (b - a)) (skipn (Z.to_nat a) l)). apply in_or_app. now left.
Qed.

(* stored bytes determine the slice *)
Lemma stored_slice e buf pos c v : in_ctype c v -> stored_at e buf pos (ctype_size c) v ->
  pack_int e c v = Ok (py_slice buf pos (pos + ctype_size c)).
Proof.
  intros Hv (P & L & H). pose proof (ctype_size_pos c) as Hs.
  destruct (pack_int e c v) as [b|] eqn:E; [|rewrite pack_int_ok in E by auto; discriminate].
  f_equal. destruct (pack_int_inv _ _ _ _ E) as (_ & Hl & _). destruct (pack_int_stored _ _ _ _ E) as (_ & _ & S).
  pose proof (py_slice_zlen buf pos (pos + ctype_size c) ltac:(lia) ltac:(lia)) as Hl'.
  apply nth_ext with 0 0; [unfold zlen in *; lia|].
  intros i Hi. set (j := Z.of_nat i). assert (Hj : 0 <= j < ctype_size c) by (unfold zlen in *; lia).
  pose proof (byte_at_slice buf pos (pos + ctype_size c) j ltac:(lia) ltac:(lia)) as Q.
  set (k := match e with Little => j | Big => ctype_size c - 1 - j end).
  assert (Hk : 0 <= k < ctype_size c) by (unfold k; destruct e; lia).
  specialize (H k Hk). specialize (S k Hk).
  replace (pos + match e with Little => k | Big => ctype_size c - 1 - k end) with (pos + j) in H by (unfold k; destruct e; lia).
  replace (0 + match e with Little => k | Big => ctype_size c - 1 - k end) with j in S by (unfold k; destruct e; lia).
  unfold byte_at in *. replace (Z.to_nat j) with i in * by lia. congruence.
Qed.

Lemma slice_stored e buf pos c : all_bytes buf -> 0 <= pos -> pos + ctype_size c <= zlen buf ->
  let v := unpack_int e c (py_slice buf pos (pos + ctype_size c)) in
  in_ctype c v /\ stored_at e buf pos (ctype_size c) v.
Proof.
  intros Hb Hp Hl v. pose proof (ctype_size_pos c) as Hs.
  destruct (pack_unpack_int e c (py_slice buf pos (pos + ctype_size c))) as (E & Hv).
  - now apply all_bytes_slice.
  - rewrite py_slice_zlen; lia.
  - fold v in E, Hv. split; auto. destruct (pack_int_stored _ _ _ _ E) as (_ & _ & S).
    split; [lia|]. split; [lia|]. intros k Hk. rewrite <- S by auto.
    rewrite byte_at_slice by (destruct e; lia). reflexivity.
Qed.

Lemma stored_unique e buf pos c v v' : in_ctype c v -> in_ctype c v' ->
  stored_at e buf pos (ctype_size c) v -> stored_at e buf pos (ctype_size c) v' -> v = v'.
Proof.
  intros Hv Hv' S S'. pose proof (stored_slice _ _ _ _ _ Hv S) as E. pose proof (stored_slice _ _ _ _ _ Hv' S') as E'.
  apply unpack_pack_int in E, E'. congruence.
Qed.

(* --- struct formats laid out over positions --- *)

Fixpoint laid_out (idx : Z) (items : list (Z * ctype)) (stop : Z) : Prop :=
  match items with
  | [] => idx <= stop
  | (o, c) :: r => idx <= o /\ laid_out (o + ctype_size c) r stop
  end.

Definition spans_of (items : list (Z * ctype)) : list interval := map (fun p => (fst p, fst p + ctype_size (snd p))) items.
Definition chunks_for (idx : Z) (items : list (Z * ctype)) (stop : Z) : list chunk :=
  format_chunks (compl_loop idx (spans_of items) stop) (map snd items).

Lemma laid_out_le idx items stop : laid_out idx items stop -> idx <= stop.
Proof.
  revert idx; induction items as [|[o c] r IH]; intros idx; cbn; auto. intros (A & B). apply IH in B.
  pose proof (ctype_size_pos c). lia.
Qed.

Lemma laid_out_In idx items stop o c : laid_out idx items stop -> In (o, c) items -> idx <= o /\ o + ctype_size c <= stop.
Proof.
  revert idx; induction items as [|[o' c'] r IH]; intros idx; cbn; [contradiction|]. intros (A & B) [E|H].
  - injection E as -> ->. split; auto. now apply laid_out_le in B.
  - destruct (IH _ B H). pose proof (ctype_size_pos c'). lia.
Qed.

Lemma struct_size_pad (a b : Z) l : a <= b ->
  struct_size ((if 0 <? b - a then [Pad (b - a)] else []) ++ l) = b - a + struct_size l.
Proof. intros H. unfold struct_size. destruct (0 <? b - a) eqn:E; cbn [app fold_right chunk_size]; lia. Qed.

Lemma chunks_for_size items : forall idx stop, laid_out idx items stop -> struct_size (chunks_for idx items stop) = stop - idx.
Proof.
  unfold chunks_for. induction items as [|[o c] r IH]; intros idx stop H.
  - cbn [spans_of map compl_loop format_chunks] in *. rewrite struct_size_pad by exact H. unfold struct_size. cbn [fold_right]. lia.
  - destruct H as (A & B). cbn [spans_of map compl_loop format_chunks fst snd].
    rewrite struct_size_pad by exact A.
    match goal with |- context [struct_size (Item c :: ?x)] => change (struct_size (Item c :: x)) with (ctype_size c + struct_size x) end.
    unfold spans_of in IH. rewrite (IH _ _ B). lia.
Qed.

Lemma struct_pack_pad e (a b : Z) l vs : a <= b ->
  struct_pack e ((if 0 <? b - a then [Pad (b - a)] else []) ++ l) vs =
  (do r <- struct_pack e l vs ;; Ok (zrepeat 0 (b - a) ++ r)).
Proof.
  intros H. destruct (0 <? b - a) eqn:E; cbn [app struct_pack]; auto.
  replace (b - a) with 0 by lia. destruct (struct_pack e l vs); reflexivity.
Qed.

Lemma struct_items_pad e (a b : Z) l buf : a <= b ->
  struct_items e ((if 0 <? b - a then [Pad (b - a)] else []) ++ l) buf = struct_items e l (skipn (Z.to_nat (b - a)) buf).
Proof.
  intros H. destruct (0 <? b - a) eqn:E; cbn [app struct_items]; auto.
  replace (b - a) with 0 by lia. reflexivity.
Qed.

(* packing succeeds exactly for the right number of storable values *)
Lemma struct_pack_chunks e items : forall idx stop vs, laid_out idx items stop ->
  (exists buf, struct_pack e (chunks_for idx items stop) vs = Ok buf /\
     length vs = length items /\ zlen buf = stop - idx /\ all_bytes buf /\
     (forall o c v, In ((o, c), v) (combine items vs) -> in_ctype c v /\ stored_at e buf (o - idx) (ctype_size c) v) /\
     (forall i, 0 <= i < stop - idx -> (forall o c, In (o, c) items -> ~ (o - idx <= i < o - idx + ctype_size c)) -> byte_at buf i = 0)) \/
  (struct_pack e (chunks_for idx items stop) vs = Err StructError /\
     (length vs <> length items \/ exists o c v, In ((o, c), v) (combine items vs) /\ ~ in_ctype c v)).
Proof.
  unfold chunks_for. induction items as [|[o c] r IH]; intros idx stop vs H.
  - cbn [spans_of map compl_loop format_chunks laid_out] in *. rewrite struct_pack_pad by exact H.
    destruct vs as [|v vs]; cbn [struct_pack bind]; [left|right; split; auto; left; cbn; lia].
    exists (zrepeat 0 (stop - idx) ++ []). rewrite app_nil_r. split; auto. split; auto.
    split; [apply zlen_zrepeat; lia|]. split.
    { unfold all_bytes, zrepeat. apply Forall_forall. intros x Hx. apply repeat_spec in Hx. lia. }
    split; [intros ? ? ? []|]. intros. apply byte_at_zeros.
  - destruct H as (A & B). cbn [spans_of map compl_loop format_chunks fst snd]. rewrite struct_pack_pad by exact A.
    cbn [struct_pack]. destruct vs as [|v vs]; [right; split; [reflexivity|left; cbn; lia]|].
    pose proof (ctype_size_pos c) as Hs. pose proof (laid_out_le _ _ _ B) as Hle.
    destruct (pack_int e c v) as [b|err] eqn:Ev; cbn [bind].
    + destruct (pack_int_inv _ _ _ _ Ev) as (Hv & Hlb & Hbb).
      specialize (IH _ stop vs B). unfold spans_of in IH. unfold interval in *.
      destruct IH as [(buf & E & Hl & Hz & Hb & Hst & Hg)|(E & Hbad)]; rewrite E; cbn [bind].
      * left. exists (zrepeat 0 (o - idx) ++ b ++ buf). split; auto. split; [cbn; lia|].
        assert (Zl : zlen (zrepeat 0 (o - idx)) = o - idx) by (apply zlen_zrepeat; lia).
        split; [rewrite !zlen_app, Zl; lia|]. split.
        { rewrite !all_bytes_app. split; [|auto]. unfold all_bytes, zrepeat. apply Forall_forall.
          intros x Hx. apply repeat_spec in Hx. lia. }
        split.
        { intros o' c' v' [Q|Q].
          - injection Q as -> -> ->. split; auto. set (z := zrepeat 0 (o' - idx)) in *. replace (o' - idx) with (zlen z + 0) by lia.
            apply stored_shift; [lia|]. apply stored_front. now apply pack_int_stored.
          - destruct (Hst _ _ _ Q) as (Hv' & S). split; auto.
            assert (In (o', c') r) by (eapply in_combine_l; exact Q).
            destruct (laid_out_In _ _ _ _ _ B H) as (P & _).
            replace (o' - idx) with (zlen (zrepeat 0 (o - idx)) + (zlen b + (o' - (o + ctype_size c)))) by lia.
            apply stored_shift; [lia|]. apply stored_shift; [lia|]. exact S. }
        intros i Hi Hn. destruct (Z.lt_ge_cases i (o - idx)).
        { rewrite byte_at_app1 by lia. apply byte_at_zeros. }
        rewrite byte_at_app2 by lia. rewrite Zl.
        destruct (Z.lt_ge_cases i (o - idx + ctype_size c)).
        { exfalso. apply (Hn o c); [now left|lia]. }
        rewrite byte_at_app2 by lia. rewrite Hlb. apply Hg; [lia|].
        intros o' c' Hin. specialize (Hn o' c' (or_intror Hin)). lia.
      * right. split; auto. destruct Hbad as [Hbad|(o' & c' & v' & Q & N)]; [left; cbn; lia|].
        right. exists o', c', v'. split; auto. now right.
    + right. assert (err = StructError).
      { unfold pack_int in Ev. destruct (_ && _); congruence. }
      subst. split; auto. right. exists o, c, v. split; [now left|]. intros Hv. rewrite pack_int_ok in Ev by auto. discriminate.
Qed.

Lemma skipn_skipn {A} (l : list A) : forall n m, skipn n (skipn m l) = skipn (m + n) l.
Proof.
  induction l as [|x l IH]; intros n m; [now rewrite !skipn_nil|]. destruct m; cbn; auto.
Qed.

Lemma struct_items_chunks e items : forall idx stop buf base, laid_out idx items stop -> 0 <= base ->
  struct_items e (chunks_for idx items stop) (skipn (Z.to_nat base) buf) =
  map (fun p => unpack_int e (snd p) (py_slice buf (base + (fst p - idx)) (base + (fst p - idx) + ctype_size (snd p)))) items.
Proof.
  unfold chunks_for. induction items as [|[o c] r IH]; intros idx stop buf base H Hb.
  - cbn [spans_of map compl_loop format_chunks laid_out] in *. rewrite struct_items_pad by exact H. reflexivity.
  - destruct H as (A & B). pose proof (ctype_size_pos c) as Hs.
    cbn [spans_of map compl_loop format_chunks fst snd]. rewrite struct_items_pad by exact A.
    rewrite skipn_skipn. replace (Z.to_nat base + Z.to_nat (o - idx))%nat with (Z.to_nat (base + (o - idx))) by lia.
    cbn [struct_items]. f_equal.
    + unfold py_slice. do 2 f_equal. lia.
    + rewrite skipn_skipn. replace (Z.to_nat (base + (o - idx)) + Z.to_nat (ctype_size c))%nat
        with (Z.to_nat (base + (o - idx) + ctype_size c)) by lia.
      unfold spans_of in IH. rewrite (IH _ stop buf _ B) by lia. apply map_ext. intros [o' c']. cbn [fst snd].
      f_equal. f_equal; lia.
Qed.
