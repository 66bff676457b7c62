(* Proofs about the byte order of samples. *)
From Coq Require Import String ZArith List Bool Lia ZifyBool ZifyNat.
From Verif Require Import Py PyFloat IbmFloat Util Packing Formats FileIO Text TextIO Float32 Toolkit PyFacts Spec_Packing Spec_Segy
  PackFacts CompileFacts HeaderFacts PackingFacts TextIOFacts ToolkitFacts.
Import ListNotations.
Open Scope Z_scope.

Lemma map_res_mirror {A} (f g : A -> res (list Z)) l bs : (forall x b, f x = Ok b -> g x = Ok (rev b)) ->
  map_res f l = Ok bs -> map_res g l = Ok (map (@rev Z) bs).
Proof.
  intros H. revert bs. induction l as [|x l IH]; intros bs E; cbn in *.
  - injection E as <-. reflexivity.
  - destruct (f x) as [b|] eqn:F; [|discriminate]. cbn [bind] in E. destruct (map_res f l) as [cs|]; [|discriminate].
    cbn [bind] in E. injection E as <-. rewrite (H _ _ F). cbn [bind]. rewrite (IH _ eq_refl). reflexivity.
Qed.
Lemma pack_int_mirror c v b : pack_int Big c v = Ok b -> pack_int Little c v = Ok (rev b).
Proof.
  unfold pack_int. destruct (_ && _); [|discriminate]. intros [= <-]. cbn [order_bytes]. now rewrite rev_involutive.
Qed.
Lemma pack_int_zlen e c v b : pack_int e c v = Ok b -> zlen b = ctype_size c.
Proof. intros H. now destruct (pack_int_inv _ _ _ _ H) as (_ & ? & _). Qed.
Lemma map_res_Forall {A} (f : A -> res (list Z)) (P : list Z -> Prop) l bs : (forall x b, f x = Ok b -> P b) ->
  map_res f l = Ok bs -> Forall P bs /\ zlen bs = zlen l.
Proof.
  intros H. revert bs. induction l as [|x l IH]; intros bs E; cbn in *.
  - injection E as <-. auto.
  - destruct (f x) as [b|] eqn:F; [|discriminate]. cbn [bind] in E. destruct (map_res f l) as [cs|]; [|discriminate].
    cbn [bind] in E. injection E as <-. destruct (IH _ eq_refl). split; [constructor; eauto|]. unfold zlen in *. cbn [length]. lia.
Qed.

Lemma pack_samples_mirror t ss b : t <> T_IBM -> pack_samples Big (ctype_of t) ss = Ok b ->
  exists items, b = concat items /\ zlen items = zlen ss /\ Forall (fun i => zlen i = sample_size t) items /\
    pack_samples Little (ctype_of t) ss = Ok (concat (map (@rev Z) items)).
Proof.
  intros N E. unfold pack_samples in *.
  assert (IntC : forall c, sample_size t = ctype_size c ->
    (do bs <- map_res (pack_int_sample Big c) ss ;; Ok (concat bs)) = Ok b ->
    exists items, b = concat items /\ zlen items = zlen ss /\ Forall (fun i => zlen i = sample_size t) items /\
    (do bs <- map_res (pack_int_sample Little c) ss ;; Ok (concat bs)) = Ok (concat (map (@rev Z) items))).
  { intros c Es E'. destruct (map_res (pack_int_sample Big c) ss) as [items|] eqn:M; [|discriminate]. cbn [bind] in E'. injection E' as <-.
    exists items. split; [reflexivity|].
    assert (HF : forall x b, pack_int_sample Big c x = Ok b -> zlen b = sample_size t).
    { intros x y H. rewrite Es. destruct x; cbn in H; try discriminate H. eapply pack_int_zlen; exact H. }
    destruct (map_res_Forall _ _ _ _ HF M) as (F & L).
    split; [exact L|]. split; [exact F|].
    erewrite map_res_mirror; [reflexivity| |exact M]. intros [f|n|w] x; cbn; try discriminate. apply pack_int_mirror. }
  destruct t; cbn [ctype_of] in *; try congruence; try (apply IntC; [reflexivity|exact E]).
  destruct (map_res (f32_pack Big) ss) as [items|] eqn:M; [|discriminate]. cbn [bind] in E. injection E as <-.
  exists items. split; [reflexivity|].
  assert (HF : forall x b, f32_pack Big x = Ok b -> zlen b = sample_size T_FLOAT32).
  { intros x y H. unfold f32_pack in H. destruct (as_double x) as [f|]; [|discriminate]. cbn [bind] in H.
    destruct (f32_encode f) as [w|]; [|discriminate]. cbn [bind] in H. apply (pack_int_zlen _ _ _ _ H). }
  destruct (map_res_Forall _ _ _ _ HF M) as (F & L).
  split; [exact L|]. split; [exact F|].
  erewrite map_res_mirror; [reflexivity| |exact M]. intros x y. unfold f32_pack.
  destruct (as_double x) as [f|]; [|discriminate]. cbn [bind]. destruct (f32_encode f) as [w|]; [|discriminate]. cbn [bind].
  apply pack_int_mirror.
Qed.

Lemma write_fresh ss t e f' : write_binary_values ss t e (mk_file [] 0) = (Ok tt, f') ->
  pack_samples e (ctype_of t) ss = Ok (f_data f').
Proof.
  unfold write_binary_values, ibind, lift. destruct (pack_samples e (ctype_of t) ss) as [b|]; [|discriminate].
  unfold write. destruct b as [|x b]; [intros [= <-]; reflexivity|].
  intros [= <-]. cbn [f_data f_pos]. f_equal. unfold write_at. cbn [f_data f_pos].
  change (Z.to_nat 0) with 0%nat. cbn [firstn app]. rewrite skipn_nil, app_nil_r. reflexivity.
Qed.
Lemma write_fresh_ok ss t e b : pack_samples e (ctype_of t) ss = Ok b ->
  exists f', write_binary_values ss t e (mk_file [] 0) = (Ok tt, f') /\ f_data f' = b.
Proof.
  intros E. unfold write_binary_values, ibind, lift. rewrite E. unfold write. destruct b as [|x b]; [eexists; split; reflexivity|].
  eexists. split; [reflexivity|]. cbn [f_data f_pos]. unfold write_at.
  change (Z.to_nat 0) with 0%nat. cbn [firstn app]. rewrite skipn_nil, app_nil_r. reflexivity.
Qed.

Lemma write_mirror t ss f1 : t <> T_IBM -> write_binary_values ss t Big (mk_file [] 0) = (Ok tt, f1) ->
  exists f2 items, write_binary_values ss t Little (mk_file [] 0) = (Ok tt, f2) /\
    zlen items = zlen ss /\ Forall (fun i => zlen i = sample_size t) items /\
    f_data f1 = concat items /\ f_data f2 = concat (map (@rev Z) items).
Proof.
  intros N E. apply write_fresh in E. destruct (pack_samples_mirror t ss _ N E) as (items & Ec & L & F & E2).
  destruct (write_fresh_ok _ _ _ _ E2) as (f2 & W & D). exists f2, items. auto.
Qed.

Lemma unpack_int_mirror c b : unpack_int Little c (rev b) = unpack_int Big c b.
Proof. reflexivity. Qed.
Lemma unpack_int_mirror' c b : unpack_int Big c (rev b) = unpack_int Little c b.
Proof. unfold unpack_int. cbn [order_bytes]. now rewrite rev_involutive. Qed.

Lemma concat_len (items : list (list Z)) n : Forall (fun i => zlen i = n) items -> zlen (concat items) = zlen items * n.
Proof.
  induction 1 as [|i items H F IH]; cbn [concat]; [reflexivity|]. rewrite zlen_app, zlen_cons, IH, H. lia.
Qed.
Lemma rev_items (items : list (list Z)) n : Forall (fun i => zlen i = n) items -> Forall (fun i => zlen i = n) (map (@rev Z) items).
Proof.
  intros F. apply Forall_forall. intros i I. apply in_map_iff in I. destruct I as (j & <- & I). rewrite Forall_forall in F.
  rewrite <- (F j I). unfold zlen. now rewrite rev_length.
Qed.
Lemma unpack_values_mirror native c items : Forall (fun i => zlen i = ctype_size c) items ->
  unpack_values native Big c (concat items) = unpack_values native Little c (concat (map (@rev Z) items)).
Proof.
  intros F. pose proof (ctype_size_pos c) as P. pose proof (rev_items _ _ F) as F'.
  unfold unpack_values. rewrite (concat_len _ _ F), (concat_len _ _ F').
  rewrite !Z.mod_mul by lia. cbn [Z.eqb negb].
  assert (G : forall l, Forall (fun i : list Z => zlen i = ctype_size c) l -> Forall (fun b : list Z => length b = Z.to_nat (ctype_size c)) l).
  { intros l Fl. eapply Forall_impl; [|exact Fl]. intros a Ha. cbn in Ha. unfold zlen in Ha. lia. }
  rewrite !chunks_of_concat; auto; try lia.
  f_equal. destruct native; cbn [endian_eqb]; rewrite !map_map; apply map_ext; intros i.
  - rewrite ?rev_involutive. rewrite ?unpack_int_mirror, ?unpack_int_mirror'; reflexivity.
  - rewrite ?rev_involutive. rewrite ?unpack_int_mirror, ?unpack_int_mirror'; reflexivity.
Qed.
Lemma unpack_samples_mirror native t items n : t <> T_IBM -> Forall (fun i => zlen i = sample_size t) items ->
  unpack_samples native Big (ctype_of t) (concat items) n = unpack_samples native Little (ctype_of t) (concat (map (@rev Z) items)) n.
Proof.
  intros N F. destruct t; cbn [ctype_of unpack_samples]; try congruence; f_equal; apply unpack_values_mirror; exact F.
Qed.

Lemma py_slice_all' (d : list Z) n : n = zlen d -> py_slice d 0 (0 + n) = d.
Proof. intros ->. unfold py_slice. cbn [skipn Z.to_nat]. rewrite Z.sub_0_r, Z.add_0_l, zlen_to_nat. apply firstn_all. Qed.
Lemma read_values_fst native t n e d : 0 <= n -> zlen d = sample_size t * n ->
  fst (read_binary_values native (Some 0) t n e (mk_file d 0)) =
  (do v <- unpack_samples native e (ctype_of t) d n ;; if zlen v =? n then Ok v else Err AssertionError).
Proof.
  intros Hn HL. pose proof (sample_size_pos t). unfold read_binary_values. rewrite ctype_of_size.
  erewrite ibind_ok by reflexivity. erewrite ibind_ok by (apply seek_ok; lia).
  erewrite ibind_ok by (apply read_opt_some; [nia|lia]). cbn [f_data].
  rewrite py_slice_all' by lia.
  destruct (zlen d <? sample_size t * n) eqn:E; [lia|].
  unfold ibind, lift. destruct (unpack_samples native e (ctype_of t) d n) as [v|]; [|reflexivity]. cbn [bind].
  destruct (zlen v =? n); reflexivity.
Qed.
Lemma read_mirror native t items : t <> T_IBM -> Forall (fun i => zlen i = sample_size t) items ->
  fst (read_binary_values native (Some 0) t (zlen items) Little (mk_file (concat (map (@rev Z) items)) 0)) =
  fst (read_binary_values native (Some 0) t (zlen items) Big (mk_file (concat items) 0)).
Proof.
  intros N F. pose proof (rev_items _ _ F) as F'. pose proof (zlen_nonneg items).
  rewrite !read_values_fst; try lia.
  - now rewrite (unpack_samples_mirror native t items (zlen items) N F).
  - rewrite (concat_len _ _ F). lia.
  - rewrite (concat_len _ _ F'). unfold zlen. rewrite map_length. lia.
Qed.

Lemma ibm_write_order ss e f : write_binary_values ss T_IBM e f = write_binary_values ss T_IBM Big f.
Proof. reflexivity. Qed.
Lemma ibm_read_order native pos n e f : read_binary_values native pos T_IBM n e f = read_binary_values native pos T_IBM n Big f.
Proof. reflexivity. Qed.
