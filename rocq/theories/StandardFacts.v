(* Proofs about the values and positions of the fields of the shipped formats
   and about the other attributes of a pickled header. *)
From Coq Require Import String ZArith List Bool Lia ZifyBool ZifyNat.
From Verif Require Import Py Util Packing Formats PyFacts Spec_Packing Spec_Standard Spec_Values PackFacts CompileFacts
  HeaderFacts PackingFacts FormatFacts.
Import ListNotations.
Local Open Scope string_scope.
Open Scope list_scope.
Open Scope Z_scope.

Definition span (a b : Z) : list Z := map (fun i => a + Z.of_nat i) (seq 0 (Z.to_nat (b - a))).
Lemma span_In a b v : a <= v < b -> In v (span a b).
Proof.
  intros H. apply in_map_iff. exists (Z.to_nat (v - a)). split; [lia|]. apply in_seq. lia.
Qed.

Definition in_values_b (vs : values) (v : Z) : bool :=
  match vs with Between a b => (a <=? v) && (v <=? b) | OneOf l => zmem v l end.
Lemma in_values_b_spec vs v : in_values_b vs v = true <-> in_values vs v.
Proof. destruct vs; cbn; [lia|apply zmem_In]. Qed.

Definition accepts_b (t : ftype) (v : Z) : bool :=
  match ft_enum t with Some l => zmem v l | None => (ft_min t <=? v) && (v <=? ft_max t) end.
Lemma accepts_b_spec t v : accepts_b t v = true <-> accepts t v.
Proof. unfold accepts_b, accepts. destruct (ft_enum t); [apply zmem_In|lia]. Qed.

(* all of vs is accepted *)
Definition takes_all (t : ftype) (vs : values) : bool :=
  match vs, ft_enum t with
  | OneOf l, _ => forallb (accepts_b t) l
  | Between a b, None => (ft_min t <=? a) && (b <=? ft_max t)
  | Between a b, Some _ => forallb (accepts_b t) (span a (b + 1))
  end.
Lemma takes_all_spec t vs : takes_all t vs = true -> forall v, in_values vs v -> accepts t v.
Proof.
  unfold takes_all. destruct vs as [a b|l].
  - destruct (ft_enum t) eqn:E.
    + rewrite forallb_forall. intros H v Hv. apply accepts_b_spec, H, span_In. cbn in Hv. lia.
    + intros H v Hv. unfold accepts. rewrite E. cbn in Hv. lia.
  - rewrite forallb_forall. intros H v Hv. apply accepts_b_spec, H. exact Hv.
Qed.

Definition extra_codes : list (string * Z) :=
  [("elevation_scalar", -1); ("xy_scalar", -1); ("time_scalar", -1);
   ("hour_of_day", 24); ("minute_of_hour", 60); ("second_of_minute", 60)].
Definition tolerated_b (n : string) (v : Z) : bool :=
  (v =? 0) || existsb (fun p => String.eqb (fst p) n && (snd p =? v)) extra_codes.
Lemma tolerated_b_spec n v : tolerated_b n v = true -> tolerated n v.
Proof.
  unfold tolerated_b, tolerated. rewrite orb_true_iff, existsb_exists. intros [H|((m & w) & I & H)]; [left; lia|].
  cbn [fst snd] in H. apply andb_true_iff in H. destruct H as (H1 & H2).
  apply String.eqb_eq in H1. apply Z.eqb_eq in H2. subst. right. exact I.
Qed.

(* nothing else is accepted *)
Definition takes_only (n : string) (t : ftype) (vs : values) : bool :=
  match ft_enum t, vs with
  | Some l, _ => forallb (fun v => in_values_b vs v || tolerated_b n v) l
  | None, Between a b => forallb (tolerated_b n) (span (ft_min t) a) && forallb (tolerated_b n) (span (b + 1) (ft_max t + 1))
  | None, OneOf _ => false
  end.
Lemma takes_only_spec n t vs : takes_only n t vs = true -> forall v, accepts t v -> in_values vs v \/ tolerated n v.
Proof.
  unfold takes_only, accepts. destruct (ft_enum t) as [l|].
  - rewrite forallb_forall. intros H v Hv. specialize (H v Hv). apply orb_true_iff in H.
    destruct H as [H|H]; [left; now apply in_values_b_spec|right; now apply tolerated_b_spec].
  - destruct vs as [a b|]; [|discriminate]. rewrite andb_true_iff, !forallb_forall. intros (H1 & H2) v Hv. cbn.
    destruct (Z_lt_dec v a); [right; apply tolerated_b_spec, H1, span_In; lia|].
    destruct (Z_lt_dec b v); [right; apply tolerated_b_spec, H2, span_In; lia|]. left. lia.
Qed.


Definition all_taken (c : fmt) (tab : list (string * values)) : bool :=
  forallb (fun p => smem (fst p) refused ||
    match class_field c (fst p) with Some f => takes_all (fd_type f) (snd p) | None => false end) tab.
Definition only_taken (c : fmt) (tab : list (string * values)) : bool :=
  forallb (fun p => match class_field c (fst p) with
    | Some f => takes_only (fst p) (fd_type f) (snd p) | None => false end) tab.

Lemma all_taken_spec c tab : class_ok c -> all_taken c tab = true -> forall n vs, In (n, vs) tab -> ~ In n refused ->
  exists f, is_field c f /\ fd_name f = n /\ forall v, in_values vs v -> accepts (fd_type f) v.
Proof.
  intros K H n vs I N. unfold all_taken in H. rewrite forallb_forall in H. specialize (H _ I). cbn [fst snd] in H.
  apply orb_true_iff in H. destruct H as [H|H]; [apply smem_In in H; contradiction|].
  destruct (class_field c n) as [f|] eqn:F; [|discriminate].
  apply class_field_spec in F; [|now apply class_ok_levels]. destruct F as (F & En).
  exists f. split; [exact F|]. split; [exact En|]. now apply takes_all_spec.
Qed.
Lemma only_taken_spec c tab : class_ok c -> only_taken c tab = true -> forall n vs f, In (n, vs) tab ->
  is_field c f -> fd_name f = n -> forall v, accepts (fd_type f) v -> in_values vs v \/ tolerated n v.
Proof.
  intros K H n vs f I Hf <-. unfold only_taken in H. rewrite forallb_forall in H. specialize (H _ I). cbn [fst snd] in H.
  rewrite (is_field_class c f K Hf) in H. now apply takes_only_spec.
Qed.

Lemma binary_ok : class_ok BinaryReelHeader.
Proof. apply shipped_ok. now left. Qed.
Lemma rev0_ok : class_ok TraceHeaderRev0.
Proof. apply shipped_ok. right. now left. Qed.
Lemma rev1_ok : class_ok TraceHeaderRev1.
Proof. apply shipped_ok. right. right. now left. Qed.


Lemma standard_accepted c tab n vs : table_of c tab -> In (n, vs) tab -> ~ In n refused ->
  exists f, is_field c f /\ fd_name f = n /\ forall v, in_values vs v -> accepts (fd_type f) v.
Proof.
  intros [(-> & ->)|(-> & ->)]; apply all_taken_spec; try apply binary_ok; try apply rev1_ok; vm_compute; reflexivity.
Qed.
Lemma standard_only c tab n vs f v : table_of c tab -> In (n, vs) tab -> is_field c f -> fd_name f = n ->
  accepts (fd_type f) v -> in_values vs v \/ tolerated n v.
Proof.
  intros T I Hf En. revert v.
  destruct T as [(-> & ->)|(-> & ->)];
  (eapply only_taken_spec; [| |exact I|exact Hf|exact En]); try apply binary_ok; try apply rev1_ok; vm_compute; reflexivity.
Qed.

Lemma tolerated_taken f v : is_field TraceHeaderRev1 f -> tolerated (fd_name f) v -> v <> 0 -> accepts (fd_type f) v.
Proof.
  intros Hf [T|T] N; [contradiction|].
  assert (H : forallb (fun p => match class_field TraceHeaderRev1 (fst p) with Some g => accepts_b (fd_type g) (snd p) | None => false end)
    extra_codes = true) by (vm_compute; reflexivity).
  rewrite forallb_forall in H. specialize (H _ T). cbn [fst snd] in H.
  rewrite (is_field_class _ f rev1_ok Hf) in H. apply accepts_b_spec. exact H.
Qed.

Lemma standard_refused : exists f g, is_field BinaryReelHeader f /\ is_field TraceHeaderRev1 g /\
  In (fd_name f, OneOf [1; 2; 3; 4; 5; 8]) standard_binary_values /\ ~ accepts (fd_type f) 4 /\
  In (fd_name g, any32) standard_trace_values /\ forall v, v < 0 -> ~ accepts (fd_type g) v.
Proof.
  exists (mk_field "data_sample_format" DataSampleFormatField 3225 5), (mk_field "datum_elevation_at_receiver_group" NNInt32 53 0).
  split; [apply class_field_spec with (n := "data_sample_format"); [apply class_ok_levels, binary_ok|vm_compute; reflexivity]|].
  split; [apply class_field_spec with (n := "datum_elevation_at_receiver_group"); [apply class_ok_levels, rev1_ok|vm_compute; reflexivity]|].
  split; [right; left; reflexivity|]. split; [cbn; intuition discriminate|].
  split; [do 5 right; left; reflexivity|]. intros v Hv. unfold accepts. cbn. lia.
Qed.

(* --- defaults --- *)
Definition default_of (tab : list (string * Z)) (n : string) : Z := match assoc n tab with Some v => v | None => 0 end.
Lemma defaults_gen c tab : class_ok c -> NoDup (map fst tab) ->
  forallb (fun f => fd_default f =? default_of tab (fd_name f)) (class_fields c) = true ->
  forall f, is_field c f -> In (fd_name f, fd_default f) tab \/ (~ In (fd_name f) (map fst tab) /\ fd_default f = 0).
Proof.
  intros K N H f Hf. rewrite forallb_forall in H. apply (class_fields_In c f (class_ok_levels _ K)) in Hf. specialize (H f Hf).
  apply Z.eqb_eq in H. unfold default_of in H. destruct (assoc (fd_name f) tab) as [v|] eqn:A.
  - left. unfold assoc in A. destruct (find _ tab) as [p|] eqn:F; [|discriminate]. injection A as <-.
    apply find_some in F. destruct F as (I & E). apply String.eqb_eq in E. destruct p as (n & w). cbn in *. subst. exact I.
  - right. split; [|exact H]. intros I. apply in_map_iff in I. destruct I as (p & E & I).
    unfold assoc in A. destruct (find _ tab) as [q|] eqn:F; [discriminate|].
    pose proof (find_none _ _ F p I) as Q. cbn in Q. rewrite E in Q. rewrite String.eqb_refl in Q. discriminate.
Qed.
Lemma shipped_defaults : 
  (forall f, is_field BinaryReelHeader f -> In (fd_name f, fd_default f) nonzero_defaults_binary \/
     (~ In (fd_name f) (map fst nonzero_defaults_binary) /\ fd_default f = 0)) /\
  (forall f, is_field TraceHeaderRev1 f -> In (fd_name f, fd_default f) nonzero_defaults_trace \/
     (~ In (fd_name f) (map fst nonzero_defaults_trace) /\ fd_default f = 0)).
Proof.
  split; apply defaults_gen; try apply binary_ok; try apply rev1_ok; try (vm_compute; reflexivity);
  cbn; repeat constructor; cbn; intuition discriminate.
Qed.

(* --- positions --- *)
Lemma shipped_packed c t fb e p h buf n a b v : standard_table c t -> first_byte c fb -> In (n, a, b) t ->
  n <> "source_energy_direction" ->
  make_header_packer c e = Ok p -> h_cls h = c -> pk_pack p h = Ok buf -> hdr_get h n = Ok v ->
  stored_at e buf (a - fb) (b - a + 1) v.
Proof.
  intros T B I N M Hc P G.
  assert (Sh : In c shipped) by (destruct T as [(-> & _)|[(-> & _)|(-> & _)]]; cbn; auto).
  destruct (shipped_ok c Sh) as (K & _ & S & _).
  destruct (pack_layout c e p h buf K S M Hc P) as (_ & _ & L & _).
  assert (F : exists f, is_field c f /\ fd_name f = n /\ fd_offset f = a /\ fd_offset f + field_size f - 1 = b).
  { destruct T as [(-> & ->)|[(-> & ->)|(-> & ->)]].
    - now apply (proj2 binary_table_iff).
    - now apply (proj2 rev0_table_iff).
    - destruct (proj2 rev1_table_iff n a b I) as (f & Hf & En & Ea & Eb). exists f. auto. }
  destruct F as (f & Hf & En & Ea & Eb). destruct (L f Hf) as (w & Gw & St).
  rewrite En in Gw. rewrite G in Gw. injection Gw as <-.
  assert (Es : fmt_start c = fb).
  { destruct B as [(-> & ->)|([->| ->] & ->)]; reflexivity. }
  unfold field_pos in St. rewrite Es, Ea in St. replace (b - a + 1) with (field_size f) by lia. exact St.
Qed.

(* --- other attributes of a header survive pickling --- *)
Lemma assoc_set_same n v l : assoc n (assoc_set n v l) = Some v.
Proof.
  unfold assoc. induction l as [|(k, w) l IH]; cbn; [now rewrite String.eqb_refl|].
  destruct (String.eqb k n) eqn:E; cbn; [now rewrite String.eqb_refl|]. rewrite E. exact IH.
Qed.
Lemma assoc_set_other n m v l : n <> m -> assoc n (assoc_set m v l) = assoc n l.
Proof.
  intros N. unfold assoc. induction l as [|(k, w) l IH]; cbn.
  - destruct (String.eqb m n) eqn:E; [apply String.eqb_eq in E; congruence|reflexivity].
  - destruct (String.eqb k m) eqn:E; cbn.
    + apply String.eqb_eq in E. subst. destruct (String.eqb m n) eqn:E2; [apply String.eqb_eq in E2; congruence|reflexivity].
    + destruct (String.eqb k n); [reflexivity|exact IH].
Qed.
Lemma assoc_update n u : NoDup (map fst u) -> forall d,
  assoc n (dict_update d u) = match assoc n u with Some v => Some v | None => assoc n d end.
Proof.
  unfold dict_update. induction u as [|(k, v) u IH]; intros N d; [reflexivity|].
  cbn [fold_left fst snd]. inversion N as [|? ? N1 N2]; subst. rewrite (IH N2).
  destruct (String.eqb k n) eqn:E.
  - apply String.eqb_eq in E. subst k. rewrite assoc_set_same. unfold assoc at 2. cbn. rewrite String.eqb_refl. cbn.
    destruct (assoc n u) as [w|] eqn:A; [|reflexivity]. exfalso. apply N1.
    unfold assoc in A. destruct (find _ u) as [p|] eqn:F; [|discriminate]. apply find_some in F. destruct F as (I & Q).
    apply String.eqb_eq in Q. subst n. apply in_map. exact I.
  - rewrite assoc_set_other by (intros ->; rewrite String.eqb_refl in E; discriminate).
    unfold assoc at 3. cbn. rewrite E. reflexivity.
Qed.

Lemma fold_set_extra attrs : forall h h',
  fold_left (fun r p => do h <- r ;; hdr_set h (fst p) (snd p)) attrs (Ok h) = Ok h' ->
  (forall n v, In (n, v) attrs -> class_field (h_cls h) n <> None) -> h_extra h' = h_extra h /\ h_cls h' = h_cls h.
Proof.
  induction attrs as [|(n, v) attrs IH]; intros h h' E H; cbn [fold_left bind fst snd] in E.
  - injection E as <-. auto.
  - assert (Hn : class_field (h_cls h) n <> None) by (apply (H n v); now left).
    unfold hdr_set in E at 2. destruct (class_field (h_cls h) n) as [f|] eqn:F; [|congruence].
    destruct (ft_new (fd_type f) v) as [v'|x] eqn:Fv; cbn [bind] in E.
    + destruct (IH _ _ E) as (A & B); [intros m w I; cbn; apply (H m w); now right|]. split; [exact A|exact B].
    + exfalso. clear -E. induction attrs as [|p attrs IHa]; [discriminate|]. cbn [fold_left bind] in E. auto.
Qed.

Lemma pickle_extra h h' n : NoDup (map fst (h_extra h)) -> class_ok (h_cls h) -> fmt_levels (h_cls h) <> [] ->
  hdr_pickle h = Ok h' -> (forall f, is_field (h_cls h) f -> fd_name f <> n) -> hdr_get h' n = hdr_get h n.
Proof.
  intros N K NE E NF.
  assert (CF : class_field (h_cls h) n = None).
  { destruct (class_field (h_cls h) n) as [f|] eqn:F; [|reflexivity].
    apply class_field_spec in F; [|now apply class_ok_levels]. destruct F as (Hf & En). destruct (NF f Hf En). }
  unfold hdr_pickle, hdr_getstate, hdr_setstate in E.
  destruct (map_res (hdr_get h) (own_field_names (h_cls h))) as [vs|x] eqn:V; [|discriminate]. cbn [bind] in E.
  destruct (fold_left _ _ _) as [h1|x] eqn:F; [|discriminate]. cbn [bind] in E. injection E as <-.
  apply fold_set_extra in F.
  - destruct F as (Fx & _). cbn in Fx. unfold hdr_get. cbn [h_cls h_extra]. rewrite CF, Fx, assoc_update by exact N.
    destruct (assoc n (h_extra h)); reflexivity.
  - intros m w I. cbn [h_cls]. apply in_combine_l in I. unfold own_field_names in I.
    destruct (exists_last NE) as (ls & l & El). rewrite El, last_last in I. apply in_map_iff in I. destruct I as (f & <- & Hf).
    rewrite (is_field_class (h_cls h) f K); [discriminate|]. exists ls, l, []. split; [exact El|]. split; [exact Hf|]. intros ? ? [].
Qed.

(* --- zero, for "not given" --- *)
Definition zero_split (c : fmt) (names : list string) : bool :=
  forallb (fun f => Bool.eqb (accepts_b (fd_type f) 0) (negb (smem (fd_name f) names))) (class_fields c).
Lemma zero_split_spec c names f : class_ok c -> zero_split c names = true -> is_field c f ->
  (accepts (fd_type f) 0 <-> ~ In (fd_name f) names).
Proof.
  intros K H F. unfold zero_split in H. rewrite forallb_forall in H.
  apply (class_fields_In c f (class_ok_levels _ K)) in F. specialize (H _ F). apply eqb_prop in H.
  rewrite <- accepts_b_spec, H, <- smem_In. destruct (smem (fd_name f) names); cbn; intuition discriminate.
Qed.
Lemma zero_taken c f : In c [BinaryReelHeader; TraceHeaderRev0; TraceHeaderRev1] -> is_field c f ->
  (accepts (fd_type f) 0 <-> ~ In (fd_name f) ["data_use"; "correlated"; "data_sample_format"]).
Proof.
  intros [<-|[<-|[<-|[]]]]; apply zero_split_spec; try apply binary_ok; try apply rev0_ok; try apply rev1_ok; vm_compute; reflexivity.
Qed.
