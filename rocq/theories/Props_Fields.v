(* Theorems for C107-C109: field types, assignment to fields, derived formats. *)
From Coq Require Import String ZArith List Bool Lia.
From Verif Require Import Py PyFloat IbmFloat Spec_Ibm Packing Spec_Packing Formats FieldTypes Spec_Segy Spec_Fields FieldTypesFacts.
Import ListNotations.
Local Open Scope string_scope.
Open Scope list_scope.
Open Scope Z_scope.

(* ---------------- C107 ---------------- *)

Theorem C107_plain : forall (name : string) (t : int_type) (v : Z),
  accepts (int_field name t None None) v <-> type_range t v.
Proof. exact plain_range. Qed.
Print Assumptions C107_plain.

Theorem C107_bounds : forall (name : string) (t : int_type) (lo hi v : Z),
  accepts (int_field name t (Some lo) (Some hi)) v <-> lo <= v <= hi.
Proof. exact bounds_range. Qed.
Print Assumptions C107_bounds.

Theorem C107_enum : forall (name : string) (t : int_type) (members : list Z),
  (Forall (type_range t) members -> exists ft, enum_field name t members = Ok ft /\ forall v, accepts ft v <-> In v members) /\
  (~ Forall (type_range t) members -> enum_field name t members = Err ValueError).
Proof. exact enum_created. Qed.
Print Assumptions C107_enum.

(* Partial: of field types whose own bounds do not go beyond their C type. *)
Theorem C107_fits_partial : forall (t : ftype) (v : Z), declared t -> accepts t v -> in_ctype (ft_ctype t) v.
Proof. exact declared_fits. Qed.
Print Assumptions C107_fits_partial.

Theorem C107_packs_partial : forall (c : fmt) (e : endian) (p : packer) (h : header),
  class_ok c -> starts_ok c -> (forall f, is_field c f -> declared (fd_type f)) -> make_header_packer c e = Ok p ->
  h_cls h = c -> header_ok h ->
  (forall f g, is_field c f -> is_field c g -> fd_offset f = fd_offset g -> hdr_get h (fd_name f) = hdr_get h (fd_name g)) ->
  exists buf, pk_pack p h = Ok buf.
Proof. exact declared_packs. Qed.
Print Assumptions C107_packs_partial.

(* A field type can be given bounds that its C type does not have; a value
   accepted on assignment then makes packing fail, with struct.error. *)
Definition Wide16 : ftype := int_field "Wide16" IT_INT16 None (Some 100000).
Definition wide_format : fmt := mk_fmt [("Wide", [mk_field "count" Wide16 1 0])] 1 (Some 2) [].
Theorem C107_beyond_refuted :
  accepts Wide16 70000 /\ ~ in_ctype (ft_ctype Wide16) 70000 /\
  exists p h, make_header_packer wide_format Big = Ok p /\ hdr_init wide_format [] [("count", 70000)] = Ok h /\
    hdr_get h "count" = Ok 70000 /\ pk_pack p h = Err StructError.
Proof.
  split; [|split]. { unfold accepts. cbn. lia. } { cbn. lia. }
  eexists. eexists. split; [vm_compute; reflexivity|]. split; [vm_compute; reflexivity|]. split; vm_compute; reflexivity.
Qed.
Print Assumptions C107_beyond_refuted.

Example C107_example :
  declared (int_field "Percent" IT_NNINT8 (Some 0) (Some 100)) /\ declared (int_field "Small" IT_INT8 None None) /\
  (exists ft, enum_field "Kind" IT_INT8 [-1; 0; 7] = Ok ft /\ declared ft /\ accepts ft 7 /\ ~ accepts ft 1) /\
  enum_field "Kind" IT_NNINT8 [-1; 0; 7] = Err ValueError /\ enum_field "Kind" IT_INT8 [128] = Err ValueError.
Proof.
  split; [constructor; cbn; lia|]. split; [constructor|]. split; [|now split].
  eexists. split; [reflexivity|]. split; [apply (declared_enum "Kind" IT_INT8 [-1; 0; 7]); reflexivity|]. cbn. unfold accepts. cbn. lia.
Qed.

(* ---------------- C108 ---------------- *)

Theorem C108_assignment : forall (h : header) (f : fieldd) (v : real),
  class_ok (h_cls h) -> is_field (h_cls h) f -> number_ok v ->
  (exists k h', toward_zero v k /\ accepts (fd_type f) k /\ hdr_assign h (fd_name f) v = Ok h' /\ h_cls h' = h_cls h /\
     hdr_get h' (fd_name f) = Ok k /\ forall n, n <> fd_name f -> hdr_get h' n = hdr_get h n) \/
  (hdr_assign h (fd_name f) v = Err ValueError /\ forall k, toward_zero v k -> ~ accepts (fd_type f) k) \/
  (hdr_assign h (fd_name f) v = Err OverflowError /\ exists s, v = RFloat (S754_infinity s)).
Proof. exact assign_outcome. Qed.
Print Assumptions C108_assignment.

(* Partial: of numbers that are integers, whatever their type. *)
Theorem C108_exact_partial : forall (h : header) (f : fieldd) (v : real) (k : Z),
  class_ok (h_cls h) -> is_field (h_cls h) f -> number_ok v -> is_integer v k ->
  (accepts (fd_type f) k -> exists h', hdr_assign h (fd_name f) v = Ok h' /\ hdr_get h' (fd_name f) = Ok k /\
     forall n, n <> fd_name f -> hdr_get h' n = hdr_get h n) /\
  (~ accepts (fd_type f) k -> hdr_assign h (fd_name f) v = Err ValueError).
Proof. exact assign_integer. Qed.
Print Assumptions C108_exact_partial.

(* 3.75 is stored as 3 without a word, and -0.5 in a non-negative field as 0 *)
Theorem C108_fraction_refuted :
  exists h h' h'', hdr_init BinaryReelHeader [] [] = Ok h /\
    hdr_assign h "job_id_num" (RFloat (S754_finite false 8444249301319680 (-51))) = Ok h' /\ hdr_get h' "job_id_num" = Ok 3 /\
    units (S754_finite false 8444249301319680 (-51)) * 4 = 15 * unit /\
    hdr_assign h "num_samples" (RFloat (S754_finite true 4503599627370496 (-53))) = Ok h'' /\ hdr_get h'' "num_samples" = Ok 0.
Proof. do 3 eexists. do 5 (split; [vm_compute; reflexivity|]). vm_compute. reflexivity. Qed.
Print Assumptions C108_fraction_refuted.

(* A name that is no field, such as a misspelt one: nothing is raised, and no
   field changes. *)
Theorem C108_other : forall (h : header) (n : string) (v : real), class_ok (h_cls h) -> ~ has_field (h_cls h) n ->
  exists h', hdr_assign h n v = Ok h' /\ h_cls h' = h_cls h /\ forall f, is_field (h_cls h) f -> hdr_get h' (fd_name f) = hdr_get h (fd_name f).
Proof. exact assign_other. Qed.
Print Assumptions C108_other.

Example C108_example : exists h h', hdr_init BinaryReelHeader [] [] = Ok h /\
  hdr_assign h "num_samples" (RFloat (S754_finite false 7036874417766400 (-46))) = Ok h' /\ hdr_get h' "num_samples" = Ok 100 /\
  hdr_assign h "num_samples" (RIbm (W 66 100 0 0)) = Ok h' /\
  hdr_assign h "num_samples" (RInt 32768) = Err ValueError /\ hdr_assign h "num_samples" (RFloat S754_nan) = Err ValueError /\
  hdr_assign h "num_samples" (RFloat (S754_infinity false)) = Err OverflowError.
Proof. do 2 eexists. do 6 (split; [vm_compute; reflexivity|]). vm_compute. reflexivity. Qed.

(* ---------------- C109 ---------------- *)

Theorem C109_same : forall (name : string) (own : list fieldd) (base : fmt) (e : endian) (p q : packer) (buf : list Z) (h h' : header),
  class_ok base -> class_ok (derive name own base) -> starts_ok base -> starts_ok (derive name own base) ->
  has_coincident base \/ declared_in_order base -> has_coincident (derive name own base) \/ declared_in_order (derive name own base) ->
  make_header_packer base e = Ok p -> make_header_packer (derive name own base) e = Ok q -> all_bytes buf ->
  pk_unpack p buf = Ok h -> pk_unpack q buf = Ok h' ->
  (forall f, is_field base f -> ~ In (fd_name f) (map fd_name own) -> hdr_get h' (fd_name f) = hdr_get h (fd_name f)) /\
  (forall f, In f own -> exists v, hdr_get h' (fd_name f) = Ok v /\ in_ctype (ft_ctype (fd_type f)) v /\
     stored_at e buf (field_pos base f) (field_size f) v).
Proof. intros name own base e p q buf h h' A B C D E F H I J. exact (derived_same name own base e p q buf A B C D E F H I J h h'). Qed.
Print Assumptions C109_same.

Theorem C109_accepts : forall (name : string) (own : list fieldd) (base : fmt) (e : endian) (p q : packer) (buf : list Z),
  class_ok base -> class_ok (derive name own base) -> starts_ok base -> starts_ok (derive name own base) ->
  has_coincident base \/ declared_in_order base -> has_coincident (derive name own base) \/ declared_in_order (derive name own base) ->
  fmt_length base <> None ->
  make_header_packer base e = Ok p -> make_header_packer (derive name own base) e = Ok q -> all_bytes buf ->
  (forall h, pk_unpack p buf = Ok h ->
     (forall f v, In f own -> in_ctype (ft_ctype (fd_type f)) v -> stored_at e buf (field_pos base f) (field_size f) v -> accepts (fd_type f) v) ->
     exists h', pk_unpack q buf = Ok h') /\
  (forall h', pk_unpack q buf = Ok h' ->
     (forall f v, is_field base f -> In (fd_name f) (map fd_name own) -> in_ctype (ft_ctype (fd_type f)) v ->
        stored_at e buf (field_pos base f) (field_size f) v -> accepts (fd_type f) v) ->
     exists h, pk_unpack p buf = Ok h).
Proof.
  intros name own base e p q buf A B C D E F G H I J. split.
  - exact (derived_accepts name own base e p q buf A B C D E F G H I J).
  - exact (base_accepts name own base e p q buf A B C D E F G H I J).
Qed.
Print Assumptions C109_accepts.

Theorem C109_custom : forall (e : endian) (p q : packer) (buf : list Z),
  make_header_packer BinaryReelHeader e = Ok p -> make_header_packer CustomBinaryReelHeader e = Ok q -> all_bytes buf ->
  (forall h, pk_unpack p buf = Ok h -> exists h', pk_unpack q buf = Ok h' /\
     forall f, is_field BinaryReelHeader f -> hdr_get h' (fd_name f) = hdr_get h (fd_name f)) /\
  (forall h', pk_unpack q buf = Ok h' -> exists v, hdr_get h' "num_samples" = Ok v /\ 0 <= v < 2 ^ 16 /\ stored_at e buf 20 2 v /\
     (v < 2 ^ 15 -> exists h, pk_unpack p buf = Ok h) /\ (2 ^ 15 <= v -> pk_unpack p buf = Err ValueError)).
Proof. exact custom_reads. Qed.
Print Assumptions C109_custom.

(* the custom format can be given to create_reader: see C59, C83, C84 and the
   other theorems about any binary reel header format *)
Theorem C109_usable : binary_format CustomBinaryReelHeader.
Proof. exact custom_format. Qed.
Print Assumptions C109_usable.

Definition custom_buffer : list Z := repeat 0 20 ++ [156; 64] ++ repeat 0 2 ++ [0; 1] ++ repeat 0 374.
Example C109_example : exists p q h', make_header_packer BinaryReelHeader Big = Ok p /\ make_header_packer CustomBinaryReelHeader Big = Ok q /\
  all_bytes custom_buffer /\ pk_unpack q custom_buffer = Ok h' /\ hdr_get h' "num_samples" = Ok 40000 /\
  pk_unpack p custom_buffer = Err ValueError.
Proof.
  do 3 eexists. split; [vm_compute; reflexivity|]. split; [vm_compute; reflexivity|].
  split. { unfold all_bytes, custom_buffer. rewrite !Forall_app. repeat split; try (apply Forall_forall; intros x I; apply repeat_spec in I; subst; lia); repeat constructor; lia. }
  split; [vm_compute; reflexivity|]. split; vm_compute; reflexivity.
Qed.
