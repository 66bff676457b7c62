(* Properties C15-C27, C76, C77: header fields, header formats and packing. *)
From Coq Require Import String ZArith List Bool.
From Verif Require Import Py Util Packing Formats Spec_Packing Spec_Standard CompileFacts PackFacts HeaderFacts PackingFacts FormatFacts.
Import ListNotations.
Open Scope Z_scope.
Local Open Scope string_scope.
Local Open Scope list_scope.

(* ---------------- C15 ---------------- *)

Theorem C15_field_assignment : forall (h : header) (f : fieldd) (v : Z), class_ok (h_cls h) -> is_field (h_cls h) f ->
  (accepts (fd_type f) v -> exists h', hdr_set h (fd_name f) v = Ok h' /\ h_cls h' = h_cls h /\
     hdr_get h' (fd_name f) = Ok v /\ forall n, n <> fd_name f -> hdr_get h' n = hdr_get h n) /\
  (~ accepts (fd_type f) v -> hdr_set h (fd_name f) v = Err ValueError).
Proof. exact set_get. Qed.
Print Assumptions C15_field_assignment.

Theorem C15_ranges : forall v : Z,
  (accepts Int16 v <-> - 2 ^ 15 <= v < 2 ^ 15) /\ (accepts NNInt16 v <-> 0 <= v < 2 ^ 15) /\
  (accepts Int32 v <-> - 2 ^ 31 <= v < 2 ^ 31) /\ (accepts NNInt32 v <-> 0 <= v < 2 ^ 31).
Proof. exact base_ranges. Qed.
Print Assumptions C15_ranges.

Example C15_example : exists h, hdr_init BinaryReelHeader [] [("num_samples", 32767)] = Ok h /\
  hdr_set h "num_samples" 32768 = Err ValueError /\ hdr_set h "data_sample_format" 4 = Err ValueError /\
  (exists h', hdr_set h "data_sample_format" 8 = Ok h' /\ hdr_get h' "data_sample_format" = Ok 8 /\ hdr_get h' "num_samples" = Ok 32767).
Proof. eexists. do 3 (split; [vm_compute; reflexivity|]). eexists. do 2 (split; [vm_compute; reflexivity|]). vm_compute. reflexivity. Qed.

(* ---------------- C16 ---------------- *)

Theorem C16_layout : forall (c : fmt) (e : endian) (p : packer) (h : header) (buf : list Z),
  class_ok c -> starts_ok c -> make_header_packer c e = Ok p -> h_cls h = c -> pk_pack p h = Ok buf ->
  header_length c (zlen buf) /\ all_bytes buf /\
  (forall f, is_field c f -> exists v, hdr_get h (fd_name f) = Ok v /\ stored_at e buf (field_pos c f) (field_size f) v) /\
  (forall i, 0 <= i < zlen buf -> ~ covered c i -> byte_at buf i = 0).
Proof. exact pack_layout. Qed.
Print Assumptions C16_layout.

Example C16_example : exists p h, make_header_packer shared Little = Ok p /\
  hdr_init shared [] [("x", -2); ("y", -2); ("z", 258)] = Ok h /\ pk_pack p h = Ok [254; 255; 0; 0; 2; 1; 0; 0; 0; 0; 0; 0].
Proof. eexists. eexists. do 2 (split; [vm_compute; reflexivity|]). vm_compute. reflexivity. Qed.

(* ---------------- C17 ---------------- *)

Theorem C17_compile_decides : forall (c : fmt) (start : Z) (length : option Z),
  (forall l, In l (fmt_levels c) -> NoDup (map fd_name (snd l))) ->
  (compile_struct c start length = Err ValueError <-> layout_invalid c start length) /\
  (compile_struct c start length = Err TypeError <-> ~ layout_invalid c start length /\ types_invalid c) /\
  ((exists r, compile_struct c start length = Ok r) <-> ~ layout_invalid c start length /\ ~ types_invalid c).
Proof. exact compile_iff. Qed.
Print Assumptions C17_compile_decides.

Example C17_example :
  compile_struct (mk_fmt [("A", [mk_field "b" Int16 3 0; mk_field "a" Int32 1 0])] 1 None []) 1 None = Err ValueError /\
  compile_struct (mk_fmt [("A", [mk_field "b" Int16 3 0; mk_field "a" Int16 1 0])] 1 None []) 1 (Some 3) = Err ValueError /\
  compile_struct (mk_fmt [("A", [mk_field "b" Int16 1 0; mk_field "a" NNInt16 1 0])] 1 None []) 1 None = Err TypeError /\
  compile_struct (mk_fmt [("A", [])] 1 None []) 1 None = Err TypeError /\
  compile_struct shared 1 (Some 12) = Ok ([Item C_h; Pad 2; Item C_i; Pad 4], [["x"; "y"]; ["z"]]).
Proof. repeat split; vm_compute; reflexivity. Qed.

(* ---------------- C18 ---------------- *)

Theorem C18_shipped_round_trip : forall (c : fmt) (e : endian), In c shipped ->
  exists p, make_header_packer c e = Ok p /\
  forall h, h_cls h = c -> header_ok h ->
    exists buf h', pk_pack p h = Ok buf /\ pk_unpack p buf = Ok h' /\ same_fields h h'.
Proof. exact shipped_round_trip. Qed.
Print Assumptions C18_shipped_round_trip.

Example C18_example : exists p h buf h', make_header_packer TraceHeaderRev1 Big = Ok p /\
  hdr_init TraceHeaderRev1 [] [("inline_number", -5); ("trace_num", 70000)] = Ok h /\
  pk_pack p h = Ok buf /\ pk_unpack p buf = Ok h' /\ hdr_get h' "inline_number" = Ok (-5) /\ hdr_get h' "trace_num" = Ok 70000.
Proof. do 4 eexists. do 5 (split; [vm_compute; reflexivity|]). vm_compute. reflexivity. Qed.

(* ---------------- C19 ---------------- *)

(* Full statement: every format that compiles round-trips.  It fails when
   fields at distinct offsets are declared out of offset order: *)
Theorem C19_out_of_order_refuted :
  ~ (forall c, class_ok c -> types_fit c -> starts_ok c -> round_trips c).
Proof. exact (fun H => proj2 (proj2 (proj2 swapped_fails))
                (H swapped (proj1 swapped_fails) (proj1 (proj2 swapped_fails)) (proj1 (proj2 (proj2 swapped_fails))))). Qed.
Print Assumptions C19_out_of_order_refuted.

(* and holds for all other formats *)
Theorem C19_user_round_trip_partial : forall c : fmt, class_ok c -> types_fit c -> starts_ok c ->
  has_coincident c \/ declared_in_order c -> round_trips c.
Proof. exact (fun c K T S O e p h buf M Hc H P => round_trip c e p h K S T O M Hc H buf P). Qed.
Print Assumptions C19_user_round_trip_partial.

Example C19_example : run_swapped = Ok (Ok 2, Ok 1).
Proof. vm_compute. reflexivity. Qed.
Example C19_example_shared : (exists p h h', make_header_packer shared Big = Ok p /\
  hdr_init shared [] [("x", 9); ("y", 9); ("z", 8)] = Ok h /\ (do buf <- pk_pack p h ;; pk_unpack p buf) = Ok h' /\
  hdr_get h' "x" = Ok 9 /\ hdr_get h' "y" = Ok 9 /\ hdr_get h' "z" = Ok 8).
Proof. do 3 eexists. do 5 (split; [vm_compute; reflexivity|]). vm_compute. reflexivity. Qed.

(* ---------------- C20 ---------------- *)

Theorem C20_unpack_rejects : forall (c : fmt) (e : endian) (p : packer) (buf : list Z),
  class_ok c -> starts_ok c -> has_coincident c \/ declared_in_order c ->
  make_header_packer c e = Ok p -> all_bytes buf ->
  (pk_unpack p buf = Err ValueError <->
     ~ header_length c (zlen buf) \/
     exists f v, is_field c f /\ in_ctype (ft_ctype (fd_type f)) v /\ stored_at e buf (field_pos c f) (field_size f) v /\
        ~ accepts (fd_type f) v) /\
  (pk_unpack p buf = Err ValueError \/ exists h, pk_unpack p buf = Ok h /\ holds_buffer c e buf h).
Proof. exact unpack_err_iff. Qed.
Print Assumptions C20_unpack_rejects.

Example C20_example : exists p, make_header_packer shared Big = Ok p /\
  pk_unpack p [1; 2; 3] = Err ValueError /\
  (exists h, pk_unpack p [255; 254; 7; 7; 0; 0; 1; 0; 7; 7; 7; 7] = Ok h /\ hdr_get h "y" = Ok (-2) /\ hdr_get h "z" = Ok 256).
Proof. eexists. do 2 (split; [vm_compute; reflexivity|]). eexists. do 2 (split; [vm_compute; reflexivity|]). vm_compute. reflexivity. Qed.
(* a trace header of zeros is refused: data_use and correlated have no member 0 *)
Example C20_zero_trace_header : exists p, make_header_packer TraceHeaderRev1 Big = Ok p /\ pk_unpack p (zrepeat 0 240) = Err ValueError.
Proof. eexists. split; [vm_compute; reflexivity|]. vm_compute. reflexivity. Qed.

(* ---------------- C21 ---------------- *)

Theorem C21_repack : forall (c : fmt) (e : endian) (p : packer) (buf : list Z) (h : header),
  In c shipped -> make_header_packer c e = Ok p -> all_bytes buf -> pk_unpack p buf = Ok h ->
  exists buf', pk_pack p h = Ok buf' /\ zlen buf' = zlen buf /\
    (forall i, covered c i -> byte_at buf' i = byte_at buf i) /\
    (forall i, 0 <= i < zlen buf -> ~ covered c i -> byte_at buf' i = 0) /\
    (buf' = buf <-> forall i, 0 <= i < zlen buf -> ~ covered c i -> byte_at buf i = 0).
Proof. exact shipped_repack. Qed.
Print Assumptions C21_repack.

(* the same for every format that round-trips *)
Theorem C21_repack_user : forall (c : fmt) (e : endian) (p : packer) (buf : list Z) (h : header),
  class_ok c -> starts_ok c -> types_fit c -> has_coincident c \/ declared_in_order c ->
  make_header_packer c e = Ok p -> all_bytes buf -> pk_unpack p buf = Ok h ->
  exists buf', pk_pack p h = Ok buf' /\ zlen buf' = zlen buf /\
    (forall i, covered c i -> byte_at buf' i = byte_at buf i) /\
    (forall i, 0 <= i < zlen buf -> ~ covered c i -> byte_at buf' i = 0).
Proof. exact repack. Qed.
Print Assumptions C21_repack_user.

Example C21_example : exists p h, make_header_packer shared Big = Ok p /\
  pk_unpack p [255; 254; 7; 7; 0; 0; 1; 0; 7; 7; 7; 7] = Ok h /\
  pk_pack p h = Ok [255; 254; 0; 0; 0; 0; 1; 0; 0; 0; 0; 0].
Proof. do 2 eexists. do 2 (split; [vm_compute; reflexivity|]). vm_compute. reflexivity. Qed.

(* ---------------- C22 ---------------- *)

Theorem C22_coincident : forall (c : fmt) (e : endian) (p : packer) (h : header),
  class_ok c -> starts_ok c -> types_fit c -> make_header_packer c e = Ok p -> h_cls h = c -> header_ok h ->
  (pk_pack p h = Err ValueError <->
     exists f g, is_field c f /\ is_field c g /\ fd_offset f = fd_offset g /\ hdr_get h (fd_name f) <> hdr_get h (fd_name g)) /\
  (pk_pack p h = Err ValueError \/ exists buf, pk_pack p h = Ok buf).
Proof. exact pack_err_iff. Qed.
Print Assumptions C22_coincident.

Example C22_example : exists p h h', make_header_packer shared Big = Ok p /\
  hdr_init shared [] [("x", 1); ("y", 2)] = Ok h /\ pk_pack p h = Err ValueError /\
  hdr_init shared [] [("x", 1); ("y", 1)] = Ok h' /\ pk_pack p h' = Ok [0; 1; 0; 0; 0; 0; 0; 0; 0; 0; 0; 0].
Proof. do 3 eexists. do 4 (split; [vm_compute; reflexivity|]). vm_compute. reflexivity. Qed.

(* ---------------- C23 ---------------- *)

Theorem C23_keywords : forall (c : fmt) (kws : list (string * Z)), class_ok c -> NoDup (map fst kws) -> kw_fields_ok c kws ->
  exists h, hdr_init c [] kws = Ok h /\ h_cls h = c /\
    forall f, is_field c f ->
      (forall v, In (fd_name f, v) kws -> hdr_get h (fd_name f) = Ok v) /\
      (~ In (fd_name f) (map fst kws) -> hdr_get h (fd_name f) = Ok (fd_default f)).
Proof. exact construct_ok. Qed.
Print Assumptions C23_keywords.

(* positional arguments are matched with the fields in declaration order, and
   keywords overwrite them *)
Theorem C23_positional : forall (c : fmt) (args : list Z) (kws : list (string * Z)),
  class_ok c -> NoDup (ordered_field_names c) -> NoDup (map fst kws) -> kw_fields_ok c kws ->
  kw_fields_ok c (combine (ordered_field_names c) args) ->
  exists h, hdr_init c args kws = Ok h /\ h_cls h = c /\
    forall f, is_field c f ->
      (forall v, In (fd_name f, v) kws -> hdr_get h (fd_name f) = Ok v) /\
      (~ In (fd_name f) (map fst kws) ->
         (forall v, In (fd_name f, v) (combine (ordered_field_names c) args) -> hdr_get h (fd_name f) = Ok v) /\
         (~ In (fd_name f) (map fst (combine (ordered_field_names c) args)) -> hdr_get h (fd_name f) = Ok (fd_default f))).
Proof. exact construct_positional. Qed.
Print Assumptions C23_positional.

Theorem C23_unknown_keyword : forall (c : fmt) k1 n v k2, class_ok c -> NoDup (map fst k1) -> kw_fields_ok c k1 ->
  (forall f, is_field c f -> fd_name f <> n) -> ~ In n (fmt_attrs c) ->
  hdr_init c [] (k1 ++ (n, v) :: k2) = Err TypeError.
Proof. exact construct_unknown. Qed.
Print Assumptions C23_unknown_keyword.

Theorem C23_invalid_value : forall (c : fmt) k1 f v k2, class_ok c -> NoDup (map fst k1) -> kw_fields_ok c k1 ->
  is_field c f -> ~ accepts (fd_type f) v ->
  hdr_init c [] (k1 ++ (fd_name f, v) :: k2) = Err ValueError.
Proof. exact construct_invalid. Qed.
Print Assumptions C23_invalid_value.

Theorem C23_copy : forall (h : header) (ups : list (string * Z)),
  class_ok (h_cls h) -> header_ok h -> NoDup (map fst ups) -> kw_fields_ok (h_cls h) ups ->
  exists h', hdr_copy h ups = Ok h' /\ h_cls h' = h_cls h /\
    forall f, is_field (h_cls h) f ->
      (forall v, In (fd_name f, v) ups -> hdr_get h' (fd_name f) = Ok v) /\
      (~ In (fd_name f) (map fst ups) -> hdr_get h' (fd_name f) = hdr_get h (fd_name f)).
Proof. exact copy_ok. Qed.
Print Assumptions C23_copy.

Theorem C23_are_equal : forall a b : header, class_ok (h_cls a) -> h_cls b = h_cls a ->
  exists r, are_equal a b = Ok r /\ (r = true <-> same_fields a b).
Proof. exact are_equal_iff. Qed.
Print Assumptions C23_are_equal.

Theorem C23_are_equal_other_type : forall a b : header, fmt_name (h_cls a) <> fmt_name (h_cls b) -> are_equal a b = Ok false.
Proof. exact are_equal_other. Qed.
Print Assumptions C23_are_equal_other_type.

Example C23_example : exists h h', hdr_init TraceHeaderRev1 [] [("trace_num", 4); ("cdp_x", 9)] = Ok h /\
  hdr_copy h [("trace_num", 5)] = Ok h' /\ hdr_get h' "cdp_x" = Ok 9 /\ hdr_get h' "trace_num" = Ok 5 /\
  are_equal h h' = Ok false /\ are_equal h h = Ok true /\ hdr_init TraceHeaderRev1 [] [("nonsense", 4)] = Err TypeError.
Proof. do 2 eexists. do 6 (split; [vm_compute; reflexivity|]). vm_compute. reflexivity. Qed.

(* ---------------- C24 ---------------- *)

(* Full statement: forall c, class_ok c -> pickles c.  Inherited fields are
   lost, so it fails for a shipped format: *)
Theorem C24_inherited_refuted : ~ pickles TraceHeaderRev1.
Proof. exact rev1_pickle_fails. Qed.
Print Assumptions C24_inherited_refuted.

(* it holds for classes without a base format *)
Theorem C24_pickle_partial : forall c : fmt, class_ok c -> (exists l, fmt_levels c = [l]) -> pickles c.
Proof. exact single_pickles. Qed.
Print Assumptions C24_pickle_partial.

(* in general the class's own fields survive and inherited ones are reset *)
Theorem C24_pickle_effect : forall h : header, class_ok (h_cls h) -> header_ok h -> fmt_levels (h_cls h) <> [] ->
  exists h', hdr_pickle h = Ok h' /\ h_cls h' = h_cls h /\
    (forall f, is_field (h_cls h) f -> own_field (h_cls h) f -> hdr_get h' (fd_name f) = hdr_get h (fd_name f)) /\
    (forall f, is_field (h_cls h) f -> ~ own_field (h_cls h) f -> hdr_get h' (fd_name f) = Ok (fd_default f)).
Proof. exact pickle_own. Qed.
Print Assumptions C24_pickle_effect.

Example C24_example : exists h h', hdr_init TraceHeaderRev1 [] [("trace_num", 4); ("cdp_x", 9)] = Ok h /\
  hdr_pickle h = Ok h' /\ hdr_get h' "cdp_x" = Ok 9 /\ hdr_get h' "trace_num" = Ok 0.
Proof. do 2 eexists. do 3 (split; [vm_compute; reflexivity|]). vm_compute. reflexivity. Qed.

(* ---------------- C25 ---------------- *)

Theorem C25_binary_header :
  (forall f, is_field BinaryReelHeader f -> In (fd_name f, fd_offset f, fd_offset f + field_size f - 1) standard_binary_header) /\
  (forall n a b, In (n, a, b) standard_binary_header -> exists f, is_field BinaryReelHeader f /\
     fd_name f = n /\ fd_offset f = a /\ fd_offset f + field_size f - 1 = b).
Proof. exact binary_table_iff. Qed.
Print Assumptions C25_binary_header.

Theorem C25_trace_header_rev0 :
  (forall f, is_field TraceHeaderRev0 f -> In (fd_name f, fd_offset f, fd_offset f + field_size f - 1) standard_trace_header_rev0) /\
  (forall n a b, In (n, a, b) standard_trace_header_rev0 -> exists f, is_field TraceHeaderRev0 f /\
     fd_name f = n /\ fd_offset f = a /\ fd_offset f + field_size f - 1 = b).
Proof. exact rev0_table_iff. Qed.
Print Assumptions C25_trace_header_rev0.

(* the standard gives source_energy_direction six bytes, segpy four *)
Theorem C25_source_energy_direction_refuted : ~ (forall f, is_field TraceHeaderRev1 f ->
  In (fd_name f, fd_offset f, fd_offset f + field_size f - 1) (standard_trace_header_rev0 ++ standard_trace_header_rev1_extension)).
Proof. exact rev1_width_fails. Qed.
Print Assumptions C25_source_energy_direction_refuted.

(* everything else is as in the standard *)
Theorem C25_trace_header_rev1_partial :
  (forall f, is_field TraceHeaderRev1 f -> exists b,
     In (fd_name f, fd_offset f, b) (standard_trace_header_rev0 ++ standard_trace_header_rev1_extension) /\
     (fd_name f <> "source_energy_direction" -> fd_offset f + field_size f - 1 = b)) /\
  (forall n a b, In (n, a, b) (standard_trace_header_rev0 ++ standard_trace_header_rev1_extension) ->
     exists f, is_field TraceHeaderRev1 f /\ fd_name f = n /\ fd_offset f = a /\
       (n <> "source_energy_direction" -> fd_offset f + field_size f - 1 = b)).
Proof. exact rev1_table_iff. Qed.
Print Assumptions C25_trace_header_rev1_partial.

Theorem C25_disjoint_and_inside : forall c : fmt, In c shipped ->
  (forall f g, is_field c f -> is_field c g -> f <> g ->
     fd_offset f + field_size f <= fd_offset g \/ fd_offset g + field_size g <= fd_offset f) /\
  (forall f, is_field c f -> 0 <= field_pos c f /\ header_length c (if String.eqb (fmt_name c) "BinaryReelHeader" then 400 else 240) /\
     field_pos c f + field_size f <= (if String.eqb (fmt_name c) "BinaryReelHeader" then 400 else 240)) /\
  declared_in_order c /\ (forall f, is_field c f -> accepts (fd_type f) (fd_default f)).
Proof. exact shipped_layout. Qed.
Print Assumptions C25_disjoint_and_inside.

(* ---------------- C26 ---------------- *)

Theorem C26_out_of_order_refuted : ~ sub_format_agrees TraceHeaderRev0 ["trace_num"; "line_sequence_num"].
Proof. exact sub_format_order_fails. Qed.
Print Assumptions C26_out_of_order_refuted.

(* it holds when the chosen names are listed in offset order *)
Theorem C26_sub_format_partial : forall (parent : fmt) (names : list string) (n : Z),
  class_ok parent -> starts_ok parent ->
  has_coincident parent \/ declared_in_order parent -> fmt_length parent = Some n -> names <> [] ->
  (forall n, In n names -> exists f, is_field parent f /\ fd_name f = n) ->
  (forall f g ns1 ns2 ns3, names = ns1 ++ fd_name f :: ns2 ++ fd_name g :: ns3 -> is_field parent f -> is_field parent g ->
     fd_offset f < fd_offset g) ->
  sub_format_agrees parent names.
Proof. exact sub_format_in_order. Qed.
Print Assumptions C26_sub_format_partial.

Example C26_example : exists sub q h, sub_format "S" shared ["x"; "z"] = Ok sub /\ make_header_packer sub Big = Ok q /\
  pk_unpack q [255; 254; 7; 7; 0; 0; 1; 0; 7; 7; 7; 7] = Ok h /\ hdr_get h "x" = Ok (-2) /\ hdr_get h "z" = Ok 256.
Proof. do 3 eexists. do 4 (split; [vm_compute; reflexivity|]). vm_compute. reflexivity. Qed.

(* ---------------- C27 ---------------- *)

Theorem C27_samples_round_trip : forall (native e : endian) (c : ctype) (vs : list Z), Forall (in_ctype c) vs ->
  exists b, pack_values e c vs = Ok b /\ zlen b = zlen vs * ctype_bytes c /\ all_bytes b /\
    unpack_values native e c b = Ok vs.
Proof. exact unpack_pack_values. Qed.
Print Assumptions C27_samples_round_trip.

Theorem C27_samples_stored : forall (e : endian) (c : ctype) (vs b : list Z), pack_values e c vs = Ok b ->
  forall i, 0 <= i < zlen vs -> stored_at e b (i * ctype_bytes c) (ctype_bytes c) (nth (Z.to_nat i) vs 0).
Proof. exact pack_values_stored. Qed.
Print Assumptions C27_samples_stored.

Theorem C27_out_of_range : forall (e : endian) (c : ctype) (vs : list Z), ~ Forall (in_ctype c) vs ->
  pack_values e c vs = Err StructError.
Proof. exact pack_values_err. Qed.
Print Assumptions C27_out_of_range.

Theorem C27_orders_reverse : forall (c : ctype) (vs b b' : list Z),
  pack_values Little c vs = Ok b -> pack_values Big c vs = Ok b' ->
  forall i k, 0 <= i < zlen vs -> 0 <= k < ctype_bytes c ->
    byte_at b' (i * ctype_bytes c + (ctype_bytes c - 1 - k)) = byte_at b (i * ctype_bytes c + k).
Proof. exact pack_values_orders. Qed.
Print Assumptions C27_orders_reverse.

Example C27_example : pack_values Big C_i [-2; 16909060] = Ok [255; 255; 255; 254; 1; 2; 3; 4] /\
  pack_values Little C_i [-2; 16909060] = Ok [254; 255; 255; 255; 4; 3; 2; 1] /\
  unpack_values Little Big C_h [255; 254; 1; 2] = Ok [-2; 258] /\ pack_values Big C_b [128] = Err StructError.
Proof. repeat split; vm_compute; reflexivity. Qed.

(* ---------------- C76 ---------------- *)

Theorem C76_before_start_refuted :
  ~ (forall c e p, class_ok c -> types_fit c -> make_header_packer c e = Ok p -> starts_ok c).
Proof. exact early_not_refused. Qed.
Print Assumptions C76_before_start_refuted.

Theorem C76_wrong_length_refuted : exists p h buf,
  make_header_packer early Big = Ok p /\ hdr_init early [] [] = Ok h /\ pk_pack p h = Ok buf /\
  fmt_length early = Some 4 /\ zlen buf = 6.
Proof. exact (proj2 (proj2 (proj2 early_accepted))). Qed.
Print Assumptions C76_wrong_length_refuted.

(* ---------------- C77 ---------------- *)

Theorem C77_arguments_checked_refuted :
  (exists h, hdr_init swapped [] [("copy", 5)] = Ok h) /\ (exists h, hdr_init swapped [1; 2; 3] [] = Ok h) /\
  (forall f, is_field swapped f -> fd_name f <> "copy").
Proof. exact constructor_lenient. Qed.
Print Assumptions C77_arguments_checked_refuted.
