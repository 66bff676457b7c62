(* Specification vocabulary for writing whole files. *)
From Coq Require Import String ZArith List Bool Sorted.
From Verif Require Import Py PyFloat IbmFloat Spec_Ibm Util Catalog Spec_Catalog Packing Spec_Packing FileIO Text Spec_Text
  Float32 Toolkit Spec_Segy Reader Spec_Reader.
Import ListNotations.
Local Open Scope string_scope.
Open Scope list_scope.
Open Scope Z_scope.

(* the encoding write_segy works with: the given one, else the dataset's, else
   ASCII *)
Definition encoding_for (enc : option encoding) (ds : dataset) (x : encoding) : Prop :=
  match enc, ds_encoding ds with
  | Some y, _ => x = y
  | None, Some (Some y) => x = y
  | None, _ => x = ASCII
  end.

(* A trace as a dataset gives it: a header and samples. *)
Definition trace : Type := (header * list real)%type.
Definition presents (ds : dataset) (trs : list trace) : Prop :=
  Forall2 (fun k tr => ds_trace_header ds k = Ok (fst tr) /\ ds_trace_samples ds k None None = Ok (snd tr)) (ds_trace_indexes ds) trs.

(* a header of format c whose fields all have acceptable values *)
Definition good_header (c : fmt) (h : header) : Prop := h_cls h = c /\ header_ok h /\ coincident_agree h.

(* a dataset that can be written: traces trs with samples of type t *)
Record writable (ds : dataset) (x : encoding) (bc tc : fmt) (t : segytype) (trs : list trace) : Prop := mk_writable {
  wr_encoding : supported x;
  wr_text : Forall (encodable x) (firstn 40 (ds_text ds));
  wr_bc : format_ok bc 400;
  wr_binary : good_header bc (ds_binary ds);
  wr_ext : Forall (page_ok x) (ds_ext ds);
  wr_tc : format_ok tc 240;
  wr_type : ds_sample_format ds = Ok t;
  wr_count : trs = [] \/ ds_num_traces ds <> 0;
  wr_traces : presents ds trs;
  wr_good : Forall (fun tr => good_header tc (fst tr) /\ Forall (storable t) (snd tr)) trs }.

(* The parts of a written file: a packed header (zero outside its fields), a
   page of text, a trace. *)
Definition header_block (c : fmt) (e : endian) (h : header) (n : Z) (b : list Z) : Prop :=
  zlen b = n /\ all_bytes b /\ holds_buffer c e b h /\ forall i, 0 <= i < n -> ~ covered c i -> byte_at b i = 0.
Definition text_block (x : encoding) (page : list text) (b : list Z) : Prop :=
  zlen b = 3200 /\ all_bytes b /\ decode x b = Ok (concat page).
Definition trace_block (tc : fmt) (e : endian) (t : segytype) (tr : trace) (b : list Z) : Prop :=
  exists hb sb rs, b = hb ++ sb /\ header_block tc e (fst tr) 240 hb /\
    zlen sb = sample_size t * zlen (snd tr) /\ all_bytes sb /\ Forall2 (stored_as t) (snd tr) rs /\ samples_at t e sb 0 rs.

(* The contents write_segy has to produce. *)
Definition segy_contents (ds : dataset) (x : encoding) (bc tc : fmt) (e : endian) (t : segytype) (trs : list trace) (b : list Z) : Prop :=
  exists tx tb bb pbs tbs, b = tb ++ bb ++ concat pbs ++ concat tbs /\
    fitted_lines 40 80 (ds_text ds) tx /\ text_block x tx tb /\ header_block bc e (ds_binary ds) 400 bb /\
    Forall2 (text_block x) (ds_ext ds) pbs /\ Forall2 (trace_block tc e t) trs tbs.

(* Headers that describe the rest of the dataset. *)
Definition pages_counted (bin : header) (pages : list (list text)) : Prop :=
  exists n, hdr_get bin "num_extended_textual_headers" = Ok n /\
    (0 <= n -> zlen pages = n /\ Forall (fun p => ~ end_page p) (removelast pages)) /\
    (n < 0 -> exists ps p, pages = ps ++ [p] /\ Forall (fun p => ~ end_page p) ps /\ end_page p).
Record consistent (ds : dataset) (bc tc : fmt) (t : segytype) (trs : list trace) : Prop := mk_consistent {
  co_bc : binary_format bc;
  co_tc : trace_format tc;
  co_type : sample_type (ds_binary ds) t;
  co_revision : exists v rev, hdr_get (ds_binary ds) "format_revision_num" = Ok v /\ revision_code v rev;
  co_pages : pages_counted (ds_binary ds) (ds_ext ds);
  co_samples : Forall (fun tr => hdr_get (fst tr) "num_samples" = Ok (zlen (snd tr))) trs }.

(* The reader r of a file with contents d gives the dataset: the same headers,
   and traces with the same headers and samples ss, which may depend on what
   was to be stored. *)
Definition gives_back (ds : dataset) (trs : list trace) (kept : list real -> list real -> Prop) (d : list Z) (r : reader) : Prop :=
  fitted_lines 40 80 (ds_text ds) (rd_text r) /\ same_fields (ds_binary ds) (rd_binary r) /\ rd_ext r = ds_ext ds /\
  rd_num_traces r = zlen trs /\ rd_trace_indexes r = map Z.of_nat (seq 0 (length trs)) /\
  forall k tr, 0 <= k -> nth_error trs (Z.to_nat k) = Some tr -> forall native q,
    (exists h, fst (rd_trace_header r k None (mk_file d q)) = Ok h /\ same_fields (fst tr) h) /\
    (exists rs, fst (rd_trace_samples native r k None None (mk_file d q)) = Ok rs /\ kept (snd tr) rs).

(* a number the sample type has *)
Definition exact_sample (t : segytype) (r : real) : Prop :=
  match t with
  | T_FLOAT32 => exists f, r = RFloat f /\ float_wf f /\ (~ finite f \/ exists bits, is_single bits f)
  | T_IBM => exists w, r = RIbm w /\ word_ok w
  | _ => exists n, r = RInt n /\ in_sample_type t n
  end.

(* every trace of the reader's file can be read *)
Definition all_readable (native : endian) (d : list Z) (r : reader) : Prop := forall k, 0 <= k < rd_num_traces r ->
  exists h ss, fst (rd_trace_header r k None (mk_file d 0)) = Ok h /\ fst (rd_trace_samples native r k None None (mk_file d 0)) = Ok ss.
(* two readers give the same *)
Definition same_readings (d : list Z) (r : reader) (d' : list Z) (r' : reader) : Prop :=
  rd_text r' = rd_text r /\ same_fields (rd_binary r) (rd_binary r') /\ rd_ext r' = rd_ext r /\
  rd_num_traces r' = rd_num_traces r /\ rd_trace_indexes r' = rd_trace_indexes r /\
  forall k native q q', 0 <= k < rd_num_traces r -> exists h h' ss,
    fst (rd_trace_header r k None (mk_file d q)) = Ok h /\ fst (rd_trace_header r' k None (mk_file d' q')) = Ok h' /\ same_fields h h' /\
    fst (rd_trace_samples native r k None None (mk_file d q)) = Ok ss /\ fst (rd_trace_samples native r' k None None (mk_file d' q')) = Ok ss.
(* fields at the same place have the same C type *)
Definition coincident_alike (c : fmt) : Prop := forall f g, is_field c f -> is_field c g -> fd_offset f = fd_offset g ->
  ft_ctype (fd_type f) = ft_ctype (fd_type g).
(* all its text can be written in the encoding *)
Definition text_encodable (r : reader) (x : encoding) : Prop :=
  Forall (encodable x) (rd_text r) /\ Forall (Forall (encodable x)) (rd_ext r).

(* a number that samples of this type cannot hold *)
Definition refused (t : segytype) (r : real) : Prop :=
  match t, r with
  | T_FLOAT32, RFloat f => float_wf f /\ finite f /\ single_limit <= Z.abs (units f)
  | T_FLOAT32, RInt n => int_limit <= Z.abs n
  | T_FLOAT32, RIbm w => word_ok w /\ single_limit <= Z.abs (ibm_units w)
  | T_IBM, RFloat f => float_wf f /\ (~ finite f \/ ibm_max < Z.abs (units f) \/ 0 < Z.abs (units f) < ibm_min)
  | T_IBM, RInt n => ibm_max < Z.abs (n * 2 ^ 1074)
  | T_IBM, RIbm w => False
  | _, RInt n => ~ in_sample_type t n
  | _, _ => True
  end.
