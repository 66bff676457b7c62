(* Specification vocabulary for readers and writers of whole files. *)
From Coq Require Import String ZArith List Bool Sorted.
From Verif Require Import Py PyFloat IbmFloat Spec_Ibm Util Catalog Spec_Catalog Packing Spec_Packing FileIO Text Spec_Text
  Float32 Toolkit Spec_Segy Reader.
Import ListNotations.
Local Open Scope string_scope.
Open Scope list_scope.
Open Scope Z_scope.

(* the encoding create_reader works with: the given one, else the guessed one,
   else ASCII *)
Definition encoding_used (enc : option encoding) (d : list Z) (x : encoding) : Prop :=
  match enc with
  | Some y => x = y
  | None => match guess_encoding (firstn (Z.to_nat 3200) d) 1 2 with Some y => x = y | None => x = ASCII end
  end.

(* bytes n to n + m - 1 *)
Definition block (d : list Z) (n m : Z) : list Z := firstn (Z.to_nat m) (skipn (Z.to_nat n) d).

(* forty lines of eighty characters, decoded from the first 3200 bytes *)
Definition reel_text (x : encoding) (d : list Z) (tx : list text) : Prop :=
  zlen tx = 40 /\ Forall (fun l => zlen l = 80) tx /\ decode x (block d 0 3200) = Ok (concat tx).

(* the outcome of reading the extended textual headers when the binary reel
   header announces n of them (a negative n: up to an end page) *)
Definition ext_outcome (x : encoding) (d : list Z) (n : Z) (r : res (list (list text))) : Prop :=
  (0 <= n -> counted_outcome x d n r) /\ (n < 0 -> until_end_outcome x d r).

(* the value v of the revision field stands for revision rev *)
Definition revision_code (v rev : Z) : Prop := In (v, rev) [(0, 0); (256, 256); (1, 256); (100, 256)].

(* the headers before the traces of a file have been read *)
Definition reel_headers (x : encoding) (bc : fmt) (e : endian) (d : list Z)
  (tx : list text) (bin : header) (ext : list (list text)) : Prop :=
  reel_text x d tx /\ holds_buffer bc e (block d 3200 400) bin /\
  exists n, hdr_get bin "num_extended_textual_headers" = Ok n /\ ext_outcome x d n (Ok ext).
Definition sample_type (bin : header) (t : segytype) : Prop :=
  exists code, hdr_get bin "data_sample_format" = Ok code /\ format_code code t.

(* where the traces start *)
Definition first_trace (ext : list (list text)) : Z := 3600 + 3200 * zlen ext.

(* dimensionality of a file: 3 when the (inline, crossline) pairs are distinct,
   else 2 when the ensemble numbers are, else none (such a file has at least
   two traces) *)
Definition natural_dimensionality (ts : list tinfo) (dim : Z) : Prop :=
  (dim = 3 <-> NoDup (map (fun t => (t_inline t, t_xline t)) ts)) /\
  (dim = 2 <-> ~ NoDup (map (fun t => (t_inline t, t_xline t)) ts) /\ NoDup (map t_cdp ts)) /\
  (dim = 0 <-> ~ NoDup (map (fun t => (t_inline t, t_xline t)) ts) /\ ~ NoDup (map t_cdp ts)).

(* r is a reader that create_reader has returned for a file with contents d,
   positioned at its start *)
Definition opens (d : list Z) (enc : option encoding) (bc tc : fmt) (e : endian) (dim : option Z) (r : reader) : Prop :=
  exists a pr log w, create_reader a enc bc tc (Some e) pr dim (mk_world (mk_file d 0) log) = (Ok r, w).

(* What create_reader may answer once its arguments have been checked. *)
Inductive open_outcome (x : encoding) (bc tc : fmt) (e : endian) (d : list Z) : res reader -> Prop :=
| open_bad_text : decode x (block d 0 3200) = Err UnicodeDecodeError -> open_outcome x bc tc e d (Err UnicodeDecodeError)
| open_bad_binary tx n : reel_text x d tx -> bad_field_at bc e d 3200 n -> open_outcome x bc tc e d (Err ValueError)
| open_bad_ext tx bin n y : reel_text x d tx -> holds_buffer bc e (block d 3200 400) bin ->
    hdr_get bin "num_extended_textual_headers" = Ok n -> ext_outcome x d n (Err y) -> open_outcome x bc tc e d (Err y)
| open_bad_format tx bin ext : reel_headers x bc e d tx bin ext -> (forall t, ~ sample_type bin t) ->
    open_outcome x bc tc e d (Err ValueError)
| open_bad_traces tx bin ext t y : reel_headers x bc e d tx bin ext -> sample_type bin t ->
    catalog_outcome tc e (sample_size t) d (first_trace ext) (Err y) -> open_outcome x bc tc e d (Err y)
| open_bad_revision tx bin ext t v ts : reel_headers x bc e d tx bin ext -> sample_type bin t ->
    file_traces tc e (sample_size t) d (first_trace ext) ts -> ts <> [] ->
    hdr_get bin "format_revision_num" = Ok v -> (forall rev, ~ revision_code v rev) ->
    open_outcome x bc tc e d (Err SegYRevisionError)
| open_reader r ts t v : reel_headers x bc e d (rd_text r) (rd_binary r) (rd_ext r) -> sample_type (rd_binary r) t ->
    file_traces tc e (sample_size t) d (first_trace (rd_ext r)) ts -> ts <> [] ->
    hdr_get (rd_binary r) "format_revision_num" = Ok v -> revision_code v (rd_revision r) ->
    rd_encoding r = x -> rd_endian r = e -> rd_bps r = sample_size t ->
    open_outcome x bc tc e d (Ok r).

(* Contents of bytes, with formats for their headers, and an encoding segpy
   knows (or one to be guessed). *)
Definition readable (d : list Z) (enc : option encoding) (bc tc : fmt) : Prop :=
  all_bytes d /\ binary_format bc /\ trace_format tc /\ forall x, enc = Some x -> supported x.

(* The file d, seen through the reader r, has the traces ts with samples of
   type t. *)
Definition traces_of (d : list Z) (tc : fmt) (e : endian) (r : reader) (t : segytype) (ts : list tinfo) : Prop :=
  sample_type (rd_binary r) t /\ file_traces tc e (sample_size t) d (first_trace (rd_ext r)) ts.

(* the k-th trace *)
Definition trace_of (ts : list tinfo) (k : Z) (t : tinfo) : Prop :=
  0 <= k < zlen ts /\ nth_error ts (Z.to_nat k) = Some t.

(* optional bounds of a range of samples *)
Definition or_else (o : option Z) (v : Z) : Z := match o with Some x => x | None => v end.

(* The outcome of trace_samples(k, a, b) for the file d with these traces. *)
Inductive samples_outcome (d : list Z) (e : endian) (t : segytype) (ts : list tinfo) (k : Z) (a b : option Z)
  : res (list real) -> Prop :=
| no_such_trace : ~ 0 <= k < zlen ts -> samples_outcome d e t ts k a b (Err ValueError)
| no_such_range tr : trace_of ts k tr -> ~ 0 <= or_else a 0 <= or_else b (t_count tr) \/ ~ or_else b (t_count tr) <= t_count tr ->
    samples_outcome d e t ts k a b (Err ValueError)
| samples_cut_off tr : trace_of ts k tr -> 0 <= or_else a 0 < or_else b (t_count tr) -> or_else b (t_count tr) <= t_count tr ->
    zlen d < t_pos tr + 240 + sample_size t * or_else b (t_count tr) -> samples_outcome d e t ts k a b (Err EOFError)
| samples_read tr rs : trace_of ts k tr -> 0 <= or_else a 0 <= or_else b (t_count tr) -> or_else b (t_count tr) <= t_count tr ->
    or_else a 0 = or_else b (t_count tr) \/ t_pos tr + 240 + sample_size t * or_else b (t_count tr) <= zlen d ->
    zlen rs = or_else b (t_count tr) - or_else a 0 ->
    samples_at t e d (t_pos tr + 240 + sample_size t * or_else a 0) rs -> samples_outcome d e t ts k a b (Ok rs).

(* The outcome of trace_header(k). *)
Inductive header_outcome (d : list Z) (e : endian) (tc : fmt) (ts : list tinfo) (k : Z) : res header -> Prop :=
| no_such_header : ~ 0 <= k < zlen ts -> header_outcome d e tc ts k (Err ValueError)
| header_refused tr n : trace_of ts k tr -> bad_field_at tc e d (t_pos tr) n -> header_outcome d e tc ts k (Err EOFError)
| header_read tr h : trace_of ts k tr -> holds_buffer tc e (block d (t_pos tr) 240) h -> header_outcome d e tc ts k (Ok h).

(* Values n/m reported to a progress callback: between 0 and 1, never
   decreasing, the last one 1. *)
Definition progress_ok (l : list (Z * Z)) : Prop :=
  Forall (fun v => 0 < snd v /\ 0 <= fst v <= snd v) l /\
  StronglySorted (fun v w => fst v * snd w <= fst w * snd v) l /\
  exists l' n, l = l' ++ [(n, n)].
