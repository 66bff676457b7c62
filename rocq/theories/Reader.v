(* Model of segpy/reader.py (without the cache), segpy/dataset.py and
   segpy/writer.py.  No proofs here. *)
From Coq Require Import String ZArith List Bool.
From Verif Require Import Py PyFloat IbmFloat Util Catalog Packing Formats FileIO Text TextIO Float32 Toolkit.
Import ListNotations.
Local Open Scope string_scope.
Open Scope list_scope.
Open Scope Z_scope.

(* ------------------------------------------------------------------ *)
(* Reader objects.  `_fh` is the file given to each method.             *)

(* SegYReader, SegYReader2D with its CDP catalog, SegYReader3D with its line
   catalog; None stands for the dict {} that replaces a missing catalog
   [reader.py:280-288] *)
Inductive rkind : Set := Plain | Kind2D (cdp : catalog1) | Kind3D (line : option catalog2).

(* [reader.py:340-363, 637-639, 783-784] *)
Record reader : Type := mk_reader {
  rd_kind : rkind;
  rd_text : list text; rd_binary : header; rd_ext : list (list text);
  rd_offsets : catalog1; rd_lengths : catalog1;
  rd_packer : packer; rd_encoding : encoding; rd_endian : endian;
  rd_revision : Z; rd_bps : Z }.

(* reader.py:298-363 SegYReader.__init__, 590-640, 737-783 *)
Definition reader_init (k : rkind) (tx : list text) (bin : header) (ext : list (list text))
  (offsets lengths : catalog1) (c : fmt) (enc : encoding) (e : endian) : res reader :=
  do p <- make_header_packer c e ;;
  do rev <- extract_revision bin ;;
  do bps <- bytes_per_sample bin ;;
  Ok (mk_reader k tx bin ext offsets lengths p enc e rev bps).

(* `catalog or {}`
   [reader.py:275-278] *)
Definition cat1_or_empty (c : option catalog1) : catalog1 :=
  match c with Some c => if cat1_len c =? 0 then CDict [] else c | None => CDict [] end.
(* [reader.py:275-278] *)
Definition cat2_or_empty (c : option catalog2) : option catalog2 :=
  if truthy c then c else None.

(* reader.py:252-288 _make_reader.  fh.seek of read_extended_textual_headers
   comes before the access to the header's field. *)
Definition make_reader (enc : option encoding) (bc tc : fmt) (e : endian) (dim : option Z) : wio reader :=
  go enc <- match enc with
            | Some x => wret x
            | None => go g <- on_file guess_textual_header_encoding ;;
                      wret (match g with Some x => x | None => ASCII end)
            end ;;
  go tx <- on_file (read_textual_reel_header enc) ;;
  go bin <- on_file (read_binary_reel_header bc e) ;;
  go _ <- on_file (seek REEL_HEADER_NUM_BYTES) ;;
  go declared <- on_file (lift (num_extended_textual_headers bin)) ;;
  go ext <- on_file (read_extended_textual_headers declared enc) ;;
  go bps <- on_file (lift (bytes_per_sample bin)) ;;
  go (offsets, lengths, cdps, lines) <- catalog_traces bps tc e Callable ;;
  let dim := match dim with
             | Some d => d
             | None => match cdps, lines with
                       | Some _, None => 2
                       | _, Some _ => 3
                       | None, None => 1
                       end
             end in
  if negb ((1 <=? dim) && (dim <=? 3)) then wraise AssertionError
  else
    let kind := if dim =? 1 then Plain
                else if dim =? 2 then Kind2D (cat1_or_empty cdps)
                else Kind3D (cat2_or_empty lines) in
    on_file (lift (reader_init kind tx bin ext (cat1_or_empty offsets) (cat1_or_empty lengths) tc enc e)).

(* What create_reader asks of a file object besides its contents: fh.closed,
   an encoding attribute that is not None, fh.seekable()
   [reader.py:111-121] *)
Record file_attrs : Set := mk_attrs { fa_closed : bool; fa_text : bool; fa_seekable : bool }.

(* the endian argument: '<', '>' or anything else (None) *)
(* reader.py:38-159 create_reader with cache_directory=None *)
Definition create_reader_checks (a : file_attrs) (e : option endian) (progress : progress_arg) (dim : option Z)
  : wio endian :=
  if fa_closed a then wraise ValueError
  else if fa_text a then wraise TypeError
  else if negb (fa_seekable a) then wraise TypeError
  else
    go num_file_bytes <- on_file file_length ;;
    if num_file_bytes <? REEL_HEADER_NUM_BYTES then wraise ValueError
    else match e with
    | None => wraise ValueError
    | Some e =>
        match progress with
        | NotCallable => wraise TypeError
        | _ => if match dim with None => false | Some d => negb (zmem d [1; 2; 3]) end
               then wraise ValueError else wret e
        end
    end.
(* [reader.py:38-159] *)
Definition create_reader (a : file_attrs) (enc : option encoding) (bc tc : fmt) (e : option endian)
  (progress : progress_arg) (dim : option Z) : wio reader :=
  go e <- create_reader_checks a e progress dim ;;
  go r <- make_reader enc bc tc e dim ;;
  go _ <- report 1 1 ;;
  wret r.

(* ------------------------------------------------------------------ *)
(* Methods of the readers.                                              *)

(* reader.py:422-433 trace_indexes, num_traces *)
Definition rd_trace_indexes (r : reader) : list Z := cat1_iter (rd_offsets r).
(* [reader.py:431-433] *)
Definition rd_num_traces (r : reader) : Z := cat1_len (rd_offsets r).

(* reader.py:435-439 max_num_trace_samples without its memo:
   max(catalog.values(), default=0) *)
Definition rd_max_num_trace_samples (r : reader) : res Z :=
  do vs <- map_res (cat1_get (rd_lengths r)) (cat1_iter (rd_lengths r)) ;;
  Ok (match vs with [] => 0 | v :: vs => fold_left Z.max vs v end).

(* reader.py:441-450 num_trace_samples *)
Definition rd_num_trace_samples (r : reader) (k : Z) : res Z := cat1_get (rd_lengths r) k.

(* dataset.py:87-91 Dataset.data_sample_format *)
Definition sample_format (h : header) : res segytype :=
  do dsf <- hdr_get h "data_sample_format" ;; segy_type_of dsf.

(* reader.py:452-496 trace_samples *)
Definition rd_trace_samples (native : endian) (r : reader) (k : Z) (start stop : option Z) : io (list real) :=
  if negb ((0 <=? k) && (k <? rd_num_traces r)) then raise ValueError
  else
    run n <- lift (rd_num_trace_samples r k) ;;
    let start_sample := match start with Some s => s | None => 0 end in
    let stop_sample := match stop with Some s => s | None => n end in
    if negb ((0 <=? stop_sample) && (stop_sample <=? n)) then raise ValueError
    else if negb ((0 <=? start_sample) && (start_sample <=? stop_sample)) then raise ValueError
    else
      run t <- lift (sample_format (rd_binary r)) ;;
      run offset <- lift (cat1_get (rd_offsets r) k) ;;
      let start_pos := offset + TRACE_HEADER_NUM_BYTES + start_sample * size_in_bytes (ctype_of t) in
      read_binary_values native (Some start_pos) t (stop_sample - start_sample) (rd_endian r).

(* reader.py:498-515 trace_header *)
Definition rd_trace_header (r : reader) (k : Z) (override : option packer) : io header :=
  if negb ((0 <=? k) && (k <? rd_num_traces r)) then raise ValueError
  else
    let p := match override with Some p => p | None => rd_packer r end in
    run pos <- lift (cat1_get (rd_offsets r) k) ;;
    read_trace_header p (Some pos).

(* reader.py:523-531, 648-649, 792-793 dimensionality *)
Definition rd_dimensionality (r : reader) : Z :=
  match rd_kind r with
  | Plain => if rd_num_traces r =? 1 then 1 else 0
  | Kind2D _ => 2
  | Kind3D _ => 3
  end.

(* reader.py:651-693 inline_numbers, xline_numbers without their memos *)
Definition line_numbers (range : catalog2 -> sseq) (line : option catalog2) : res sseq :=
  match line with
  | Some c => Ok (range c)
  | None => make_sorted_distinct_sequence (ItIter []) SAscending
  end.
(* [reader.py:651-667] *)
Definition rd_inline_numbers (r : reader) : res sseq :=
  match rd_kind r with Kind3D line => line_numbers cat2_i_range line | _ => Err AttributeError end.
(* [reader.py:673-689] *)
Definition rd_xline_numbers (r : reader) : res sseq :=
  match rd_kind r with Kind3D line => line_numbers cat2_j_range line | _ => Err AttributeError end.
(* reader.py:695-699 inline_xline_numbers *)
Definition rd_inline_xline_numbers (r : reader) : res (list (Z * Z)) :=
  match rd_kind r with
  | Kind3D (Some c) => Ok (cat2_iter c)
  | Kind3D None => Ok []
  | _ => Err AttributeError
  end.
(* reader.py:701-731 has_trace_index, trace_index of a 3D reader.  On a reader
   of another kind the method is missing or expects another key. *)
Definition rd_has_trace_index3 (r : reader) (key : Z * Z) : res bool :=
  match rd_kind r with
  | Kind3D (Some c) => Ok (cat2_mem c key)
  | Kind3D None => Ok false
  | _ => Err AttributeError
  end.
(* [reader.py:712-731] *)
Definition rd_trace_index3 (r : reader) (key : Z * Z) : res Z :=
  match rd_kind r with
  | Kind3D (Some c) => cat2_get c key
  | Kind3D None => Err KeyError
  | _ => Err AttributeError
  end.

(* reader.py:795-838 cdp_numbers (without its memo), num_cdps,
   has_trace_index, trace_index of a 2D reader *)
Definition rd_cdp_numbers (r : reader) : res sseq :=
  match rd_kind r with
  | Kind2D c => make_sorted_distinct_sequence (ItIter (cat1_iter c)) SAscending
  | _ => Err AttributeError
  end.
(* [reader.py:810-816] *)
Definition rd_num_cdps (r : reader) : res Z :=
  match rd_kind r with Kind2D c => Ok (cat1_len c) | _ => Err AttributeError end.
(* [reader.py:818-827] *)
Definition rd_has_trace_index2 (r : reader) (cdp : Z) : res bool :=
  match rd_kind r with Kind2D c => Ok (cat1_mem c cdp) | _ => Err AttributeError end.
(* [reader.py:829-838] *)
Definition rd_trace_index2 (r : reader) (cdp : Z) : res Z :=
  match rd_kind r with Kind2D c => cat1_get c cdp | _ => Err AttributeError end.

(* ------------------------------------------------------------------ *)
(* A reader in use: the file it reads and its memo attributes
   (_max_num_trace_samples, _inline_numbers, _xline_numbers, _cdp_numbers).
   [reader.py:363, 638-639, 784] *)
Record memo : Set := mk_memo {
  m_max : option Z; m_inline : option sseq; m_xline : option sseq; m_cdp : option sseq }.
(* [reader.py:363, 638-639, 784] *)
Definition no_memo : memo := mk_memo None None None None.
(* [a reader object; no line of its own] *)
Record session : Type := mk_session { s_memo : memo; s_file : file }.

(* a call of a method or property
   [reader.py:422-579, 642-731, 785-838] *)
Inductive call : Type :=
| NumTraces | TraceIndexes | MaxNumTraceSamples | NumTraceSamples (k : Z)
| TraceSamples (k : Z) (start stop : option Z) | TraceHeader (k : Z) (override : option packer)
| Dimensionality | TextualReelHeader | BinaryReelHeaderOf | ExtendedTextualHeader
| Revision | BytesPerSample | Encoding | Endian | DataSampleFormatOf
| InlineNumbers | NumInlines | XlineNumbers | NumXlines | InlineXlineNumbers
| HasTraceIndex3 (key : Z * Z) | TraceIndex3 (key : Z * Z)
| CdpNumbers | NumCdps | HasTraceIndex2 (cdp : Z) | TraceIndex2 (cdp : Z).

(* [the values returned by reader.py:422-579, 642-731, 785-838] *)
Inductive answer : Type :=
| AInt (n : Z) | AInts (l : list Z) | ABool (b : bool) | ASamples (l : list real) | AHeader (h : header)
| AText (t : list text) | APages (ps : list (list text)) | ASeq (s : sseq) | APairs (l : list (Z * Z))
| AEncoding (e : encoding) | AEndian (e : endian) | AType (t : segytype).

(* `if self._x is None: self._x = compute()` then `return self._x`
   [reader.py:437-439, 662-667, 684-689, 806-808] *)
Definition memoised {A} (get : memo -> option A) (put : memo -> A -> memo) (compute : res A) (s : session)
  : res A * session :=
  match get (s_memo s) with
  | Some a => (Ok a, s)
  | None => match compute with
            | Ok a => (Ok a, mk_session (put (s_memo s) a) (s_file s))
            | Err e => (Err e, s)
            end
  end.
(* [reader.py:438] *)
Definition put_max (m : memo) (v : Z) : memo := mk_memo (Some v) (m_inline m) (m_xline m) (m_cdp m).
(* [reader.py:664, 666] *)
Definition put_inline (m : memo) (v : sseq) : memo := mk_memo (m_max m) (Some v) (m_xline m) (m_cdp m).
(* [reader.py:686, 688] *)
Definition put_xline (m : memo) (v : sseq) : memo := mk_memo (m_max m) (m_inline m) (Some v) (m_cdp m).
(* [reader.py:807] *)
Definition put_cdp (m : memo) (v : sseq) : memo := mk_memo (m_max m) (m_inline m) (m_xline m) (Some v).

(* [a return statement] *)
Definition pure {A} (f : A -> answer) (r : res A) (s : session) : res answer * session := (rmap f r, s).
(* [a return statement] *)
Definition answers {A} (f : A -> answer) (p : res A * session) : res answer * session := (rmap f (fst p), snd p).
(* [a return statement] *)
Definition uses_file {A} (f : A -> answer) (m : io A) (s : session) : res answer * session :=
  let (r, fl) := m (s_file s) in (rmap f r, mk_session (s_memo s) fl).

(* [reader.py:422-579, 642-731, 785-838] *)
Definition exec (native : endian) (r : reader) (c : call) (s : session) : res answer * session :=
  match c with
  | NumTraces => pure AInt (Ok (rd_num_traces r)) s
  | TraceIndexes => pure AInts (Ok (rd_trace_indexes r)) s
  | MaxNumTraceSamples => answers AInt (memoised m_max put_max (rd_max_num_trace_samples r) s)
  | NumTraceSamples k => pure AInt (rd_num_trace_samples r k) s
  | TraceSamples k a b => uses_file ASamples (rd_trace_samples native r k a b) s
  | TraceHeader k o => uses_file AHeader (rd_trace_header r k o) s
  | Dimensionality => pure AInt (Ok (rd_dimensionality r)) s
  | TextualReelHeader => pure AText (Ok (rd_text r)) s
  | BinaryReelHeaderOf => pure AHeader (Ok (rd_binary r)) s
  | ExtendedTextualHeader => pure APages (Ok (rd_ext r)) s
  | Revision => pure AInt (Ok (rd_revision r)) s
  | BytesPerSample => pure AInt (Ok (rd_bps r)) s
  | Encoding => pure AEncoding (Ok (rd_encoding r)) s
  | Endian => pure AEndian (Ok (rd_endian r)) s
  | DataSampleFormatOf => pure AType (sample_format (rd_binary r)) s
  | InlineNumbers => answers ASeq (memoised m_inline put_inline (rd_inline_numbers r) s)
  | NumInlines => answers (fun q => AInt (sseq_len q)) (memoised m_inline put_inline (rd_inline_numbers r) s)
  | XlineNumbers => answers ASeq (memoised m_xline put_xline (rd_xline_numbers r) s)
  | NumXlines => answers (fun q => AInt (sseq_len q)) (memoised m_xline put_xline (rd_xline_numbers r) s)
  | InlineXlineNumbers => pure APairs (rd_inline_xline_numbers r) s
  | HasTraceIndex3 key => pure ABool (rd_has_trace_index3 r key) s
  | TraceIndex3 key => pure AInt (rd_trace_index3 r key) s
  | CdpNumbers => answers ASeq (memoised m_cdp put_cdp (rd_cdp_numbers r) s)
  | NumCdps => pure AInt (rd_num_cdps r) s
  | HasTraceIndex2 k => pure ABool (rd_has_trace_index2 r k) s
  | TraceIndex2 k => pure AInt (rd_trace_index2 r k) s
  end.

(* a series of calls; the state after it
   [calls by a client; no line of its own] *)
Definition exec_all (native : endian) (r : reader) (cs : list call) (s : session) : session :=
  fold_left (fun s c => snd (exec native r c s)) cs s.

(* ------------------------------------------------------------------ *)
(* dataset.py: an object with the Dataset interface, as write_segy sees it
   [dataset.py:6-97] *)
Record dataset : Type := mk_dataset {
  ds_text : list text; ds_binary : header; ds_ext : list (list text);
  ds_encoding : option (option encoding);  (* None: no such attribute *)
  ds_num_traces : Z; ds_trace_indexes : list Z;
  ds_trace_header : Z -> res header;
  ds_trace_samples : Z -> option Z -> option Z -> res (list real);
  ds_sample_format : res segytype;
  ds_dimensionality : Z }.

(* A reader is a dataset.  Its answers do not depend on the position of the
   file (property C60), so the file is given here once.
   [reader.py:291, class SegYReader(Dataset)] *)
Definition reader_dataset (native : endian) (r : reader) (f : file) : dataset :=
  mk_dataset (rd_text r) (rd_binary r) (rd_ext r) (Some (Some (rd_encoding r)))
    (rd_num_traces r) (rd_trace_indexes r)
    (fun k => fst (rd_trace_header r k None f))
    (fun k a b => fst (rd_trace_samples native r k a b f))
    (sample_format (rd_binary r))
    (rd_dimensionality r).

(* dataset.py:100-149 DelegatingDataset: every member forwards to the source
   except data_sample_format, which is that of Dataset (87-91) *)
Definition delegating (src : dataset) : dataset :=
  mk_dataset (ds_text src) (ds_binary src) (ds_ext src) (ds_encoding src)
    (ds_num_traces src) (ds_trace_indexes src)
    (fun k => ds_trace_header src k)
    (fun k a b => ds_trace_samples src k a b)
    (sample_format (ds_binary src))
    (ds_dimensionality src).

(* writer.py:52-59 the loop over the traces *)
Fixpoint write_traces (ds : dataset) (p : packer) (e : endian) (n : Z) (ks : list Z) : wio unit :=
  match ks with
  | [] => wret tt
  | k :: ks =>
      go h <- on_file (lift (ds_trace_header ds k)) ;;
      go _ <- on_file (write_trace_header h p) ;;
      go samples <- on_file (lift (ds_trace_samples ds k None None)) ;;
      go t <- on_file (lift (ds_sample_format ds)) ;;
      go _ <- on_file (write_binary_values samples t e) ;;
      go _ <- report k n ;;
      write_traces ds p e n ks
  end.

(* writer.py:9-61 write_segy.  The world is the destination file and the
   progress calls. *)
Definition write_segy (ds : dataset) (enc : option encoding) (tc : fmt) (e : endian) (progress : progress_arg)
  : wio unit :=
  match progress with
  | NotCallable => wraise TypeError
  | _ =>
    let enc := match enc with
               | Some x => x
               | None => match ds_encoding ds with Some (Some x) => x | _ => ASCII end
               end in
    if negb (is_supported_encoding enc) then wraise UnsupportedEncodingError
    else
      go _ <- on_file (write_textual_reel_header (ds_text ds) enc) ;;
      go _ <- on_file (write_binary_reel_header (ds_binary ds) e) ;;
      go _ <- on_file (write_extended_textual_headers (ds_ext ds) enc) ;;
      go p <- on_file (lift (make_header_packer tc e)) ;;
      go _ <- write_traces ds p e (ds_num_traces ds) (ds_trace_indexes ds) ;;
      report 1 1
  end.
