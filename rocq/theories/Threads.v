(* Model of readers used by several threads.  A call of a member of a reader is
   a program of steps; each step (a seek or a read of the file object, loading
   or storing an attribute that keeps a result) happens at once, and steps of
   different threads are taken in any order.  Simplified: what a call computes
   between two such steps involves only objects that are never changed (the
   catalogs, headers and packers of the reader) and belongs to the step before
   it.  A reader is opened before the threads start. *)
From Coq Require Import ZArith List Bool Arith.
From Verif Require Import Py IbmFloat Util Catalog Packing FileIO Text Toolkit Reader.
Import ListNotations.
Open Scope list_scope.
Open Scope Z_scope.

(* [no line of its own: the steps of a call that returns an A] *)
Inductive prog (A : Type) : Type :=
| Done (r : res A)
| Seek (p : Z) (k : res Datatypes.unit -> prog A)
| Read (n : Z) (k : res (list Z) -> prog A)
| Load (k : memo -> prog A)
| Store (u : memo -> memo) (k : prog A).
Arguments Done {A}. Arguments Seek {A}. Arguments Read {A}. Arguments Load {A}. Arguments Store {A}.

(* Seek and read, then go on with what was read.
   [toolkit.py:451-452, 485-486] *)
Definition seek_read {A} (pos n : Z) (k : list Z -> res A) : prog A :=
  Seek pos (fun r => match r with
    | Err e => Done (Err e)
    | Ok _ => Read n (fun b => match b with Err e => Done (Err e) | Ok b => Done (k b) end)
    end).

(* reader.py:452-496 trace_samples, toolkit.py:461-496 *)
Definition samples_prog (native : endian) (r : reader) (k : Z) (start stop : option Z) : prog (list real) :=
  if negb ((0 <=? k) && (k <? rd_num_traces r)) then Done (Err ValueError)
  else match rd_num_trace_samples r k with Err e => Done (Err e) | Ok n =>
    let start_sample := match start with Some s => s | None => 0 end in
    let stop_sample := match stop with Some s => s | None => n end in
    if negb ((0 <=? stop_sample) && (stop_sample <=? n)) then Done (Err ValueError)
    else if negb ((0 <=? start_sample) && (start_sample <=? stop_sample)) then Done (Err ValueError)
    else match sample_format (rd_binary r) with Err e => Done (Err e) | Ok t =>
    match cat1_get (rd_offsets r) k with Err e => Done (Err e) | Ok offset =>
      let num_items := stop_sample - start_sample in
      let block_size := size_in_bytes (ctype_of t) * num_items in
      seek_read (offset + TRACE_HEADER_NUM_BYTES + start_sample * size_in_bytes (ctype_of t)) block_size (fun buf =>
        if zlen buf <? block_size then Err EOFError
        else do values <- unpack_samples native (rd_endian r) (ctype_of t) buf num_items ;;
             if zlen values =? num_items then Ok values else Err AssertionError)
    end end end.

(* reader.py:498-515 trace_header, toolkit.py:431-458 *)
Definition header_prog (r : reader) (k : Z) (override : option packer) : prog header :=
  if negb ((0 <=? k) && (k <? rd_num_traces r)) then Done (Err ValueError)
  else
    let p := match override with Some p => p | None => rd_packer r end in
    match cat1_get (rd_offsets r) k with Err e => Done (Err e) | Ok pos =>
      seek_read pos TRACE_HEADER_NUM_BYTES (fun data => match pk_unpack p data with Err ValueError => Err EOFError | x => x end)
    end.

(* `if self._x is None: self._x = compute()` then `return self._x`: the
   attribute is loaded again to be returned.  It is an AttributeError if it is
   None then, as the caller uses the value.
   [reader.py:437-439, 662-667, 684-689, 806-808] *)
Definition memo_prog {A} (get : memo -> option A) (put : memo -> A -> memo) (compute : res A) : prog A :=
  let again := Load (fun m => match get m with Some a => Done (Ok a) | None => Done (Err AttributeError) end) in
  Load (fun m => match get m with
    | Some _ => again
    | None => match compute with Err e => Done (Err e) | Ok a => Store (fun m => put m a) again end
    end).

(* [a return statement] *)
Fixpoint then_ {A B} (f : A -> B) (p : prog A) : prog B :=
  match p with
  | Done r => Done (rmap f r)
  | Seek n k => Seek n (fun r => then_ f (k r))
  | Read n k => Read n (fun r => then_ f (k r))
  | Load k => Load (fun m => then_ f (k m))
  | Store u k => Store u (then_ f k)
  end.

(* the steps of a call
   [reader.py:422-579, 642-731, 785-838] *)
Definition prog_of (native : endian) (r : reader) (c : call) : prog answer :=
  match c with
  | NumTraces => Done (Ok (AInt (rd_num_traces r)))
  | TraceIndexes => Done (Ok (AInts (rd_trace_indexes r)))
  | MaxNumTraceSamples => then_ AInt (memo_prog m_max put_max (rd_max_num_trace_samples r))
  | NumTraceSamples k => Done (rmap AInt (rd_num_trace_samples r k))
  | TraceSamples k a b => then_ ASamples (samples_prog native r k a b)
  | TraceHeader k o => then_ AHeader (header_prog r k o)
  | Dimensionality => Done (Ok (AInt (rd_dimensionality r)))
  | TextualReelHeader => Done (Ok (AText (rd_text r)))
  | BinaryReelHeaderOf => Done (Ok (AHeader (rd_binary r)))
  | ExtendedTextualHeader => Done (Ok (APages (rd_ext r)))
  | Revision => Done (Ok (AInt (rd_revision r)))
  | BytesPerSample => Done (Ok (AInt (rd_bps r)))
  | Encoding => Done (Ok (AEncoding (rd_encoding r)))
  | Endian => Done (Ok (AEndian (rd_endian r)))
  | DataSampleFormatOf => Done (rmap AType (sample_format (rd_binary r)))
  | InlineNumbers => then_ ASeq (memo_prog m_inline put_inline (rd_inline_numbers r))
  | NumInlines => then_ (fun q => AInt (sseq_len q)) (memo_prog m_inline put_inline (rd_inline_numbers r))
  | XlineNumbers => then_ ASeq (memo_prog m_xline put_xline (rd_xline_numbers r))
  | NumXlines => then_ (fun q => AInt (sseq_len q)) (memo_prog m_xline put_xline (rd_xline_numbers r))
  | InlineXlineNumbers => Done (rmap APairs (rd_inline_xline_numbers r))
  | HasTraceIndex3 key => Done (rmap ABool (rd_has_trace_index3 r key))
  | TraceIndex3 key => Done (rmap AInt (rd_trace_index3 r key))
  | CdpNumbers => then_ ASeq (memo_prog m_cdp put_cdp (rd_cdp_numbers r))
  | NumCdps => Done (rmap AInt (rd_num_cdps r))
  | HasTraceIndex2 k => Done (rmap ABool (rd_has_trace_index2 r k))
  | TraceIndex2 k => Done (rmap AInt (rd_trace_index2 r k))
  end.

(* All steps of a call, one after the other.
   [no line of its own] *)
Fixpoint run_prog {A} (p : prog A) (s : session) : res A * session :=
  match p with
  | Done r => (r, s)
  | Seek n k => let (r, f) := seek n (s_file s) in run_prog (k r) (mk_session (s_memo s) f)
  | Read n k => let (r, f) := read_opt (Some n) (s_file s) in run_prog (k r) (mk_session (s_memo s) f)
  | Load k => run_prog (k (s_memo s)) s
  | Store u k => run_prog k (mk_session (u (s_memo s)) (s_file s))
  end.

(* A thread: the call it is in (of the reader with this number), the calls it
   still has to make, and the answers it got.
   [no line of its own: a program that uses readers] *)
Record thread : Type := mk_thread {
  th_now : option (nat * prog answer); th_todo : list (nat * call); th_done : list (res answer) }.
(* Readers, file objects and threads are numbered.
   [no line of its own: the objects of a program] *)
Record state : Type := mk_state { st_files : nat -> file; st_memos : nat -> memo; st_threads : nat -> thread }.
(* a reader and the number of its file object
   [reader.py:352, self._fh] *)
Record handle : Type := mk_handle { hd_reader : reader; hd_file : nat }.

(* [an assignment] *)
Definition upd {A} (f : nat -> A) (n : nat) (a : A) (m : nat) : A := if Nat.eqb m n then a else f m.

(* Thread i takes its next step: it begins its next call, or takes a step of
   the call it is in, or gets the answer.
   [no line of its own: the interpreter] *)
Definition step (native : endian) (rs : nat -> handle) (i : nat) (s : state) : state :=
  let t := st_threads s i in
  match th_now t with
  | None => match th_todo t with
      | [] => s
      | (n, c) :: cs => mk_state (st_files s) (st_memos s)
          (upd (st_threads s) i (mk_thread (Some (n, prog_of native (hd_reader (rs n)) c)) cs (th_done t)))
      end
  | Some (n, p) =>
      let j := hd_file (rs n) in
      let next p := upd (st_threads s) i (mk_thread (Some (n, p)) (th_todo t) (th_done t)) in
      match p with
      | Done a => mk_state (st_files s) (st_memos s) (upd (st_threads s) i (mk_thread None (th_todo t) (th_done t ++ [a])))
      | Seek q k => let (x, f) := seek q (st_files s j) in mk_state (upd (st_files s) j f) (st_memos s) (next (k x))
      | Read m k => let (x, f) := read_opt (Some m) (st_files s j) in mk_state (upd (st_files s) j f) (st_memos s) (next (k x))
      | Load k => mk_state (st_files s) (st_memos s) (next (k (st_memos s n)))
      | Store u k => mk_state (st_files s) (upd (st_memos s) n (u (st_memos s n))) (next k)
      end
  end.
(* the steps of a schedule
   [no line of its own: the interpreter] *)
Definition steps (native : endian) (rs : nat -> handle) (schedule : list nat) (s : state) : state :=
  fold_left (fun s i => step native rs i s) schedule s.
(* the beginning: nothing has been called
   [reader.py:363, 638-639, 784] *)
Definition begin (files : nat -> file) (calls : nat -> list (nat * call)) : state :=
  mk_state files (fun _ => no_memo) (fun i => mk_thread None (calls i) []).

(* One thread, several readers of one file object, which the program also uses
   itself.  What it does: a call of a reader, or seeks and reads of its own that
   leave the file at some position.
   [no line of its own: a program that uses readers] *)
Inductive action : Type := Calls (n : nat) (c : call) | Moves (q : Z).
(* what an action changes: the attributes of the readers and the file
   [no line of its own] *)
Definition act (native : endian) (readers : nat -> reader) (s : (nat -> memo) * file) (a : action) : (nat -> memo) * file :=
  match a with
  | Calls n c => let s' := snd (exec native (readers n) c (mk_session (fst s n) (snd s))) in (upd (fst s) n (s_memo s'), s_file s')
  | Moves q => (fst s, mk_file (f_data (snd s)) q)
  end.
