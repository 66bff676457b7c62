(* Model of write_segy when the dataset reads from the file that is being
   written: through a file object of its own (unbuffered, so that it sees what
   has been written), or through the very file object that is written to.
   No proofs here. *)
From Coq Require Import String ZArith List Bool.
From Verif Require Import Py FileIO Text TextIO Packing Toolkit Reader.
Import ListNotations.
Open Scope list_scope.
Open Scope Z_scope.

(* A dataset whose answers depend on the contents a file has at the moment.
   [dataset.py:11-98, reader.py:461-515: the file is read on every call] *)
Definition live : Type := list Z -> dataset.
(* dataset.member(...), evaluated now
   [writer.py:44-59] *)
Definition ask {A} (g : list Z -> res A) : wio A := fun w => (g (f_data (w_file w)), w).

(* writer.py:52-59 the loop over the traces *)
Fixpoint write_traces_live (ds : live) (p : packer) (e : endian) (n : Z) (ks : list Z) : wio unit :=
  match ks with
  | [] => wret tt
  | k :: ks =>
      go h <- ask (fun d => ds_trace_header (ds d) k) ;;
      go _ <- on_file (write_trace_header h p) ;;
      go samples <- ask (fun d => ds_trace_samples (ds d) k None None) ;;
      go t <- ask (fun d => ds_sample_format (ds d)) ;;
      go _ <- on_file (write_binary_values samples t e) ;;
      go _ <- report k n ;;
      write_traces_live ds p e n ks
  end.

(* writer.py:9-61 write_segy; the dataset is asked for its encoding before
   anything is written, and for its text, its binary reel header, its extended
   headers and its traces when they are due *)
Definition write_segy_live (ds : live) (enc : option encoding) (tc : fmt) (e : endian) (progress : progress_arg)
  : wio unit :=
  match progress with
  | NotCallable => wraise TypeError
  | _ =>
      go own <- ask (fun d => Ok (ds_encoding (ds d))) ;;
      let enc := match enc with
                 | Some x => x
                 | None => match own with Some (Some x) => x | _ => ASCII end
                 end in
      if negb (is_supported_encoding enc) then wraise UnsupportedEncodingError
      else
        go text <- ask (fun d => Ok (ds_text (ds d))) ;;
        go _ <- on_file (write_textual_reel_header text enc) ;;
        go binary <- ask (fun d => Ok (ds_binary (ds d))) ;;
        go _ <- on_file (write_binary_reel_header binary e) ;;
        go ext <- ask (fun d => Ok (ds_ext (ds d))) ;;
        go _ <- on_file (write_extended_textual_headers ext enc) ;;
        go p <- on_file (lift (make_header_packer tc e)) ;;
        go ks <- ask (fun d => Ok (ds_trace_indexes (ds d))) ;;
        go n <- ask (fun d => Ok (ds_num_traces (ds d))) ;;
        go _ <- write_traces_live ds p e n ks ;;
        report 1 1
  end.

(* A reader as such a dataset: it keeps its headers and catalogs, and reads the
   traces from the file when asked.
   [reader.py:461-515] *)
Definition reading (native : endian) (r : reader) : live := fun d => reader_dataset native r (mk_file d 0).

(* writer.py:52-59 the loop over the traces, when dataset is a reader of the
   file object that is written to: reading moves its position *)
Fixpoint write_traces_shared (native : endian) (r : reader) (p : packer) (e : endian) (n : Z) (ks : list Z) : wio unit :=
  match ks with
  | [] => wret tt
  | k :: ks =>
      go h <- on_file (rd_trace_header r k None) ;;
      go _ <- on_file (write_trace_header h p) ;;
      go samples <- on_file (rd_trace_samples native r k None None) ;;
      go t <- on_file (lift (sample_format (rd_binary r))) ;;
      go _ <- on_file (write_binary_values samples t e) ;;
      go _ <- report k n ;;
      write_traces_shared native r p e n ks
  end.
(* writer.py:9-61 write_segy(reader, fh) with the reader's own fh *)
Definition write_segy_shared (native : endian) (r : reader) (enc : option encoding) (tc : fmt) (e : endian)
  (progress : progress_arg) : wio unit :=
  match progress with
  | NotCallable => wraise TypeError
  | _ =>
    let enc := match enc with Some x => x | None => rd_encoding r end in
    if negb (is_supported_encoding enc) then wraise UnsupportedEncodingError
    else
      go _ <- on_file (write_textual_reel_header (rd_text r) enc) ;;
      go _ <- on_file (write_binary_reel_header (rd_binary r) e) ;;
      go _ <- on_file (write_extended_textual_headers (rd_ext r) enc) ;;
      go p <- on_file (lift (make_header_packer tc e)) ;;
      go _ <- write_traces_shared native r p e (rd_num_traces r) (rd_trace_indexes r) ;;
      report 1 1
  end.
