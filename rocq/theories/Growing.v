(* create_reader as the sequence of what it asks of the file object, so that the
   file can change between any two of these steps.  No proofs here; that this is
   the create_reader of Reader.v when the file does not change is C141_steps.
   Simplified: asking for the length (seek to the end, tell, seek back) is one
   step; a read sees the file as it is at one moment. *)
From Coq Require Import String ZArith List Bool.
From Verif Require Import Py Util Catalog Packing Formats FileIO Text TextIO Toolkit Reader.
Import ListNotations.
Local Open Scope string_scope.
Open Scope list_scope.
Open Scope Z_scope.

(* the steps of a piece of code that returns an A
   [no line of its own: uses of fh, and calls of the progress callback] *)
Inductive steps (A : Type) : Type :=
| Fin (r : res A)
| AskLength (k : Z -> steps A)
| AskPos (k : Z -> steps A)
| MoveTo (p : Z) (k : steps A)
| GetBytes (n : Z) (k : list Z -> steps A)
| Show (num den : Z) (k : steps A).
Arguments Fin {A}. Arguments AskLength {A}. Arguments AskPos {A}. Arguments MoveTo {A}. Arguments GetBytes {A}. Arguments Show {A}.

(* [one statement after another] *)
Fixpoint sbind {A B} (m : steps A) (k : A -> steps B) : steps B :=
  match m with
  | Fin (Ok a) => k a
  | Fin (Err y) => Fin (Err y)
  | AskLength f => AskLength (fun n => sbind (f n) k)
  | AskPos f => AskPos (fun n => sbind (f n) k)
  | MoveTo p f => MoveTo p (sbind f k)
  | GetBytes n f => GetBytes n (fun b => sbind (f b) k)
  | Show a b f => Show a b (sbind f k)
  end.
Notation "'step' x <- m ;; k" := (sbind m (fun x => k))
  (at level 200, x pattern, m at level 100, k at level 200, right associativity).

(* fh.seek(p), fh.read(n), the progress callback
   [toolkit.py:391-393, reader.py:157] *)
Definition s_seek (p : Z) : steps unit := if p <? 0 then Fin (Err ValueError) else MoveTo p (Fin (Ok tt)).
(* [toolkit.py:157, 181, 393] *)
Definition s_read (n : Z) : steps (list Z) := GetBytes n (fun b => Fin (Ok b)).
(* [toolkit.py:391, 410-423, reader.py:157] *)
Definition s_report (num den : Z) : steps unit := if den =? 0 then Fin (Err ZeroDivisionError) else Show num den (Fin (Ok tt)).

(* toolkit.py:127-142 guess_textual_header_encoding *)
Definition guess_steps : steps (option encoding) :=
  step original <- AskPos (fun q => Fin (Ok q)) ;;
  step _ <- s_seek 0 ;;
  step raw <- s_read TEXTUAL_HEADER_NUM_BYTES ;;
  step _ <- s_seek original ;;
  Fin (Ok (guess_encoding raw 1 2)).

(* toolkit.py:145-165 read_textual_reel_header *)
Definition text_steps (e : encoding) : steps (list text) :=
  step raw <- s_read TEXTUAL_HEADER_NUM_BYTES ;;
  if zlen raw <? TEXTUAL_HEADER_NUM_BYTES then Fin (Err EOFError)
  else Fin (do batches <- batched raw CARD_LENGTH None ;; map_res (decode e) batches).

(* toolkit.py:168-183 read_binary_reel_header, for formats with a length *)
Definition binary_steps (c : fmt) (e : endian) : steps header :=
  step p <- Fin (make_header_packer c e) ;;
  step n <- Fin (match fmt_length c with Some n => Ok n | None => Err AttributeError end) ;;
  step buffer <- s_read n ;;
  Fin (pk_unpack p buffer).

(* toolkit.py:206-228 read_extended_headers_until_end *)
Fixpoint until_end_steps (fuel : nat) (e : encoding) (acc : list (list text)) : steps (list (list text)) :=
  match fuel with
  | O => Fin (Err OutOfFuel)
  | S fuel =>
      step ext <- text_steps e ;;
      step last <- Fin (has_end_text_stanza ext) ;;
      if last : bool then Fin (Ok (acc ++ [ext])) else until_end_steps fuel e (acc ++ [ext])
  end.
(* toolkit.py:231-269 read_extended_headers_counted *)
Fixpoint counted_steps (todo : list Z) (num_expected : Z) (e : encoding) (acc : list (list text)) : steps (list (list text)) :=
  match todo with
  | [] => Fin (Ok acc)
  | i :: todo =>
      step ext <- text_steps e ;;
      step last <- Fin (has_end_text_stanza ext) ;;
      if last && negb (i =? num_expected - 1) then Fin (Err ValueError)
      else counted_steps todo num_expected e (acc ++ [ext])
  end.
(* toolkit.py:272-304 read_extended_textual_headers *)
Definition ext_steps (fuel : nat) (declared : Z) (e : encoding) : steps (list (list text)) :=
  step _ <- s_seek REEL_HEADER_NUM_BYTES ;;
  if declared <? 0 then until_end_steps fuel e []
  else if declared <? 0 then Fin (Err ValueError)
  else counted_steps (range_list (mk_range 0 declared 1)) declared e [].

(* toolkit.py:390-408 the loop of catalog_traces *)
Fixpoint scan_steps (fuel : nat) (p : packer) (bps length trace_number pos_begin : Z) (b : builders) : steps builders :=
  match fuel with
  | O => Fin (Err OutOfFuel)
  | S fuel =>
      step _ <- s_report (3 * pos_begin) (4 * length) ;;
      step _ <- s_seek pos_begin ;;
      step data <- s_read TRACE_HEADER_NUM_BYTES ;;
      if zlen data <? TRACE_HEADER_NUM_BYTES then Fin (Ok b)
      else
        step h <- Fin (pk_unpack p data) ;;
        step num_samples <- Fin (hdr_get h "num_samples") ;;
        step inline <- Fin (hdr_get h "inline_number") ;;
        step crossline <- Fin (hdr_get h "crossline_number") ;;
        step ensemble <- Fin (hdr_get h "ensemble_num") ;;
        scan_steps fuel p bps length (trace_number + 1)
          (pos_begin + TRACE_HEADER_NUM_BYTES + num_samples * bps)
          (mk_builders (b_lengths b ++ [(trace_number, num_samples)])
                       (b_offsets b ++ [(trace_number, pos_begin)])
                       (b_lines b ++ [((inline, crossline), trace_number)])
                       (b_cdps b ++ [(ensemble, trace_number)]))
  end.
(* toolkit.py:311-428 catalog_traces *)
Definition catalog_steps (fuel : nat) (bps : Z) (c : fmt) (e : endian) : steps catalogs :=
  step sub <- Fin (sub_format "CatalogSubFormat" c catalog_field_names) ;;
  step p <- Fin (make_header_packer sub e) ;;
  step length <- AskLength (fun n => Fin (Ok n)) ;;
  step pos_begin <- AskPos (fun q => Fin (Ok q)) ;;
  step b <- scan_steps fuel p bps length 0 pos_begin (mk_builders [] [] [] []) ;;
  step _ <- s_report 3 4 ;;
  step offsets <- Fin (fst (create1 (b_offsets b))) ;;
  step _ <- s_report 15 16 ;;
  step lengths <- Fin (fst (create1 (b_lengths b))) ;;
  step _ <- s_report 9 8 ;;
  step cdps <- Fin (fst (create1 (b_cdps b))) ;;
  step _ <- s_report 21 16 ;;
  step lines <- Fin (fst (create2 (b_lines b))) ;;
  step _ <- s_report 1 1 ;;
  Fin (Ok (offsets, lengths, cdps, lines)).

(* reader.py:252-288 _make_reader, the part after the encoding is known *)
Definition known_steps (fuel1 fuel2 : nat) (enc : encoding) (bc tc : fmt) (e : endian) (dim : option Z) : steps reader :=
  step tx <- text_steps enc ;;
  step bin <- binary_steps bc e ;;
  step _ <- s_seek REEL_HEADER_NUM_BYTES ;;
  step declared <- Fin (num_extended_textual_headers bin) ;;
  step ext <- ext_steps fuel1 declared enc ;;
  step bps <- Fin (bytes_per_sample bin) ;;
  step (offsets, lengths, cdps, lines) <- catalog_steps fuel2 bps tc e ;;
  let dim := match dim with
             | Some d => d
             | None => match cdps, lines with
                       | Some _, None => 2
                       | _, Some _ => 3
                       | None, None => 1
                       end
             end in
  if negb ((1 <=? dim) && (dim <=? 3)) then Fin (Err AssertionError)
  else
    let kind := if dim =? 1 then Plain
                else if dim =? 2 then Kind2D (cat1_or_empty cdps)
                else Kind3D (cat2_or_empty lines) in
    Fin (reader_init kind tx bin ext (cat1_or_empty offsets) (cat1_or_empty lengths) tc enc e).
(* reader.py:252-288 _make_reader *)
Definition make_steps (fuel1 fuel2 : nat) (enc : option encoding) (bc tc : fmt) (e : endian) (dim : option Z) : steps reader :=
  step enc <- match enc with
              | Some x => Fin (Ok x)
              | None => step g <- guess_steps ;; Fin (Ok (match g with Some x => x | None => ASCII end))
              end ;;
  known_steps fuel1 fuel2 enc bc tc e dim.

(* reader.py:38-159 create_reader with cache_directory=None.  fuel1 bounds the
   number of extended headers, fuel2 the number of traces. *)
Definition open_steps (fuel1 fuel2 : nat) (a : file_attrs) (enc : option encoding) (bc tc : fmt) (e : option endian)
  (progress : progress_arg) (dim : option Z) : steps reader :=
  if fa_closed a then Fin (Err ValueError)
  else if fa_text a then Fin (Err TypeError)
  else if negb (fa_seekable a) then Fin (Err TypeError)
  else
    step num_file_bytes <- AskLength (fun n => Fin (Ok n)) ;;
    if num_file_bytes <? REEL_HEADER_NUM_BYTES then Fin (Err ValueError)
    else match e with
    | None => Fin (Err ValueError)
    | Some e =>
        match progress with
        | NotCallable => Fin (Err TypeError)
        | _ => if match dim with None => false | Some d => negb (zmem d [1; 2; 3]) end then Fin (Err ValueError)
               else
                 step r <- make_steps fuel1 fuel2 enc bc tc e dim ;;
                 step _ <- s_report 1 1 ;;
                 Fin (Ok r)
        end
    end.
