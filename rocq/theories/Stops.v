(* write_segy as the sequence of what it does to the file and whom it tells, so that
   the program can be stopped at any point of it: killed, or out of disk space.
   No proofs here; that this is the write_segy of Reader.v is C137_operations. *)
From Coq Require Import String ZArith List Bool.
From Verif Require Import Py Util FileIO Text TextIO Packing Toolkit Reader.
Import ListNotations.
Open Scope list_scope.
Open Scope Z_scope.

(* fh.seek(p), fh.write(b), progress_callback(num / den)
   [toolkit.py:679, 696, 768, 789, 804, 842, writer.py:59-61] *)
Inductive op : Set := Seek_to (p : Z) | Put (b : list Z) | Report (num den : Z).
(* the operations of a piece of code, and what it returns or raises after them
   [statements; no line of their own] *)
Definition ops (A : Type) : Type := (list op * res A)%type.
Definition olift {A} (r : res A) : ops A := ([], r).
Definition oraise {A} (y : exn) : ops A := ([], Err y).
Definition odo (o : op) : ops unit := ([o], Ok tt).
Definition obind {A B} (m : ops A) (k : A -> ops B) : ops B :=
  match m with
  | (l, Ok a) => let (l', r) := k a in (l ++ l', r)
  | (l, Err y) => (l, Err y)
  end.
Notation "'act' x <- m ;; k" := (obind m (fun x => k))
  (at level 200, x pattern, m at level 100, k at level 200, right associativity).

(* toolkit.py:643-679 write_textual_reel_header *)
Definition text_ops (lines : list text) (e : encoding) : ops unit :=
  if negb (is_supported_encoding e) then oraise UnsupportedEncodingError
  else
    act padded <- olift (map_res (encode_card e) (pad_to lines [] CARDS_PER_HEADER)) ;;
    let joined := concat padded in
    if negb (zlen joined =? TEXTUAL_HEADER_NUM_BYTES) then oraise AssertionError
    else odo (Put joined).

(* toolkit.py:682-696 write_binary_reel_header *)
Definition binary_ops (h : header) (e : endian) : ops unit :=
  act p <- olift (make_header_packer (h_cls h) e) ;;
  act buffer <- olift (pk_pack p h) ;;
  odo (Put buffer).

(* toolkit.py:742-789 write_extended_textual_headers *)
Fixpoint pages_ops (pages : list (list (list Z))) : ops unit :=
  match pages with
  | [] => olift (Ok tt)
  | p :: pages =>
      if negb (zlen (concat p) =? TEXTUAL_HEADER_NUM_BYTES) then oraise AssertionError
      else act _ <- odo (Put (concat p)) ;; pages_ops pages
  end.
(* [toolkit.py:742-789] *)
Definition ext_ops (pages : list (list text)) (e : encoding) : ops unit :=
  if negb (is_supported_encoding e) then oraise UnsupportedEncodingError
  else
    act _ <- odo (Seek_to REEL_HEADER_NUM_BYTES) ;;
    act encoded <- olift (map_res (encode_page e) pages) ;;
    pages_ops encoded.

(* writer.py:52-59 the loop over the traces; toolkit.py:792-842 *)
Fixpoint traces_ops (ds : dataset) (p : packer) (e : endian) (n : Z) (ks : list Z) : ops unit :=
  match ks with
  | [] => olift (Ok tt)
  | k :: ks =>
      act h <- olift (ds_trace_header ds k) ;;
      act hb <- olift (pk_pack p h) ;;
      act _ <- odo (Put hb) ;;
      act samples <- olift (ds_trace_samples ds k None None) ;;
      act t <- olift (ds_sample_format ds) ;;
      act sb <- olift (pack_samples e (ctype_of t) samples) ;;
      act _ <- odo (Put sb) ;;
      act _ <- (if n =? 0 then oraise ZeroDivisionError else odo (Report k n)) ;;
      traces_ops ds p e n ks
  end.

(* writer.py:9-61 write_segy *)
Definition operations (ds : dataset) (enc : option encoding) (tc : fmt) (e : endian) (progress : progress_arg) : ops unit :=
  match progress with
  | NotCallable => oraise TypeError
  | _ =>
    let enc := match enc with
               | Some x => x
               | None => match ds_encoding ds with Some (Some x) => x | _ => ASCII end
               end in
    if negb (is_supported_encoding enc) then oraise UnsupportedEncodingError
    else
      act _ <- text_ops (ds_text ds) enc ;;
      act _ <- binary_ops (ds_binary ds) e ;;
      act _ <- ext_ops (ds_ext ds) enc ;;
      act p <- olift (make_header_packer tc e) ;;
      act _ <- traces_ops ds p e (ds_num_traces ds) (ds_trace_indexes ds) ;;
      odo (Report 1 1)
  end.
