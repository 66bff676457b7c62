(* Model of the functions of segpy/toolkit.py that read and write textual
   headers.  No proofs here. *)
From Coq Require Import String ZArith List Bool.
From Verif Require Import Py Util FileIO Text.
Import ListNotations.
Open Scope Z_scope.

(* toolkit.py:127-142 guess_textual_header_encoding (threshold 0.5) *)
Definition guess_textual_header_encoding : io (option encoding) :=
  run raw <- restored_position_seek 0 (read TEXTUAL_HEADER_NUM_BYTES) ;;
  ret (guess_encoding raw 1 2).

(* toolkit.py:145-165 read_textual_reel_header *)
Definition read_textual_reel_header (e : encoding) : io (list text) :=
  run raw <- read TEXTUAL_HEADER_NUM_BYTES ;;
  if zlen raw <? TEXTUAL_HEADER_NUM_BYTES then raise EOFError
  else lift (do batches <- batched raw CARD_LENGTH None ;; map_res (decode e) batches).

(* toolkit.py:643-679 write_textual_reel_header *)
Definition encode_card (e : encoding) (line : text) : res (list Z) :=
  do b <- encode e line ;;
  do sp <- encode e [SPACE] ;;
  let fill := match sp with c :: _ => c | [] => 0 end in
  Ok (py_slice (b ++ zrepeat fill (CARD_LENGTH - zlen b)) 0 CARD_LENGTH).
(* [toolkit.py:643-679] *)
Definition write_textual_reel_header (lines : list text) (e : encoding) : io unit :=
  if negb (is_supported_encoding e) then raise UnsupportedEncodingError
  else
    run padded <- lift (map_res (encode_card e) (pad_to lines [] CARDS_PER_HEADER)) ;;
    let joined := concat padded in
    if negb (zlen joined =? TEXTUAL_HEADER_NUM_BYTES) then raise AssertionError
    else write joined.

(* toolkit.py:206-228 read_extended_headers_until_end: the loop, with fuel *)
Fixpoint until_end_loop (fuel : nat) (e : encoding) (acc : list (list text)) : io (list (list text)) :=
  match fuel with
  | O => raise OutOfFuel
  | S fuel =>
      run ext <- read_textual_reel_header e ;;
      run last <- lift (has_end_text_stanza ext) ;;
      if last : bool then ret (acc ++ [ext]) else until_end_loop fuel e (acc ++ [ext])
  end.
(* every round but the last consumes bytes of the file *)
Definition read_extended_headers_until_end (e : encoding) : io (list (list text)) := fun f =>
  until_end_loop (S (length (f_data f))) e [] f.

(* toolkit.py:231-269 read_extended_headers_counted *)
Fixpoint counted_loop (todo : list Z) (num_expected : Z) (e : encoding) (acc : list (list text)) : io (list (list text)) :=
  match todo with
  | [] => ret acc
  | i :: todo =>
      run ext <- read_textual_reel_header e ;;
      run last <- lift (has_end_text_stanza ext) ;;
      if last && negb (i =? num_expected - 1) then raise ValueError
      else counted_loop todo num_expected e (acc ++ [ext])
  end.
(* [toolkit.py:231-269] *)
Definition read_extended_headers_counted (num_expected : Z) (e : encoding) : io (list (list text)) :=
  if num_expected <? 0 then raise ValueError
  else counted_loop (range_list (mk_range 0 num_expected 1)) num_expected e [].

(* toolkit.py:272-304 read_extended_textual_headers; declared is the
   num_extended_textual_headers field of the binary reel header *)
Definition read_extended_textual_headers (declared : Z) (e : encoding) : io (list (list text)) :=
  run _ <- seek REEL_HEADER_NUM_BYTES ;;
  if declared <? 0 then read_extended_headers_until_end e
  else read_extended_headers_counted declared e.

(* toolkit.py:742-789 write_extended_textual_headers *)
Definition encode_ext_line (e : encoding) (line : text) : res (list Z) :=
  do b <- encode e line ;; if negb (zlen b =? CARD_LENGTH) then Err ValueError else Ok b.
(* [toolkit.py:770-784] *)
Definition encode_page (e : encoding) (page : list text) : res (list (list Z)) :=
  do ls <- map_res (encode_ext_line e) page ;;
  if negb (zlen ls =? CARDS_PER_HEADER) then Err ValueError else Ok ls.
(* [toolkit.py:786-789] *)
Fixpoint write_pages (pages : list (list (list Z))) : io unit :=
  match pages with
  | [] => ret tt
  | p :: pages =>
      if negb (zlen (concat p) =? TEXTUAL_HEADER_NUM_BYTES) then raise AssertionError
      else run _ <- write (concat p) ;; write_pages pages
  end.
(* [toolkit.py:742-789] *)
Definition write_extended_textual_headers (pages : list (list text)) (e : encoding) : io unit :=
  if negb (is_supported_encoding e) then raise UnsupportedEncodingError
  else
    run _ <- seek REEL_HEADER_NUM_BYTES ;;
    run encoded <- lift (map_res (encode_page e) pages) ;;
    write_pages encoded.
