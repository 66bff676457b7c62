(* Properties C45-C54 and C72: text codecs, textual headers. *)
From Coq Require Import String ZArith List Bool Permutation.
From Verif Require Import Py Util FileIO Text TextIO Spec_Text TextFacts TextIOFacts ExtReadFacts StdHeaderFacts ExtFormatFacts.
Import ListNotations.
Local Open Scope string_scope.
Open Scope list_scope.
Open Scope Z_scope.

(* ---------------- C45 ---------------- *)

Theorem C45_textual_round_trip : forall (e : encoding) (lines : list text) (f : file),
  supported e -> Forall (encodable e) (firstn 40 lines) -> 0 <= f_pos f ->
  exists b f' rs, write_textual_reel_header lines e f = (Ok tt, f') /\ zlen b = 3200 /\ wrote f b f' /\
    read_textual_reel_header e (mk_file (f_data f') (f_pos f)) = (Ok rs, f') /\ fitted_lines 40 80 lines rs.
Proof. exact textual_round_trip. Qed.
Print Assumptions C45_textual_round_trip.

(* a file longer than the header, an accented letter, forty-one lines *)
Definition C45_lines : list text := lit "C 1 CLIENT" :: [233] :: repeat (lit "X") 39.
Example C45_example : let f := mk_file (repeat 7 4000) 100 in
  Forall (encodable EBCDIC) (firstn 40 C45_lines) /\
  exists f', write_textual_reel_header C45_lines EBCDIC f = (Ok tt, f') /\ zlen (f_data f') = 4000 /\ f_pos f' = 3300 /\
    nth 99 (f_data f') 0 = 7 /\ nth 100 (f_data f') 0 = 195 /\ nth 180 (f_data f') 0 = 81 /\ nth 3299 (f_data f') 0 = 64 /\ nth 3300 (f_data f') 0 = 7.
Proof.
  cbn zeta. split. { repeat constructor; cbn; discriminate. } eexists. split; [vm_compute; reflexivity|].
  do 6 (split; [vm_compute; reflexivity|]). vm_compute. reflexivity.
Qed.

(* ---------------- C46 ---------------- *)

Theorem C46_textual_refused : forall (e : encoding) (lines : list text) (f : file),
  (~ supported e -> write_textual_reel_header lines e f = (Err UnsupportedEncodingError, f)) /\
  (supported e -> Forall is_text lines -> ~ Forall (encodable e) (firstn 40 lines) ->
     write_textual_reel_header lines e f = (Err UnicodeEncodeError, f)) /\
  (supported e -> Forall (encodable e) (firstn 40 lines) -> fst (write_textual_reel_header lines e f) = Ok tt).
Proof. exact write_textual_refused. Qed.
Print Assumptions C46_textual_refused.

Theorem C46_extended_refused : forall (e : encoding) (pages : list (list text)) (f : file),
  supported e -> Forall (Forall is_text) pages -> ~ Forall (page_ok e) pages ->
  (write_extended_textual_headers pages e f = (Err ValueError, mk_file (f_data f) 3600) \/
   write_extended_textual_headers pages e f = (Err UnicodeEncodeError, mk_file (f_data f) 3600)) /\
  (Forall (Forall (encodable e)) pages -> fst (write_extended_textual_headers pages e f) = Err ValueError) /\
  (Forall (fun p => zlen p = 40 /\ Forall (fun l => zlen l = 80) p) pages ->
     fst (write_extended_textual_headers pages e f) = Err UnicodeEncodeError).
Proof. exact write_ext_refused. Qed.
Print Assumptions C46_extended_refused.

Theorem C46_extended_unsupported : forall (e : encoding) (pages : list (list text)) (f : file), ~ supported e ->
  write_extended_textual_headers pages e f = (Err UnsupportedEncodingError, f).
Proof. exact ext_unsupported. Qed.
Print Assumptions C46_extended_unsupported.

Example C46_example :
  write_textual_reel_header [lit "A"; [233]] ASCII (mk_file [1; 2] 1) = (Err UnicodeEncodeError, mk_file [1; 2] 1) /\
  fst (write_textual_reel_header (repeat (lit "A") 40 ++ [[233]]) ASCII (mk_file [1; 2] 1)) = Ok tt /\
  write_extended_textual_headers [repeat (repeat 32 80) 40; repeat (repeat 32 80) 39] ASCII (mk_file [1; 2] 1) = (Err ValueError, mk_file [1; 2] 3600).
Proof. do 2 (split; [vm_compute; reflexivity|]). vm_compute. reflexivity. Qed.

(* ---------------- C47 ---------------- *)

Theorem C47_standard_header : forall (revision : Z) (m : text) (kwargs : list (string * text)),
  end_marker_text revision m -> NoDup (map fst kwargs) ->
  (forall p, In p kwargs -> In (fst p) (map (fun c => fst (fst (fst c))) card_fields)) ->
  exists ls, format_standard_textual_header revision kwargs = Ok ls /\ zlen ls = 40 /\ Forall (fun l => zlen l = 80) ls /\
    (forall name card col width v, In (name, card, col, width) card_fields -> field_value m kwargs name v ->
       fitted width v (columns ls card col width)) /\
    (forall card col, 1 <= card <= 40 -> 1 <= col <= 80 -> ~ in_field card col ->
       columns ls card col 1 = columns (map lit blank_cards) card col 1).
Proof. exact format_standard. Qed.
Print Assumptions C47_standard_header.

Theorem C47_unknown_keyword : forall (revision : Z) (m : text) (kwargs : list (string * text)) (p : string * text),
  end_marker_text revision m -> NoDup (map fst kwargs) -> In p kwargs ->
  ~ In (fst p) (map (fun c => fst (fst (fst c))) card_fields) -> format_standard_textual_header revision kwargs = Err TypeError.
Proof. exact format_unknown. Qed.
Print Assumptions C47_unknown_keyword.

Theorem C47_unknown_revision : forall (revision : Z) (kwargs : list (string * text)),
  revision <> 0 -> revision <> 256 -> format_standard_textual_header revision kwargs = Err KeyError.
Proof. exact format_revision. Qed.
Print Assumptions C47_unknown_revision.

Example C47_example : exists ls, format_standard_textual_header 256 [("client", lit "ACME"); ("year", lit "20231")] = Ok ls /\
  nth 0 ls [] = lit "C 1 CLIENT ACME                   COMPANY                       CREW NO         " /\
  columns ls 3 46 8 = lit "EAR 2023" /\
  nth 39 ls [] = lit "C40 END TEXTUAL HEADER                                                          " /\
  format_standard_textual_header 256 [("no_such_field", lit "1")] = Err TypeError.
Proof. eexists. do 4 (split; [vm_compute; reflexivity|]). vm_compute. reflexivity. Qed.

(* ---------------- C48 ---------------- *)

Theorem C48_format_parse : forall (revision : Z) (m : text) (kwargs : list (string * text)),
  end_marker_text revision m -> NoDup (map fst kwargs) ->
  (forall p, In p kwargs -> In (fst p) (map (fun c => fst (fst (fst c))) card_fields)) ->
  exists ls d, format_standard_textual_header revision kwargs = Ok ls /\ parse_standard_textual_header ls = Ok d /\
    map fst d = map (fun c => fst (fst (fst c))) card_fields /\
    (forall name card col width v, In (name, card, col, width) card_fields -> field_value m kwargs name v ->
       exists r, In (name, r) d /\ stripped (firstn (Z.to_nat width) v) r).
Proof. exact format_parse. Qed.
Print Assumptions C48_format_parse.

(* what a field of any well-formed header parses to *)
Theorem C48_parse : forall ls : list text, zlen ls = 40 -> Forall (fun l => zlen l = 80) ls ->
  exists d, parse_standard_textual_header ls = Ok d /\ map fst d = map (fun c => fst (fst (fst c))) card_fields /\
    (forall name card col width, In (name, card, col, width) card_fields -> exists r, In (name, r) d /\ stripped (columns ls card col width) r).
Proof. exact parse_ok. Qed.
Print Assumptions C48_parse.

Theorem C48_parse_rejects : forall ls : list text, ~ (zlen ls = 40 /\ Forall (fun l => zlen l = 80) ls) ->
  parse_standard_textual_header ls = Err ValueError.
Proof. exact parse_rejects. Qed.
Print Assumptions C48_parse_rejects.

Example C48_example : exists ls d, format_standard_textual_header 0 [("client", lit "  ACME OIL "); ("year", lit "20231")] = Ok ls /\
  parse_standard_textual_header ls = Ok d /\ lookup "client" d = Some (lit "ACME OIL") /\ lookup "year" d = Some (lit "2023") /\
  lookup "company" d = Some [] /\ lookup "end_marker" d = Some (lit "END EBCDIC").
Proof. eexists _, _. do 5 (split; [vm_compute; reflexivity|]). vm_compute. reflexivity. Qed.

(* ---------------- C49 ---------------- *)

Theorem C49_extended_pages : forall (s : text) (e : encoding), supported e ->
  exists pages content k, format_extended_textual_header s e false = Ok pages /\ page_lines s content /\ 0 <= k < 40 /\
    Forall (fun p => zlen p = 40) pages /\ Forall2 header_line (content ++ zrepeat [] k) (concat pages).
Proof. exact format_pages. Qed.
Print Assumptions C49_extended_pages.

Theorem C49_text_stop : forall (s : text) (e : encoding) (pages : list (list text)), supported e ->
  format_extended_textual_header s e false = Ok pages ->
  format_extended_textual_header s e true = Ok (pages ++ [stop_page]).
Proof. exact format_stop. Qed.
Print Assumptions C49_text_stop.
Theorem C49_stop_page : forall e : encoding, supported e ->
  exists l ls, stop_page = l :: ls /\ header_line (lit "((SEG: EndText))") l /\ Forall2 header_line (zrepeat [] 39) ls /\
    page_ok e stop_page /\ end_page stop_page.
Proof. exact stop_page_ok. Qed.
Print Assumptions C49_stop_page.

(* the lines of a text are well defined *)
Theorem C49_lines_unique : forall (s : text) (ls ms : list text), text_lines s ls -> text_lines s ms -> ls = ms.
Proof. exact text_lines_unique. Qed.
Print Assumptions C49_lines_unique.

(* pages of an encodable text can be written (C51) *)
Theorem C49_writable : forall (s : text) (e : encoding) (pages : list (list text)), supported e -> encodable e s ->
  format_extended_textual_header s e false = Ok pages -> Forall (page_ok e) pages.
Proof. exact format_page_ok. Qed.
Print Assumptions C49_writable.

Theorem C49_unsupported : forall (s : text) (e : encoding) (stop : bool), ~ supported e ->
  format_extended_textual_header s e stop = Err UnsupportedEncodingError.
Proof. exact format_ext_unsupported. Qed.
Print Assumptions C49_unsupported.

Example C49_example : exists page last, format_extended_textual_header (lit "alpha" ++ [13; 10] ++ repeat 120 100 ++ [10] ++ lit "z") ASCII true = Ok [page; last] /\
  nth 0 page [] = lit "alpha" ++ repeat 32 73 ++ [13; 10] /\ nth 1 page [] = repeat 120 78 ++ [13; 10] /\
  nth 2 page [] = repeat 120 22 ++ repeat 32 56 ++ [13; 10] /\ nth 3 page [] = lit "z" ++ repeat 32 77 ++ [13; 10] /\
  nth 39 page [] = repeat 32 78 ++ [13; 10] /\ firstn 16 (nth 0 last []) = lit "((SEG: EndText))".
Proof. eexists _, _. do 6 (split; [vm_compute; reflexivity|]). vm_compute. reflexivity. Qed.

(* ---------------- C50 ---------------- *)

(* Blank lines of the text vanish: "a", "", "b" becomes two header lines. *)
Theorem C50_blank_lines_refuted : exists s ls pages,
  text_lines s ls /\ nth 1 ls [0] = [] /\ zlen ls = 3 /\
  format_extended_textual_header s ASCII false = Ok pages /\
  header_line (lit "a") (nth 0 (concat pages) []) /\ header_line (lit "b") (nth 1 (concat pages) []).
Proof.
  exists [97; 10; 10; 98], [[97]; []; [98]]. eexists. split. { apply (splitlines_ok [97; 10; 10; 98]). }
  do 2 (split; [reflexivity|]). split; [vm_compute; reflexivity|].
  split; apply (pad_line_ok [_]); vm_compute; discriminate.
Qed.
Print Assumptions C50_blank_lines_refuted.

(* Texts without blank lines: every line occupies at least one header line. *)
Theorem C50_no_blank_lines_partial : forall (s : text) (content ls : list text),
  page_lines s content -> text_lines s ls -> Forall (fun l => l <> []) ls ->
  exists pss, Forall2 (pieces 78) ls pss /\ content = concat pss /\ Forall (fun ps => ps <> []) pss.
Proof. exact no_blank_occupied. Qed.
Print Assumptions C50_no_blank_lines_partial.

Example C50_example : text_lines (lit "ab" ++ [10] ++ lit "c") [lit "ab"; lit "c"] /\ Forall (fun l => l <> []) [lit "ab"; lit "c"].
Proof. split. { apply (splitlines_ok (lit "ab" ++ [10] ++ lit "c")). } repeat constructor; discriminate. Qed.

(* ---------------- C51 ---------------- *)

Theorem C51_counted : forall (e : encoding) (pages : list (list text)) (f : file),
  supported e -> Forall (page_ok e) pages -> Forall (fun p => ~ end_page p) (removelast pages) ->
  exists f', write_extended_textual_headers pages e f = (Ok tt, f') /\ f_pos f' = 3600 + 3200 * zlen pages /\
    forall q, read_extended_textual_headers (zlen pages) e (mk_file (f_data f') q) = (Ok pages, f').
Proof. exact ext_round_trip_counted. Qed.
Print Assumptions C51_counted.

Theorem C51_until_end : forall (e : encoding) (pages : list (list text)) (p : list text) (n : Z) (f : file),
  supported e -> n < 0 -> Forall (page_ok e) (pages ++ [p]) -> Forall (fun p => ~ end_page p) pages -> end_page p ->
  exists f', write_extended_textual_headers (pages ++ [p]) e f = (Ok tt, f') /\ f_pos f' = 3600 + 3200 * (zlen pages + 1) /\
    forall q, read_extended_textual_headers n e (mk_file (f_data f') q) = (Ok (pages ++ [p]), f').
Proof. exact ext_round_trip_until. Qed.
Print Assumptions C51_until_end.

(* only the bytes of the pages change *)
Theorem C51_contents : forall (e : encoding) (pages : list (list text)) (f : file),
  supported e -> Forall (page_ok e) pages -> pages <> [] ->
  exists b f', write_extended_textual_headers pages e f = (Ok tt, f') /\ zlen b = 3200 * zlen pages /\
    wrote (mk_file (f_data f) 3600) b f'.
Proof. exact write_ext_wrote. Qed.
Print Assumptions C51_contents.

Definition C51_page : list text := repeat (lit "hello" ++ repeat 32 75) 40.
Example C51_example : Forall (page_ok ASCII) [C51_page] /\ ~ end_page C51_page /\ page_ok ASCII stop_page /\ end_page stop_page.
Proof.
  assert (P : page_ok ASCII C51_page).
  { split; [reflexivity|]. apply Forall_forall. intros l H. apply repeat_spec in H. subst l. split; [reflexivity|].
    apply Forall_forall. intros c Hc.
    assert (Q : forallb (fun c => (0 <=? c) && (c <? 128)) (lit "hello" ++ repeat 32 75) = true) by (vm_compute; reflexivity).
    rewrite forallb_forall in Q. specialize (Q c Hc). apply andb_prop in Q. cbn. destruct Q as (Q1 & Q2). split; [now apply Z.leb_le|now apply Z.ltb_lt]. }
  split; [now constructor|]. split.
  - intros E. destruct (stanza_iff C51_page eq_refl) as (b & H & B). apply B in E. subst b. vm_compute in H. discriminate.
  - destruct (stop_page_ok ASCII (or_introl eq_refl)) as (l & ls & _ & _ & _ & Q). exact Q.
Qed.

(* ---------------- C52 ---------------- *)

Theorem C52_counted : forall (e : encoding) (n : Z) (f : file), supported e -> 0 <= n ->
  exists r q, read_extended_textual_headers n e f = (r, mk_file (f_data f) q) /\
    (forall r', counted_outcome e (f_data f) n r' <-> r' = r) /\
    (forall pages, r = Ok pages -> q = 3600 + 3200 * n).
Proof. exact read_counted_spec. Qed.
Print Assumptions C52_counted.

Theorem C52_until_end : forall (e : encoding) (n : Z) (f : file), supported e -> n < 0 ->
  exists r q, read_extended_textual_headers n e f = (r, mk_file (f_data f) q) /\
    (forall r', until_end_outcome e (f_data f) r' <-> r' = r) /\
    (forall pages, r = Ok pages -> q = 3600 + 3200 * zlen pages).
Proof. exact read_until_spec. Qed.
Print Assumptions C52_until_end.

Definition C52_data : list Z := repeat 0 3600 ++ repeat 65 3200 ++ lit "((SEG: EndText))" ++ repeat 32 3184.
Example C52_example :
  (exists pages, fst (read_extended_textual_headers 2 ASCII (mk_file C52_data 0)) = Ok pages /\ zlen pages = 2) /\
  (exists pages, fst (read_extended_textual_headers (-1) ASCII (mk_file C52_data 0)) = Ok pages /\ zlen pages = 2) /\
  fst (read_extended_textual_headers 3 ASCII (mk_file C52_data 0)) = Err ValueError /\
  fst (read_extended_textual_headers (-1) ASCII (mk_file (firstn (Z.to_nat 6800) C52_data) 0)) = Err EOFError.
Proof.
  split. { eexists. split; [vm_compute; reflexivity|]. vm_compute. reflexivity. }
  split. { eexists. split; [vm_compute; reflexivity|]. vm_compute. reflexivity. }
  split; vm_compute; reflexivity.
Qed.

(* ---------------- C53 ---------------- *)

Theorem C53_guess_common : forall (e : encoding) (s : text) (b : list Z), supported e -> Forall common_char s ->
  encode e s = Ok b -> mostly_unambiguous b -> guess_encoding b 1 2 = Some e.
Proof. exact guess_common. Qed.
Print Assumptions C53_guess_common.

Theorem C53_nul : forall n : Z, 0 < n -> guess_encoding (zrepeat 0 n) 1 2 = Some ASCII.
Proof. intros n. exact (guess_zeros n 1 2). Qed.
Print Assumptions C53_nul.

Theorem C53_empty : guess_encoding [] 1 2 = None.
Proof. exact (guess_empty 1 2). Qed.
Print Assumptions C53_empty.

Theorem C53_order : forall l m : list Z, Permutation l m -> guess_encoding l 1 2 = guess_encoding m 1 2.
Proof. intros l m. exact (guess_perm l m 1 2). Qed.
Print Assumptions C53_order.

Example C53_example : Forall common_char (lit "C 1 CLIENT") /\
  exists b, encode EBCDIC (lit "C 1 CLIENT") = Ok b /\ mostly_unambiguous b /\ guess_encoding b 1 2 = Some EBCDIC.
Proof.
  split.
  { apply Forall_forall. intros c H. apply common_iff. assert (Q : forallb (fun c => zmem c COMMON_CHARS) (lit "C 1 CLIENT") = true) by (vm_compute; reflexivity).
    rewrite forallb_forall in Q. apply PyFacts.zmem_In. now apply Q. }
  eexists. split; [vm_compute; reflexivity|]. split; [|vm_compute; reflexivity].
  eexists [], _. split; [apply Permutation_refl|]. split; [|reflexivity].
  assert (N : forall b, 128 <= b \/ b = 64 -> ~ ambiguous b).
  { intros b Hb ((c & Hc & E) & _). cbn in E. unfold ascii_encode_char in E. destruct (c <? 128) eqn:Q; [|discriminate]. cbn in E.
    injection E as ->. apply Z.ltb_lt in Q. destruct Hb as [Hb| ->]. { apply Z.lt_nge in Q. contradiction. }
    apply common_iff in Hc. assert (R : zmem 64 COMMON_CHARS = false) by (vm_compute; reflexivity). apply PyFacts.zmem_In in Hc. rewrite R in Hc. discriminate. }
  repeat constructor; apply N; (left; discriminate) || (right; reflexivity).
Qed.

(* ---------------- C54 ---------------- *)

Theorem C54_encode_decode : forall (e : encoding) (s : text), supported e -> encodable e s ->
  exists b, encode e s = Ok b /\ zlen b = zlen s /\ bytes_ok b /\ decode e b = Ok s.
Proof. exact encode_decode. Qed.
Print Assumptions C54_encode_decode.

Theorem C54_encodable_exactly : forall (e : encoding) (s : text), supported e -> is_text s ->
  ((exists b, encode e s = Ok b) <-> encodable e s) /\ (encode e s = Err UnicodeEncodeError <-> ~ encodable e s).
Proof. exact encode_iff. Qed.
Print Assumptions C54_encodable_exactly.

Theorem C54_ebcdic_bytes : forall b : list Z, bytes_ok b ->
  exists s, decode EBCDIC b = Ok s /\ zlen s = zlen b /\ encodable EBCDIC s /\ encode EBCDIC s = Ok b.
Proof. exact decode_encode_ebcdic. Qed.
Print Assumptions C54_ebcdic_bytes.

Theorem C54_ascii_bytes : forall b : list Z, bytes_ok b ->
  (Forall (fun x => x < 128) b -> decode ASCII b = Ok b /\ encode ASCII b = Ok b) /\
  (~ Forall (fun x => x < 128) b -> decode ASCII b = Err UnicodeDecodeError).
Proof. exact decode_ascii. Qed.
Print Assumptions C54_ascii_bytes.

(* the letters, digits and signs of EBCDIC have their standard codes *)
Theorem C54_ebcdic_codes : forall (s : string) (b0 i : Z), In (s, b0) ebcdic_runs -> 0 <= i < zlen (lit s) ->
  encode EBCDIC [nth (Z.to_nat i) (lit s) 0] = Ok [b0 + i].
Proof. exact ebcdic_points. Qed.
Print Assumptions C54_ebcdic_codes.

Example C54_example : encode EBCDIC (lit "SEG-Y 1") = Ok [226; 197; 199; 96; 232; 64; 241] /\
  decode EBCDIC [226; 197; 199; 96; 232; 64; 241] = Ok (lit "SEG-Y 1") /\ encode ASCII [233] = Err UnicodeEncodeError.
Proof. repeat split; vm_compute; reflexivity. Qed.

(* ---------------- C72 ---------------- *)

Theorem C72_file_length : forall f : file, 0 <= f_pos f -> file_length f = (Ok (zlen (f_data f)), f).
Proof. exact file_length_ok. Qed.
Print Assumptions C72_file_length.

Theorem C72_guess_textual_header_encoding : forall f : file, 0 <= f_pos f ->
  guess_textual_header_encoding f = (Ok (guess_encoding (firstn (Z.to_nat 3200) (f_data f)) 1 2), f).
Proof. exact guess_textual_ok. Qed.
Print Assumptions C72_guess_textual_header_encoding.

Example C72_example : file_length (mk_file [1; 2; 3] 7) = (Ok 3, mk_file [1; 2; 3] 7) /\
  guess_textual_header_encoding (mk_file (lit "CLIENT") 2) = (Ok (Some ASCII), mk_file (lit "CLIENT") 2).
Proof. split; vm_compute; reflexivity. Qed.
