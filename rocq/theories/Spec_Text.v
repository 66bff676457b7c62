(* Specification vocabulary for text, codecs and textual headers, written
   without the helpers of the text model. *)
From Coq Require Import String ZArith List Bool Permutation.
From Verif Require Import Py FileIO Text.
Import ListNotations.
Local Open Scope string_scope.
Open Scope list_scope.
Open Scope Z_scope.

Definition supported (e : encoding) : Prop := e = ASCII \/ e = EBCDIC.

(* the characters an encoding can represent: 7-bit for ASCII, Latin-1 for cp037 *)
Definition encodable_char (e : encoding) (c : Z) : Prop :=
  match e with ASCII => 0 <= c < 128 | EBCDIC => 0 <= c < 256 | OtherEncoding => False end.
Definition encodable (e : encoding) (s : text) : Prop := Forall (encodable_char e) s.
(* a Unicode string: code points *)
Definition is_text (s : text) : Prop := Forall (fun c => 0 <= c < 1114112) s.
Definition bytes_ok (b : list Z) : Prop := Forall (fun x => 0 <= x < 256) b.

(* the EBCDIC code: runs of consecutive (character, byte, length) *)
Definition ebcdic_runs : list (string * Z) :=
  [("ABCDEFGHI", 193); ("JKLMNOPQR", 209); ("STUVWXYZ", 226);
   ("abcdefghi", 129); ("jklmnopqr", 145); ("stuvwxyz", 162); ("0123456789", 240);
   (" ", 64); (".", 75); ("<(+|", 76); ("&", 80); ("!$*);", 90); ("-/", 96); (",%_>?", 107); (":#@'=", 122)].

(* letters, digits, ':', '_', '-' and space *)
Definition common_char (c : Z) : Prop :=
  65 <= c <= 90 \/ 97 <= c <= 122 \/ 48 <= c <= 57 \/ c = 58 \/ c = 95 \/ c = 45 \/ c = 32.
(* a byte that stands for some such character in either encoding *)
Definition ambiguous (b : Z) : Prop :=
  (exists c, common_char c /\ encode ASCII [c] = Ok [b]) /\ (exists c, common_char c /\ encode EBCDIC [c] = Ok [b]).
(* a byte that stands for some such character in the encoding *)
Definition common_in (e : encoding) (b : Z) : Prop := exists c, common_char c /\ encode e [c] = Ok [b].
(* at least half the items are such *)
Definition at_least_half (P : Z -> Prop) (bs : list Z) : Prop :=
  exists l m, Permutation bs (l ++ m) /\ Forall P l /\ zlen bs <= 2 * zlen l.
(* fewer than half the bytes are ambiguous *)
Definition mostly_unambiguous (b : list Z) : Prop :=
  exists u v, Permutation b (u ++ v) /\ Forall (fun x => ~ ambiguous x) v /\ 2 * zlen u < zlen b.

(* the line cut or padded with spaces to width characters *)
Definition fitted (width : Z) (s r : text) : Prop :=
  zlen r = width /\
  forall i, 0 <= i < width -> nth (Z.to_nat i) r 0 = if i <? zlen s then nth (Z.to_nat i) s 0 else 32.

(* exactly n lines: the given ones, blank ones if there are too few, the first
   n if there are too many; each fitted to the width *)
Definition fitted_lines (n width : Z) (ls rs : list text) : Prop :=
  zlen rs = n /\
  forall i, 0 <= i < n -> fitted width (nth (Z.to_nat i) ls []) (nth (Z.to_nat i) rs []).

(* The file after writing b at the position of f: b is there, all other bytes
   are as before (bytes between the old end and the position are zero). *)
Definition wrote (f : file) (b : list Z) (f' : file) : Prop :=
  f_pos f' = f_pos f + zlen b /\
  zlen (f_data f') = Z.max (zlen (f_data f)) (f_pos f + zlen b) /\
  (forall i, 0 <= i < zlen b -> nth (Z.to_nat (f_pos f + i)) (f_data f') 0 = nth (Z.to_nat i) b 0) /\
  (forall i, 0 <= i < zlen (f_data f') -> ~ (f_pos f <= i < f_pos f + zlen b) ->
     nth (Z.to_nat i) (f_data f') 0 = nth (Z.to_nat i) (f_data f) 0).

(* ------------------------------------------------------------------ *)
(* The standard textual header: forty cards with blanks to be filled in,
   (argument, card 1-40, first column 1-80, width). *)
Definition blank_cards : list string := [
  "C 1 CLIENT                        COMPANY                       CREW NO         ";
  "C 2 LINE            AREA                        MAP ID                          ";
  "C 3 REEL NO           DAY-START OF REEL     YEAR      OBSERVER                  ";
  "C 4 INSTRUMENT: MFG            MODEL            SERIAL NO                       ";
  "C 5 DATA TRACES/RECORD        AUXILIARY TRACES/RECORD         CDP FOLD          ";
  "C 6 SAMPLE INTERVAL         SAMPLES/TRACE       BITS/IN      BYTES/SAMPLE       ";
  "C 7 RECORDING FORMAT        FORMAT THIS REEL        MEASUREMENT SYSTEM          ";
  "C 8 SAMPLE CODE: FLOATING PT     FIXED PT     FIXED PT-GAIN     CORRELATED      ";
  "C 9 GAIN  TYPE: FIXED     BINARY     FLOATING POINT     OTHER                   ";
  "C10 FILTERS: ALIAS     HZ  NOTCH     HZ  BAND     -     HZ  SLOPE    -    DB/OCT";
  "C11 SOURCE: TYPE            NUMBER/POINT        POINT INTERVAL                  ";
  "C12     PATTERN:                           LENGTH        WIDTH                  ";
  "C13 SWEEP: START     HZ  END     HZ  LENGTH      MS  CHANNEL NO     TYPE        ";
  "C14 TAPER: START LENGTH       MS  END LENGTH       MS  TYPE                     ";
  "C15 SPREAD: OFFSET        MAX DISTANCE        GROUP INTERVAL                    ";
  "C16 GEOPHONES: PER GROUP     SPACING     FREQUENCY     MFG          MODEL       ";
  "C17     PATTERN:                          LENGTH        WIDTH                   ";
  "C18 TRACES SORTED BY: RECORD     CDP     OTHER                                  ";
  "C19 AMPLITUDE RECOVERY: NONE      SPHERICAL DIV       AGC    OTHER              ";
  "C20 MAP PROJECTION                    ZONE ID       COORDINATE UNITS            ";
  "C21 PROCESSING:                                                                 ";
  "C22 PROCESSING:                                                                 ";
  "C23                                                                             ";
  "C24                                                                             ";
  "C25                                                                             ";
  "C26                                                                             ";
  "C27                                                                             ";
  "C28                                                                             ";
  "C29                                                                             ";
  "C30                                                                             ";
  "C31                                                                             ";
  "C32                                                                             ";
  "C33                                                                             ";
  "C34                                                                             ";
  "C35                                                                             ";
  "C36                                                                             ";
  "C37                                                                             ";
  "C38                                                                             ";
  "C39                                                                             ";
  "C40                                                                             "].
Definition card_fields : list (string * Z * Z * Z) := [
  ("client", 1, 12, 22);
  ("company", 1, 43, 21);
  ("crew_number", 1, 73, 8);
  ("line", 2, 10, 10);
  ("area", 2, 26, 22);
  ("map_id", 2, 56, 25);
  ("reel_number", 3, 13, 9);
  ("day_start_of_reel", 3, 41, 3);
  ("year", 3, 50, 4);
  ("observer", 3, 64, 17);
  ("instrument_manufacturer", 4, 21, 10);
  ("instrument_model", 4, 38, 10);
  ("instrument_serial", 4, 59, 22);
  ("data_traces_per_record", 5, 24, 6);
  ("auxiliary_traces_per_record", 5, 55, 7);
  ("cdp_fold", 5, 72, 9);
  ("sample_interval", 6, 21, 7);
  ("samples_per_trace", 6, 43, 5);
  ("bits_per_inch", 6, 57, 4);
  ("bytes_per_sample", 6, 75, 6);
  ("recording_format", 7, 22, 6);
  ("format_this_reel", 7, 46, 6);
  ("measurement_system", 7, 72, 9);
  ("sample_code_floating_point", 8, 30, 3);
  ("sample_code_fixed_point", 8, 43, 3);
  ("sample_code_fixed_point_gain", 8, 61, 3);
  ("sample_code_correlated", 8, 76, 5);
  ("gain_type_fixed", 9, 23, 3);
  ("gain_type_binary", 9, 34, 3);
  ("gain_type_fixed_point_gain", 9, 53, 3);
  ("gain_type_other", 9, 63, 18);
  ("filters_alias_hz", 10, 20, 4);
  ("filters_notch_hz", 10, 34, 4);
  ("filters_band_lower_hz", 10, 47, 4);
  ("filters_band_upper_hz", 10, 52, 5);
  ("filters_slope_lower_db_per_oct", 10, 67, 3);
  ("filters_slope_upper_db_per_oct", 10, 71, 4);
  ("source_type", 11, 18, 10);
  ("source_number_per_point", 11, 42, 6);
  ("source_point_interval", 11, 64, 17);
  ("source_pattern", 12, 18, 25);
  ("source_length", 12, 51, 6);
  ("source_width", 12, 64, 17);
  ("sweep_start_hz", 13, 18, 4);
  ("sweep_end_hz", 13, 30, 4);
  ("sweep_length_ms", 13, 45, 5);
  ("sweep_channel_number", 13, 65, 3);
  ("sweep_type", 13, 74, 7);
  ("taper_start_length_ms", 14, 25, 6);
  ("taper_end_length_ms", 14, 46, 6);
  ("taper_type", 14, 61, 20);
  ("spread_offset", 15, 20, 6);
  ("spread_max_distance", 15, 40, 6);
  ("spread_group_interval", 15, 62, 19);
  ("geophones_per_group", 16, 26, 3);
  ("geophone_spacing", 16, 38, 3);
  ("geophone_frequency", 16, 52, 3);
  ("geophone_manufacturer", 16, 60, 8);
  ("geophone_model", 16, 75, 6);
  ("geophone_pattern", 17, 18, 24);
  ("geophone_length", 17, 50, 6);
  ("geophone_width", 17, 63, 18);
  ("traces_sorted_by_record", 18, 30, 3);
  ("traces_sorted_by_cdp", 18, 38, 3);
  ("traces_sorted_by_other", 18, 48, 33);
  ("amplitude_recovery_none", 19, 30, 4);
  ("amplitude_recovery_spherical_div", 19, 49, 5);
  ("amplitude_recovery_agc", 19, 59, 2);
  ("amplitude_recovery_other", 19, 68, 13);
  ("map_projection", 20, 20, 18);
  ("zone_id", 20, 47, 5);
  ("coordinate_units", 20, 70, 11);
  ("processing1", 21, 17, 64);
  ("processing2", 22, 17, 64);
  ("unassigned1", 23, 5, 76);
  ("unassigned2", 24, 5, 76);
  ("unassigned3", 25, 5, 76);
  ("unassigned4", 26, 5, 76);
  ("unassigned5", 27, 5, 76);
  ("unassigned6", 28, 5, 76);
  ("unassigned7", 29, 5, 76);
  ("unassigned8", 30, 5, 76);
  ("unassigned9", 31, 5, 76);
  ("unassigned10", 32, 5, 76);
  ("unassigned11", 33, 5, 76);
  ("unassigned12", 34, 5, 76);
  ("unassigned13", 35, 5, 76);
  ("unassigned14", 36, 5, 76);
  ("unassigned15", 37, 5, 76);
  ("unassigned16", 38, 5, 76);
  ("unassigned17", 39, 5, 76);
  ("end_marker", 40, 5, 76)].

Definition end_marker_text (revision : Z) (m : text) : Prop :=
  (revision = 0 /\ m = lit "END EBCDIC") \/ (revision = 256 /\ m = lit "END TEXTUAL HEADER").

(* the text that goes in a field: the given one, the end marker, or none *)
Definition field_value (marker : text) (kwargs : list (string * text)) (name : string) (v : text) : Prop :=
  In (name, v) kwargs \/
  (~ In name (map fst kwargs) /\ v = if String.eqb name "end_marker" then marker else []).

(* White space: the characters for which str.isspace() is true. *)
Definition white : list Z :=
  [9; 10; 11; 12; 13; 28; 29; 30; 31; 32; 133; 160; 5760; 8192; 8193; 8194; 8195; 8196; 8197; 8198; 8199; 8200; 8201; 8202;
   8232; 8233; 8239; 8287; 12288].
(* r is s without surrounding white space *)
Definition stripped (s r : text) : Prop :=
  (exists a b, s = a ++ r ++ b /\ (forall c, In c a \/ In c b -> In c white)) /\
  (forall c t, r = c :: t -> ~ In c white) /\ (forall c t, r = t ++ [c] -> ~ In c white).

(* ------------------------------------------------------------------ *)
(* The lines of a text, as Python's str.splitlines defines them. *)
Definition breaks : list Z := [10; 11; 12; 13; 28; 29; 30; 133; 8232; 8233].
Definition no_break (l : text) : Prop := forall c, In c l -> ~ In c breaks.
Inductive text_lines : text -> list text -> Prop :=
| lines_end : text_lines [] []
| lines_last l : l <> [] -> no_break l -> text_lines l [l]
| lines_crlf l rest ls : no_break l -> text_lines rest ls -> text_lines (l ++ [13; 10] ++ rest) (l :: ls)
| lines_break l c rest ls : no_break l -> In c breaks -> ~ (c = 13 /\ exists r, rest = 10 :: r) ->
    text_lines rest ls -> text_lines (l ++ [c] ++ rest) (l :: ls).

(* a line cut into pieces of 78 characters (the last piece may be shorter) *)
Inductive pieces (width : Z) : text -> list text -> Prop :=
| pieces_nil : pieces width [] []
| pieces_last p : 0 < zlen p <= width -> pieces width p [p]
| pieces_cons p rest ps : zlen p = width -> rest <> [] -> pieces width rest ps -> pieces width (p ++ rest) (p :: ps).

(* a header line with content s: 78 characters, then CR LF *)
Definition header_line (s r : text) : Prop := exists b, fitted 78 s b /\ r = b ++ [13; 10].

(* ------------------------------------------------------------------ *)
(* extended headers *)
Definition page_ok (e : encoding) (page : list text) : Prop :=
  zlen page = 40 /\ Forall (fun l => zlen l = 80 /\ encodable e l) page.
(* the page announces the end of the extended headers *)
Definition end_page (page : list text) : Prop :=
  exists l ls a b, page = l :: ls /\ l = a ++ lit "((SEG: EndText))" ++ b.

(* Page k (from 0) of the extended headers of a file: the 3200 bytes from 3600
   + 3200 k, decoded, as forty lines of eighty characters. *)
Definition page_bytes (d : list Z) (k : Z) : list Z :=
  firstn (Z.to_nat 3200) (skipn (Z.to_nat (3600 + 3200 * k)) d).
Definition page_present (d : list Z) (k : Z) : Prop := 3600 + 3200 * (k + 1) <= zlen d.
Definition page_at (e : encoding) (d : list Z) (k : Z) (page : list text) : Prop :=
  page_present d k /\ zlen page = 40 /\ Forall (fun l => zlen l = 80) page /\
  decode e (page_bytes d k) = Ok (concat page).
(* the first pages of the file are these and none announces the end *)
Definition plain_pages (e : encoding) (d : list Z) (pages : list (list text)) : Prop :=
  forall k, 0 <= k < zlen pages -> page_at e d k (nth (Z.to_nat k) pages []) /\ ~ end_page (nth (Z.to_nat k) pages []).

(* What reading n counted pages must give *)
Inductive counted_outcome (e : encoding) (d : list Z) (n : Z) : res (list (list text)) -> Prop :=
| counted_read pages : zlen pages = n ->
    (forall k, 0 <= k < n -> page_at e d k (nth (Z.to_nat k) pages [])) ->
    (forall k, 0 <= k < n - 1 -> ~ end_page (nth (Z.to_nat k) pages [])) ->
    counted_outcome e d n (Ok pages)
| counted_short pages : plain_pages e d pages -> zlen pages < n -> ~ page_present d (zlen pages) ->
    counted_outcome e d n (Err EOFError)
| counted_early pages p : plain_pages e d pages -> zlen pages < n - 1 -> page_at e d (zlen pages) p -> end_page p ->
    counted_outcome e d n (Err ValueError)
| counted_undecodable pages : plain_pages e d pages -> zlen pages < n -> page_present d (zlen pages) ->
    decode e (page_bytes d (zlen pages)) = Err UnicodeDecodeError ->
    counted_outcome e d n (Err UnicodeDecodeError).
(* What reading up to the end page must give *)
Inductive until_end_outcome (e : encoding) (d : list Z) : res (list (list text)) -> Prop :=
| until_read pages p : plain_pages e d pages -> page_at e d (zlen pages) p -> end_page p ->
    until_end_outcome e d (Ok (pages ++ [p]))
| until_short pages : plain_pages e d pages -> ~ page_present d (zlen pages) ->
    until_end_outcome e d (Err EOFError)
| until_undecodable pages : plain_pages e d pages -> page_present d (zlen pages) ->
    decode e (page_bytes d (zlen pages)) = Err UnicodeDecodeError ->
    until_end_outcome e d (Err UnicodeDecodeError).

(* width columns of a card, cards and columns numbered from 1 *)
Definition columns (ls : list text) (card col width : Z) : text :=
  firstn (Z.to_nat width) (skipn (Z.to_nat (col - 1)) (nth (Z.to_nat (card - 1)) ls [])).
(* the column belongs to a field *)
Definition in_field (card col : Z) : Prop :=
  exists name c w, In (name, card, c, w) card_fields /\ c <= col < c + w.

(* The contents of the extended header lines of a text: each line of the text
   cut into pieces of 78 characters. *)
Definition page_lines (s : text) (content : list text) : Prop :=
  exists ls pss, text_lines s ls /\ Forall2 (pieces 78) ls pss /\ content = concat pss.
