(* Model of segpy/encoding.py, segpy/textual_reel_header.py and the text
   formatting functions of segpy/toolkit.py.  No proofs here.
   A Unicode string is the list of its code points. *)
From Coq Require Import String Ascii ZArith List Bool.
From Verif Require Import Py Util.
Import ListNotations.
Local Open Scope string_scope.
Open Scope list_scope.
Open Scope Z_scope.

(* [a str] *)
Definition text : Set := list Z.

(* string literals of the source
   [the string literals of textual_reel_header.py:5-151, encoding.py:35, toolkit.py:25-33] *)
Definition lit (s : string) : text := map (fun c => Z.of_nat (nat_of_ascii c)) (list_ascii_of_string s).
(* [toolkit.py:573, 675] *)
Definition SPACE : Z := 32.

(* ------------------------------------------------------------------ *)
(* encoding.py:8-11; any other encoding name is unsupported             *)
Inductive encoding : Set := ASCII | EBCDIC | OtherEncoding.
(* [encoding.py:31-32] *)
Definition is_supported_encoding (e : encoding) : bool :=
  match e with OtherEncoding => false | _ => true end.

(* Python's cp037 decoding table: the code point of each byte
   [encoding.py:9, the codec] *)
Definition cp037_table : list Z :=
  [
   0; 1; 2; 3; 156; 9; 134; 127; 151; 141; 142; 11; 12; 13; 14; 15;
   16; 17; 18; 19; 157; 133; 8; 135; 24; 25; 146; 143; 28; 29; 30; 31;
   128; 129; 130; 131; 132; 10; 23; 27; 136; 137; 138; 139; 140; 5; 6; 7;
   144; 145; 22; 147; 148; 149; 150; 4; 152; 153; 154; 155; 20; 21; 158; 26;
   32; 160; 226; 228; 224; 225; 227; 229; 231; 241; 162; 46; 60; 40; 43; 124;
   38; 233; 234; 235; 232; 237; 238; 239; 236; 223; 33; 36; 42; 41; 59; 172;
   45; 47; 194; 196; 192; 193; 195; 197; 199; 209; 166; 44; 37; 95; 62; 63;
   248; 201; 202; 203; 200; 205; 206; 207; 204; 96; 58; 35; 64; 39; 61; 34;
   216; 97; 98; 99; 100; 101; 102; 103; 104; 105; 171; 187; 240; 253; 254; 177;
   176; 106; 107; 108; 109; 110; 111; 112; 113; 114; 170; 186; 230; 184; 198; 164;
   181; 126; 115; 116; 117; 118; 119; 120; 121; 122; 161; 191; 208; 221; 222; 174;
   94; 163; 165; 183; 169; 167; 182; 188; 189; 190; 91; 93; 175; 168; 180; 215;
   123; 65; 66; 67; 68; 69; 70; 71; 72; 73; 173; 244; 246; 242; 243; 245;
   125; 74; 75; 76; 77; 78; 79; 80; 81; 82; 185; 251; 252; 249; 250; 255;
   92; 247; 83; 84; 85; 86; 87; 88; 89; 90; 178; 212; 214; 210; 211; 213;
   48; 49; 50; 51; 52; 53; 54; 55; 56; 57; 179; 219; 220; 217; 218; 159].
(* [encoding.py:9, the codec] *)
Definition cp037_decode_byte (b : Z) : res Z :=
  match nth_error cp037_table (Z.to_nat b) with Some c => Ok c | None => Err UnicodeDecodeError end.
(* the encoding table is the inverse dictionary
   [encoding.py:9, the codec] *)
Fixpoint index_of (c : Z) (l : list Z) (k : Z) : option Z :=
  match l with [] => None | x :: l => if x =? c then Some k else index_of c l (k + 1) end.
(* [encoding.py:9, the codec] *)
Definition cp037_encode_char (c : Z) : res Z :=
  match index_of c cp037_table 0 with Some b => Ok b | None => Err UnicodeEncodeError end.

(* [encoding.py:8, the codec] *)
Definition ascii_decode_byte (b : Z) : res Z := if b <? 128 then Ok b else Err UnicodeDecodeError.
(* [encoding.py:8, the codec] *)
Definition ascii_encode_char (c : Z) : res Z := if c <? 128 then Ok c else Err UnicodeEncodeError.

(* str.encode(encoding) and bytes.decode(encoding) with errors='strict'.
   Codecs other than the two supported ones are not modelled and treated as
   unknown.
   [encoding.py:36-37, toolkit.py:675, 774] *)
Definition encode (e : encoding) (s : text) : res (list Z) :=
  match e with
  | ASCII => map_res ascii_encode_char s
  | EBCDIC => map_res cp037_encode_char s
  | OtherEncoding => Err LookupError
  end.
(* [toolkit.py:164] *)
Definition decode (e : encoding) (b : list Z) : res text :=
  match e with
  | ASCII => map_res ascii_decode_byte b
  | EBCDIC => map_res cp037_decode_byte b
  | OtherEncoding => Err LookupError
  end.

(* encoding.py:35-37 *)
Definition COMMON_CHARS : text :=
  lit "ABCDEFGHIJKLMNOPQRSTUVWXYZabcdefghijklmnopqrstuvwxyz0123456789:_- ".
(* [encoding.py:36-37] *)
Definition bytes_of (r : res (list Z)) : list Z := match r with Ok b => b | Err _ => [] end.
(* [encoding.py:36] *)
Definition COMMON_EBCDIC_CHARS : list Z := bytes_of (encode EBCDIC COMMON_CHARS).
(* [encoding.py:37] *)
Definition COMMON_ASCII_CHARS : list Z := bytes_of (encode ASCII COMMON_CHARS).

(* [encoding.py:56-63] *)
Definition count_if (p : Z -> bool) (l : list Z) : Z := zlen (filter p l).

(* encoding.py:40-81 guess_encoding with threshold num/den.  Frequencies are
   compared exactly: n/count < num/den is den*n < num*count.  (With threshold
   0.5 this is what the double quotients give for fewer than 2^52 bytes.) *)
Definition guess_encoding (bs : list Z) (num den : Z) : option encoding :=
  let ebcdic_count := count_if (fun b => zmem b COMMON_EBCDIC_CHARS) bs in
  let ascii_count := count_if (fun b => zmem b COMMON_ASCII_CHARS) bs in
  let null_count := count_if (fun b => b =? 0) bs in
  let count := zlen bs in
  if count =? 0 then None
  else if null_count =? count then Some ASCII
  else if (ebcdic_count * den <? num * count) && (num * count <=? ascii_count * den) then Some ASCII
  else if (num * count <=? ebcdic_count * den) && (ascii_count * den <? num * count) then Some EBCDIC
  else None.

(* ------------------------------------------------------------------ *)
(* str methods                                                          *)

(* s.ljust(width, ' ')
   [toolkit.py:573, 675, 739] *)
Definition ljust (s : text) (width : Z) : text := s ++ zrepeat SPACE (width - zlen s).
(* c.isspace()
   [toolkit.py:585-586, 636] *)
Definition is_space (c : Z) : bool :=
  ((9 <=? c) && (c <=? 13)) || ((28 <=? c) && (c <=? 32)) || (c =? 133) || (c =? 160) || (c =? 5760)
  || ((8192 <=? c) && (c <=? 8202)) || (c =? 8232) || (c =? 8233) || (c =? 8239) || (c =? 8287) || (c =? 12288).
(* [toolkit.py:636] *)
Fixpoint lstrip (s : text) : text :=
  match s with [] => [] | c :: t => if is_space c then lstrip t else s end.
(* s.strip()
   [toolkit.py:636] *)
Definition strip (s : text) : text := rev (lstrip (rev (lstrip s))).
(* the characters at which str.splitlines breaks
   [toolkit.py:720] *)
Definition is_break (c : Z) : bool :=
  ((10 <=? c) && (c <=? 13)) || ((28 <=? c) && (c <=? 30)) || (c =? 133) || (c =? 8232) || (c =? 8233).
(* s.splitlines(): CR LF is one break; no empty line after a final break.
   line is the current line so far.
   [toolkit.py:720] *)
Fixpoint splitlines_loop (line : text) (s : text) : list text :=
  match s with
  | [] => match line with [] => [] | _ => [line] end
  | c :: t =>
      if is_break c then
        line :: match t with
                | d :: t' => if (c =? 13) && (d =? 10) then splitlines_loop [] t' else splitlines_loop [] t
                | [] => []
                end
      else splitlines_loop (line ++ [c]) t
  end.
(* [toolkit.py:720] *)
Definition splitlines (s : text) : list text := splitlines_loop [] s.
(* sub in s
   [toolkit.py:203] *)
Fixpoint prefix_eqb (p s : text) : bool :=
  match p, s with
  | [], _ => true
  | x :: p, y :: s => (x =? y) && prefix_eqb p s
  | _ :: _, [] => false
  end.
(* [toolkit.py:203] *)
Fixpoint contains (sub s : text) : bool :=
  prefix_eqb sub s || match s with [] => false | _ :: s => contains sub s end.

(* ------------------------------------------------------------------ *)
(* textual_reel_header.py:5-46, 51: the template without line ends       *)
Definition TEMPLATE_LINES : list string := [
  "C 1 CLIENT { client             } COMPANY { company           } CREW NO {crew  }";
  "C 2 LINE { line   } AREA { area               } MAP ID { map_id                }";
  "C 3 REEL NO {reelnum} DAY-START OF REEL {d} YEAR {yr} OBSERVER {observer       }";
  "C 4 INSTRUMENT: MFG { mfg    } MODEL { model  } SERIAL NO { serial             }";
  "C 5 DATA TRACES/RECORD {dtpr} AUXILIARY TRACES/RECORD {atpr } CDP FOLD {cdpfold}";
  "C 6 SAMPLE INTERVAL {intvl} SAMPLES/TRACE {spt} BITS/IN {bi} BYTES/SAMPLE {bps }";
  "C 7 RECORDING FORMAT {rfmt} FORMAT THIS REEL {ftr } MEASUREMENT SYSTEM {measmnt}";
  "C 8 SAMPLE CODE: FLOATING PT {f} FIXED PT {x} FIXED PT-GAIN {g} CORRELATED {cor}";
  "C 9 GAIN  TYPE: FIXED {i} BINARY {b} FLOATING POINT {c} OTHER {other           }";
  "C10 FILTERS: ALIAS {a }HZ  NOTCH {n }HZ  BAND {b1}-{b2 }HZ  SLOPE {s}-{s2}DB/OCT";
  "C11 SOURCE: TYPE {type    } NUMBER/POINT {npt } POINT INTERVAL {point_interval }";
  "C12     PATTERN: {source_pattern         } LENGTH {lent} WIDTH {width          }";
  "C13 SWEEP: START {ss}HZ  END {se}HZ  LENGTH {lms}MS  CHANNEL NO {q} TYPE {cd   }";
  "C14 TAPER: START LENGTH {tsl }MS  END LENGTH {tel }MS  TYPE {taper_type        }";
  "C15 SPREAD: OFFSET {off } MAX DISTANCE {md  } GROUP INTERVAL {group_interval   }";
  "C16 GEOPHONES: PER GROUP {p} SPACING {y} FREQUENCY {r} MFG {gmfg  } MODEL {gmod}";
  "C17     PATTERN: {geophone_pattern      } LENGTH {glen} WIDTH {geophone_width  }";
  "C18 TRACES SORTED BY: RECORD {u} CDP {v} OTHER { sort_other                    }";
  "C19 AMPLITUDE RECOVERY: NONE {ar} SPHERICAL DIV {sd } AGC {} OTHER {ar_other   }";
  "C20 MAP PROJECTION {map_projection  } ZONE ID {zid} COORDINATE UNITS {co_units }";
  "C21 PROCESSING: { processing1                                                  }";
  "C22 PROCESSING: { processing2                                                  }";
  "C23 { unassigned1                                                              }";
  "C24 { unassigned2                                                              }";
  "C25 { unassigned3                                                              }";
  "C26 { unassigned4                                                              }";
  "C27 { unassigned5                                                              }";
  "C28 { unassigned6                                                              }";
  "C29 { unassigned7                                                              }";
  "C30 { unassigned8                                                              }";
  "C31 { unassigned9                                                              }";
  "C32 { unassigned10                                                             }";
  "C33 { unassigned11                                                             }";
  "C34 { unassigned12                                                             }";
  "C35 { unassigned13                                                             }";
  "C36 { unassigned14                                                             }";
  "C37 { unassigned15                                                             }";
  "C38 { unassigned16                                                             }";
  "C39 { unassigned17                                                             }";
  "C40 { end_marker                                                               }"].
(* [textual_reel_header.py:5-51] *)
Definition TEMPLATE : text := concat (map lit TEMPLATE_LINES).

(* textual_reel_header.py:53-57 *)
Definition END_TEXTUAL_HEADER : text := lit "END TEXTUAL HEADER".
(* [textual_reel_header.py:53-57] *)
Definition END_EBCDIC : text := lit "END EBCDIC".
(* [textual_reel_header.py:53-57] *)
Definition END_MARKERS (revision : Z) : res text :=
  if revision =? 0 then Ok END_EBCDIC
  else if revision =? 256 then Ok END_TEXTUAL_HEADER
  else Err KeyError.

(* textual_reel_header.py:59-151 *)
Definition TEMPLATE_FIELD_NAMES : list (string * string) := [
  ("client", "client");
  ("company", "company");
  ("crew", "crew_number");
  ("line", "line");
  ("area", "area");
  ("map_id", "map_id");
  ("reelnum", "reel_number");
  ("d", "day_start_of_reel");
  ("yr", "year");
  ("observer", "observer");
  ("mfg", "instrument_manufacturer");
  ("model", "instrument_model");
  ("serial", "instrument_serial");
  ("dtpr", "data_traces_per_record");
  ("atpr", "auxiliary_traces_per_record");
  ("cdpfold", "cdp_fold");
  ("intvl", "sample_interval");
  ("spt", "samples_per_trace");
  ("bi", "bits_per_inch");
  ("bps", "bytes_per_sample");
  ("rfmt", "recording_format");
  ("ftr", "format_this_reel");
  ("measmnt", "measurement_system");
  ("f", "sample_code_floating_point");
  ("x", "sample_code_fixed_point");
  ("g", "sample_code_fixed_point_gain");
  ("cor", "sample_code_correlated");
  ("i", "gain_type_fixed");
  ("b", "gain_type_binary");
  ("c", "gain_type_fixed_point_gain");
  ("other", "gain_type_other");
  ("a", "filters_alias_hz");
  ("n", "filters_notch_hz");
  ("b1", "filters_band_lower_hz");
  ("b2", "filters_band_upper_hz");
  ("s", "filters_slope_lower_db_per_oct");
  ("s2", "filters_slope_upper_db_per_oct");
  ("type", "source_type");
  ("npt", "source_number_per_point");
  ("point_interval", "source_point_interval");
  ("source_pattern", "source_pattern");
  ("lent", "source_length");
  ("width", "source_width");
  ("ss", "sweep_start_hz");
  ("se", "sweep_end_hz");
  ("lms", "sweep_length_ms");
  ("q", "sweep_channel_number");
  ("cd", "sweep_type");
  ("tsl", "taper_start_length_ms");
  ("tel", "taper_end_length_ms");
  ("taper_type", "taper_type");
  ("off", "spread_offset");
  ("md", "spread_max_distance");
  ("group_interval", "spread_group_interval");
  ("p", "geophones_per_group");
  ("y", "geophone_spacing");
  ("r", "geophone_frequency");
  ("gmfg", "geophone_manufacturer");
  ("gmod", "geophone_model");
  ("geophone_pattern", "geophone_pattern");
  ("glen", "geophone_length");
  ("geophone_width", "geophone_width");
  ("u", "traces_sorted_by_record");
  ("v", "traces_sorted_by_cdp");
  ("sort_other", "traces_sorted_by_other");
  ("ar", "amplitude_recovery_none");
  ("sd", "amplitude_recovery_spherical_div");
  ("", "amplitude_recovery_agc");
  ("ar_other", "amplitude_recovery_other");
  ("map_projection", "map_projection");
  ("zid", "zone_id");
  ("co_units", "coordinate_units");
  ("processing1", "processing1");
  ("processing2", "processing2");
  ("unassigned1", "unassigned1");
  ("unassigned2", "unassigned2");
  ("unassigned3", "unassigned3");
  ("unassigned4", "unassigned4");
  ("unassigned5", "unassigned5");
  ("unassigned6", "unassigned6");
  ("unassigned7", "unassigned7");
  ("unassigned8", "unassigned8");
  ("unassigned9", "unassigned9");
  ("unassigned10", "unassigned10");
  ("unassigned11", "unassigned11");
  ("unassigned12", "unassigned12");
  ("unassigned13", "unassigned13");
  ("unassigned14", "unassigned14");
  ("unassigned15", "unassigned15");
  ("unassigned16", "unassigned16");
  ("unassigned17", "unassigned17");
  ("end_marker", "end_marker")].
(* [toolkit.py:555, 570, 637] *)
Fixpoint lookup {A} (n : string) (l : list (string * A)) : option A :=
  match l with [] => None | (k, v) :: l => if String.eqb k n then Some v else lookup n l end.
(* [toolkit.py:570, 637] *)
Definition template_field_name (n : string) : res string :=
  match lookup n TEMPLATE_FIELD_NAMES with Some v => Ok v | None => Err KeyError end.

(* ------------------------------------------------------------------ *)
(* toolkit.py:589-609 parse_template, with the pattern of 585-586: all matches of the pattern: an opening
   brace, white space, a word (the group), white space, a closing brace.  The
   character classes are disjoint and exclude the closing brace, so the greedy
   match is the only one.  Word characters are those of ASCII templates. *)
Definition is_word (c : Z) : bool :=
  ((48 <=? c) && (c <=? 57)) || ((65 <=? c) && (c <=? 90)) || (c =? 95) || ((97 <=? c) && (c <=? 122)).
(* [toolkit.py:585-586] *)
Fixpoint span (p : Z -> bool) (s : text) : text * text :=
  match s with
  | [] => ([], [])
  | c :: t => if p c then let '(a, b) := span p t in (c :: a, b) else ([], s)
  end.
(* [toolkit.py:589-609] *)
Definition name_of (s : text) : string :=
  string_of_list_ascii (map (fun c => ascii_of_nat (Z.to_nat c)) s).
(* match at the start of s: the group and the length of the match *)
Definition match_placeholder (s : text) : option (string * Z) :=
  match s with
  | 123 :: s =>
      let '(sp1, s) := span is_space s in
      let '(word, s) := span is_word s in
      let '(sp2, s) := span is_space s in
      match s with
      | 125 :: _ => Some (name_of word, 1 + zlen sp1 + zlen word + zlen sp2 + 1)
      | _ => None
      end
  | _ => None
  end.
(* an OrderedDict assignment *)
Fixpoint dict_set {A} (n : string) (v : A) (d : list (string * A)) : list (string * A) :=
  match d with
  | [] => [(n, v)]
  | (k, w) :: d => if String.eqb k n then (k, v) :: d else (k, w) :: dict_set n v d
  end.
(* skip counts the characters of the last match still to be passed over *)
Fixpoint parse_loop (pos : Z) (skip : Z) (s : text) (d : list (string * interval)) : list (string * interval) :=
  match s with
  | [] => d
  | _ :: t =>
      if 0 <? skip then parse_loop (pos + 1) (skip - 1) t d
      else match match_placeholder s with
           | Some (name, len) => parse_loop (pos + 1) (len - 1) t (dict_set name (pos, pos + len) d)
           | None => parse_loop (pos + 1) 0 t d
           end
  end.
(* [toolkit.py:589-609] *)
Definition parse_template (template : text) : list (string * interval) := parse_loop 0 0 template [].

(* itertools.zip_longest
   [toolkit.py:563] *)
Fixpoint zip_longest {A B} (l : list A) (m : list B) : list (option A * option B) :=
  match l with
  | [] => map (fun y => (None, Some y)) m
  | x :: l => match m with
              | [] => (Some x, None) :: zip_longest l []
              | y :: m => (Some x, Some y) :: zip_longest l m
              end
  end.

(* kwargs.pop(name, '')
   [toolkit.py:571] *)
Fixpoint dict_del {A} (n : string) (d : list (string * A)) : list (string * A) :=
  match d with
  | [] => []
  | (k, w) :: d => if String.eqb k n then d else (k, w) :: dict_del n d
  end.
(* [toolkit.py:571] *)
Definition dict_pop (n : string) (d : list (string * text)) : text * list (string * text) :=
  match lookup n d with Some v => (v, dict_del n d) | None => ([], d) end.

(* toolkit.py:23-33 *)
Definition HEADER_NEWLINE : text := [13; 10].
(* [toolkit.py:25] *)
Definition CARD_LENGTH : Z := 80.
(* [toolkit.py:26] *)
Definition CARDS_PER_HEADER : Z := 40.
(* [toolkit.py:28] *)
Definition TEXTUAL_HEADER_NUM_BYTES : Z := CARD_LENGTH * CARDS_PER_HEADER.
(* [toolkit.py:29] *)
Definition BINARY_HEADER_NUM_BYTES : Z := 400.
(* [toolkit.py:30] *)
Definition REEL_HEADER_NUM_BYTES : Z := TEXTUAL_HEADER_NUM_BYTES + BINARY_HEADER_NUM_BYTES.
(* [toolkit.py:31] *)
Definition TRACE_HEADER_NUM_BYTES : Z := 240.
(* [toolkit.py:33] *)
Definition END_TEXT_STANZA : text := lit "((SEG: EndText))".

(* toolkit.py:562-574, the loop of format_standard_textual_header: the chunks
   and the keyword arguments left *)
Fixpoint format_chunks_loop (template : text) (l : list (option interval * option (string * interval)))
    (kw : list (string * text)) : res (list text * list (string * text)) :=
  match l with
  | [] => Ok ([], kw)
  | (bg, ph) :: l =>
      let c1 := match bg with Some (a, b) => [py_slice template a b] | None => [] end in
      do (c2, kw) <- match ph with
                     | None => Ok ([], kw)
                     | Some (name, (a, b)) =>
                         do arg <- template_field_name name ;;
                         let '(v, kw) := dict_pop arg kw in
                         let ph_len := b - a in
                         Ok ([ljust (py_slice v 0 ph_len) ph_len], kw)
                     end ;;
      do (cs, kw) <- format_chunks_loop template l kw ;;
      Ok (c1 ++ c2 ++ cs, kw)
  end.

(* toolkit.py:520-583 format_standard_textual_header; the keyword values are
   given as str(value) *)
Definition format_standard_textual_header (revision : Z) (kwargs : list (string * text)) : res (list text) :=
  do marker <- END_MARKERS revision ;;
  let kwargs := match lookup "end_marker" kwargs with
                | Some _ => kwargs | None => kwargs ++ [("end_marker", marker)] end in
  let slices := parse_template TEMPLATE in
  do bgs <- complementary_intervals (map snd slices) (Some 0) (Some (zlen TEMPLATE)) ;;
  do (chunks, remaining) <- format_chunks_loop TEMPLATE (zip_longest bgs slices) kwargs ;;
  if 0 <? zlen remaining then Err TypeError
  else batched (concat chunks) CARD_LENGTH None.

(* toolkit.py:612-640 parse_standard_textual_header *)
Fixpoint parse_fields (header : text) (l : list (string * interval)) (d : list (string * text))
  : res (list (string * text)) :=
  match l with
  | [] => Ok d
  | (ph, (a, b)) :: l =>
      do name <- template_field_name ph ;;
      parse_fields header l (dict_set name (strip (py_slice header a b)) d)
  end.
(* [toolkit.py:612-640] *)
Definition parse_standard_textual_header (lines : list text) : res (list (string * text)) :=
  if negb (zlen lines =? CARDS_PER_HEADER) then Err ValueError
  else if existsb (fun l => negb (zlen l =? CARD_LENGTH)) lines then Err ValueError
  else parse_fields (concat lines) (parse_template TEMPLATE) [].

(* toolkit.py:738-739 *)
Definition pad_and_terminate_header_line (line : text) (width : Z) : text :=
  ljust line width ++ HEADER_NEWLINE.

(* original_line[i:i+width] for i in range(0, len(original_line), width) *)
Definition split_line (line : text) (width : Z) : list text :=
  map (fun i => py_slice line i (i + width)) (range_list (mk_range 0 (zlen line) width)).

(* toolkit.py:699-735 format_extended_textual_header; without and with the
   text stop (whose recursive call is without) *)
Definition format_extended_pages (s : text) (e : encoding) : res (list (list text)) :=
  if negb (is_supported_encoding e) then Err UnsupportedEncodingError
  else
    let width := CARD_LENGTH - zlen HEADER_NEWLINE in
    let lines := concat (map (fun l => map (fun p => pad_and_terminate_header_line p width) (split_line l width))
                             (splitlines s)) in
    batched lines 40 (Some (pad_and_terminate_header_line [] width)).
(* [toolkit.py:699-735] *)
Definition format_extended_textual_header (s : text) (e : encoding) (include_text_stop : bool) : res (list (list text)) :=
  do pages <- format_extended_pages s e ;;
  if include_text_stop then
    do stops <- format_extended_pages END_TEXT_STANZA e ;;
    do stop_page <- py_get stops 0 ;;
    Ok (pages ++ [stop_page])
  else Ok pages.

(* toolkit.py:193-203 has_end_text_stanza *)
Definition has_end_text_stanza (ext_header : list text) : res bool :=
  do l <- py_get ext_header 0 ;; Ok (contains END_TEXT_STANZA l).
