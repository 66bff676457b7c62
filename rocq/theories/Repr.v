(* The texts that repr() gives.  A text is a Coq string, that is its UTF-8 bytes. *)
From Coq Require Import String Ascii ZArith List Bool DecimalString.
From Verif Require Import Py Util Catalog IbmFloat PyFloat Packing.
Import ListNotations.
Local Open Scope string_scope.
Open Scope list_scope.
Open Scope Z_scope.

(* The decimal digits of an int.  A header field holds an int of a subclass of int
   or a member of an IntEnum; both are formatted as ints.
   [header.py:73, catalog.py:555-560] *)
Definition show_int (n : Z) : string := NilZero.string_of_int (Z.to_int n).

(* "{}={}"
   [header.py:73, catalog.py:555] *)
Definition show_keyword (p : string * Z) : string := (fst p ++ "=" ++ show_int (snd p))%string.

(* "{}({})" and ', '.join
   [header.py:71-73, catalog.py:555-560, 771-778] *)
Definition show_call (name : string) (kwargs : list (string * Z)) : string :=
  (name ++ "(" ++ String.concat ", " (map show_keyword kwargs) ++ ")")%string.

(* header.py:70-73 BaseHeader.__repr__ *)
Definition header_repr (h : header) : res string :=
  let names := ordered_field_names (h_cls h) in
  do vs <- map_res (hdr_get h) names ;;
  Ok (show_call (fmt_name (h_cls h)) (combine names vs)).

(* RegularConstantCatalog.__repr__
   [catalog.py:554-560] *)
Definition regular_constant_repr (key_min key_max key_stride value : Z) : string :=
  show_call "RegularConstantCatalog" [("key_min", key_min); ("key_max", key_max); ("key_stride", key_stride); ("value", value)].

(* LinearRegularCatalog.__repr__
   [catalog.py:770-778] *)
Definition linear_regular_repr (key_min key_max key_stride value_start value_stop value_stride : Z) : string :=
  show_call "LinearRegularCatalog" [("key_min", key_min); ("key_max", key_max); ("key_stride", key_stride);
    ("value_first", value_start); ("value_last", value_stop); ("value_stride", value_stride)].

(* repr of a list of ints
   [sorted_frozen_set.py:34] *)
Definition list_repr (l : list Z) : string := ("[" ++ String.concat ", " (map show_int l) ++ "]")%string.

(* SortedFrozenSet.__repr__
   [sorted_frozen_set.py:33-34] *)
Definition sfs_repr (s : list Z) : string :=
  ("SortedFrozenSet(" ++ match s with [] => "" | _ => list_repr s end ++ ")")%string.

(* One hexadecimal digit and '0x{:02x}' of a byte
   [ibm_float.py:233] *)
Definition hex_digit (n : Z) : string :=
  nth (Z.to_nat n) ["0"; "1"; "2"; "3"; "4"; "5"; "6"; "7"; "8"; "9"; "a"; "b"; "c"; "d"; "e"; "f"] "".
(* [ibm_float.py:233] *)
Definition hex_byte (b : Z) : string := ("0x" ++ hex_digit (b / 16) ++ hex_digit (b mod 16))%string.

(* IBMFloat.__repr__; [float_repr] is repr() of a float, which is not modelled.
   [ibm_float.py:230-234] *)
Definition ibm_repr (float_repr : float -> string) (w : word) : res string :=
  do f <- ibm_float w ;;
  Ok ("IBMFloat(bytes([" ++ String.concat ", " (map hex_byte (ibm_bytes w)) ++ "])) ≈ " ++ float_repr f)%string.
