(* Model of the helpers that tell the size of a trace from the binary reel header. *)
From Coq Require Import String ZArith List Bool.
From Verif Require Import Py Packing Toolkit.
Import ListNotations.
Local Open Scope string_scope.
Open Scope list_scope.
Open Scope Z_scope.

(* toolkit.py:88-104 samples_per_trace *)
Definition samples_per_trace (h : header) : res Z := hdr_get h "num_samples".

(* toolkit.py:107-124 trace_length_bytes *)
Definition trace_length_bytes (h : header) (bps : Z) : res Z :=
  do n <- samples_per_trace h ;; Ok (n * bps + TRACE_HEADER_NUM_BYTES).

(* datatypes.py:87-90 data_sample_format_size_in_bytes; the KeyError of the first
   dictionary is not translated, the other two have every type *)
Definition data_sample_format_size_in_bytes (dsf : Z) : res Z :=
  do t <- segy_type_of dsf ;; Ok (size_in_bytes (ctype_of t)).

(* datatypes.py:76-84 CTYPE_TO_SIZE, its keys being strings *)
Definition CTYPE_TO_SIZE : list (string * Z) :=
  [("i", 4); ("I", 4); ("h", 2); ("H", 2); ("b", 1); ("B", 1); ("f", 4); ("ibm", 4)].

(* datatypes.py:99-105 size_in_bytes for any string *)
Definition size_of_ctype (name : string) : res Z :=
  match find (fun p => String.eqb (fst p) name) CTYPE_TO_SIZE with
  | Some p => Ok (snd p)
  | None => Err ValueError
  end.
