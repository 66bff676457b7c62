(* Specification vocabulary for time slices and reports (C114-C116). *)
From Coq Require Import String ZArith List Bool.
From Verif Require Import Py PyFloat IbmFloat Packing Spec_Packing FileIO Text Toolkit Spec_Segy Reader Spec_Reader NumpyExt Spec_Numpy Examples.
Import ListNotations.
Local Open Scope string_scope.
Open Scope list_scope.
Open Scope Z_scope.

(* A cell of the slice at sample n: the sample of the trace at inline i and
   crossline j if there is one and it is long enough, else empty. *)
Definition slice_cell (d : list Z) (e : endian) (t : segytype) (ts : list tinfo) (n i j : Z) (c : option real) : Prop :=
  (exists tr v, trace_at ts i j tr /\ c = Some v /\ sample_of d e t tr n v) \/
  (exists tr, trace_at ts i j tr /\ t_count tr <= n /\ c = None) \/
  ((forall tr, ~ trace_at ts i j tr) /\ c = None).

(* these are the distinct items of l, in ascending order *)
Definition ascending_items (l s : list Z) : Prop := ascending s /\ forall x, In x s <-> In x l.
(* l has n distinct items *)
Definition distinct_items (l : list Z) (n : Z) : Prop := exists s, NoDup s /\ (forall x, In x s <-> In x l) /\ zlen s = n.
(* the greatest item *)
Definition greatest (l : list Z) (m : Z) : Prop := In m l /\ forall x, In x l -> x <= m.

(* what a report calls the sample formats of SEG Y *)
Definition format_name (code : Z) (s : string) : Prop :=
  In (code, s) [(1, "IBM 32 bit float"); (2, "32 bit signed integer"); (3, "16 bit signed integer"); (5, "IEEE float32");
    (8, "8 bit signed integer (byte)")].

(* The counts in a report of a file with this dimensionality. *)
Definition counts_reported (ts : list tinfo) (dim : Z) (cdps inlines xlines : option Z) : Prop :=
  (dim = 3 -> cdps = None /\ exists n m, inlines = Some n /\ distinct_items (map t_inline ts) n /\
     xlines = Some m /\ distinct_items (map t_xline ts) m) /\
  (dim = 2 -> (exists n, cdps = Some n /\ distinct_items (map t_cdp ts) n) /\ inlines = None /\ xlines = None) /\
  (dim = 0 -> cdps = None /\ inlines = None /\ xlines = None).

(* a line with the index k and the position stored in the header of trace k *)
Definition position_line (d : list Z) (e : endian) (tc : fmt) (ts : list tinfo) (k : Z) (l : Z * (Z * Z)) : Prop :=
  fst l = k /\ exists tr, trace_of ts k tr /\
    field_at tc e d (t_pos tr) "cdp_x" (fst (snd l)) /\ field_at tc e d (t_pos tr) "cdp_y" (snd (snd l)).
