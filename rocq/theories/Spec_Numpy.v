(* Specification vocabulary for the Numpy extension (C74, C75, C88-C93). *)
From Coq Require Import String ZArith List Bool Sorted.
From Verif Require Import Py PyFloat IbmFloat Spec_Ibm Util Spec_Util Catalog Packing Spec_Packing FileIO Text Float32 Toolkit Spec_Segy Reader Spec_Reader NumpyExt.
Import ListNotations.
Local Open Scope string_scope.
Open Scope list_scope.
Open Scope Z_scope.

Definition ascending (l : list Z) : Prop := StronglySorted Z.lt l.

(* Positions picked by the slice [a:b:c] from n items.  A negative bound counts
   from the end, a missing one is the end of the sequence the walk starts from
   or runs to, a missing step is 1. *)
Definition counted (n v : Z) : Z := if v <? 0 then v + n else v.
Definition slice_step (s : pslice) : Z := or_else (sl_step s) 1.
Definition picks (n : Z) (s : pslice) (i : Z) : Prop :=
  0 <= i < n /\
  (0 < slice_step s ->
     let lo := Z.max 0 (match sl_start s with None => 0 | Some v => counted n v end) in
     lo <= i /\ (i - lo) mod slice_step s = 0 /\ (forall v, sl_stop s = Some v -> i < counted n v)) /\
  (slice_step s < 0 ->
     let hi := Z.min (n - 1) (match sl_start s with None => n - 1 | Some v => counted n v end) in
     i <= hi /\ (hi - i) mod (- slice_step s) = 0 /\ (forall v, sl_stop s = Some v -> counted n v < i)).

(* a non-empty collection of numbers (a Python range has a step other than 0) *)
Definition items_ok (it : iterable) : Prop := it_list it <> [] /\ forall r, it = ItRange r -> r_step r <> 0.
(* a selection that does not walk backwards *)
Definition forward (c : choice) : Prop :=
  match c with Everything => True | Sliced s => 0 < slice_step s | Items it => items_ok it end.

(* rows and columns of an array *)
Definition grid {A} (P : Z -> Z -> option A -> Prop) (rows cols : list Z) (a : array2 A) : Prop :=
  Forall2 (fun i row => Forall2 (P i) cols row) rows a.

(* the trace of inline i and crossline j *)
Definition trace_at (ts : list tinfo) (i j : Z) (tr : tinfo) : Prop :=
  In tr ts /\ t_inline tr = i /\ t_xline tr = j.

(* sample n of a trace of the file d is v *)
Definition sample_of (d : list Z) (e : endian) (t : segytype) (tr : tinfo) (n : Z) (v : real) : Prop :=
  0 <= n < t_count tr /\ sample_at t e d (t_pos tr + 240 + sample_size t * n) v.

(* trace tr has sample n, and the file reaches that far *)
Definition has_sample (d : list Z) (t : segytype) (tr : tinfo) (n : Z) : Prop :=
  0 <= n < t_count tr /\ t_pos tr + 240 + sample_size t * (n + 1) <= zlen d.
(* the file reaches to the end of trace tr *)
Definition whole (d : list Z) (t : segytype) (tr : tinfo) : Prop :=
  t_pos tr + 240 + sample_size t * t_count tr <= zlen d.

(* a cell for the sample n of the trace at inline i and crossline j: it holds
   that sample if there is such a trace, else it is empty *)
Definition sample_cell (d : list Z) (e : endian) (t : segytype) (ts : list tinfo) (i j n : Z) (c : option real) : Prop :=
  (exists tr v, trace_at ts i j tr /\ c = Some v /\ sample_of d e t tr n v) \/
  ((forall tr, ~ trace_at ts i j tr) /\ c = None).

(* the names of fields of a format, in the order in which they are stored *)
Definition in_stored_order (c : fmt) (names : list string) : Prop :=
  (forall n, In n names -> has_field c n) /\ StronglySorted (before c) names.
(* the fields are signed integers *)
Definition signed_fields (c : fmt) (names : list string) : Prop :=
  forall f, is_field c f -> In (fd_name f) names -> In (ft_ctype (fd_type f)) [C_i; C_h; C_b].
(* a cell for the values of these fields in the header of the trace at inline i
   and crossline j *)
Definition fields_cell (d : list Z) (e : endian) (c : fmt) (names : list string) (ts : list tinfo) (i j : Z)
  (x : option (list Z)) : Prop :=
  (exists tr vs, trace_at ts i j tr /\ x = Some vs /\ Forall2 (field_at c e d (t_pos tr)) names vs) \/
  ((forall tr, ~ trace_at ts i j tr) /\ x = None).
(* the values of field n in the headers of the traces with these indexes *)
Definition column (d : list Z) (e : endian) (c : fmt) (ts : list tinfo) (n : string) (ks vs : list Z) : Prop :=
  Forall2 (fun k v => exists tr, trace_of ts k tr /\ field_at c e d (t_pos tr) n v) ks vs.

(* an array with elements of this type can hold the number exactly *)
Definition array_holds (dt : dtype) (r : real) : Prop :=
  match dt with
  | D_f4 => exists bits g, is_single bits g /\
      match r with
      | RFloat f => g = f
      | RIbm w => finite g /\ units g = ibm_units w
      | RInt n => finite g /\ units g = n * 2 ^ 1074
      end
  | D_i4 => exists n, r = RInt n /\ - 2 ^ 31 <= n < 2 ^ 31
  | D_i2 => exists n, r = RInt n /\ - 2 ^ 15 <= n < 2 ^ 15
  | D_i1 => exists n, r = RInt n /\ - 2 ^ 7 <= n < 2 ^ 7
  end.

(* trace k of an array of n inlines by m crosslines *)
Definition placed (n m k i j : Z) : Prop := 0 <= i < n /\ 0 <= j < m /\ k = i * m + j.

(* the sample numbers of a selection that trace tr has *)
Definition held (tr : tinfo) (nums : list Z) : list Z := filter (fun s => s <? t_count tr) nums.
(* the sample numbers are evenly spaced *)
Definition even_steps (nums : list Z) : Prop := exists k, successive_differences nums k.
(* a row can be filled from the trace: it has every selected sample, or the
   selection is evenly spaced and it has exactly one of them *)
Definition fills (nums : list Z) (tr : tinfo) : Prop :=
  held tr nums = nums \/ (even_steps nums /\ exists s, held tr nums = [s]).
(* a cell of such a row: the sample itself, or the only one that the trace has *)
Definition row_cell (d : list Z) (e : endian) (t : segytype) (ts : list tinfo) (nums : list Z) (i j n : Z) (c : option real) : Prop :=
  (exists tr v s, trace_at ts i j tr /\ c = Some v /\ sample_of d e t tr s v /\
     ((held tr nums = nums /\ s = n) \/ held tr nums = [s])) \/
  ((forall tr, ~ trace_at ts i j tr) /\ c = None).
