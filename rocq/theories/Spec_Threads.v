(* Specification vocabulary for readers used by several threads. *)
From Coq Require Import ZArith List.
From Verif Require Import Py IbmFloat Util Catalog Packing FileIO Text Toolkit Reader Threads.
Import ListNotations.
Open Scope list_scope.
Open Scope Z_scope.

(* the calls that read from the file *)
Definition touches (c : call) : Prop := match c with TraceSamples _ _ _ | TraceHeader _ _ => True | _ => False end.
(* No other thread reads traces through a file object that thread i reads traces
   through. *)
Definition private (rs : nat -> handle) (calls : nat -> list (nat * call)) (i : nat) : Prop := forall i' n n' c c', i' <> i ->
  In (n, c) (calls i) -> In (n', c') (calls i') -> touches c -> touches c' -> hd_file (rs n) <> hd_file (rs n').
(* What a call answers that is the only call of a new reader of the same file,
   alone in the program. *)
Definition alone (native : endian) (rs : nat -> handle) (files : nat -> file) (nc : nat * call) : res answer :=
  fst (exec native (hd_reader (rs (fst nc))) (snd nc) (mk_session no_memo (mk_file (f_data (files (hd_file (rs (fst nc))))) 0))).
