(* File-like objects (io.BytesIO; a binary file behaves the same) and the
   position helpers of segpy/util.py.  No proofs here. *)
From Coq Require Import ZArith List Bool.
From Verif Require Import Py.
Import ListNotations.
Open Scope Z_scope.

(* An open file: its contents and its position.
   [util.py:240-244, the file-like object] *)
Record file : Set := mk_file { f_data : list Z; f_pos : Z }.

(* A computation that may use the file and may raise; the file keeps the
   effects made before an exception.
   [no line of its own: a statement that uses fh] *)
Definition io (A : Type) : Type := file -> res A * file.
(* [no line of its own] *)
Definition ret {A} (a : A) : io A := fun f => (Ok a, f).
(* [no line of its own] *)
Definition raise {A} (e : exn) : io A := fun f => (Err e, f).
(* [no line of its own: an expression that does not use fh] *)
Definition lift {A} (r : res A) : io A := fun f => (r, f).
(* [no line of its own: one statement after another] *)
Definition ibind {A B} (m : io A) (k : A -> io B) : io B := fun f =>
  match m f with (Ok a, f') => k a f' | (Err e, f') => (Err e, f') end.
Notation "'run' x <- m ;; k" := (ibind m (fun x => k))
  (at level 200, x pattern, m at level 100, k at level 200, right associativity).

(* fh.tell()
   [util.py:249, 529] *)
Definition tell : io Z := fun f => (Ok (f_pos f), f).
(* fh.seek(p); a negative position is refused
   [util.py:254, 530] *)
Definition seek (p : Z) : io unit := fun f =>
  if p <? 0 then (Err ValueError, f) else (Ok tt, mk_file (f_data f) p).
(* fh.seek(0, os.SEEK_END)
   [util.py:251] *)
Definition seek_end : io unit := fun f => (Ok tt, mk_file (f_data f) (zlen (f_data f))).
(* fh.read(n), n >= 0: at most n bytes from the position
   [util.py:468, toolkit.py:157, 393] *)
Definition read (n : Z) : io (list Z) := fun f =>
  let b := py_slice (f_data f) (f_pos f) (f_pos f + n) in
  (Ok b, mk_file (f_data f) (f_pos f + zlen b)).
(* fh.write(b): overwrites or extends; a gap before the position is zero-filled;
   writing nothing changes nothing
   [toolkit.py:679, 804, 842] *)
Definition write_at (d : list Z) (p : Z) (b : list Z) : list Z :=
  firstn (Z.to_nat p) (d ++ zrepeat 0 (p - zlen d)) ++ b ++ skipn (Z.to_nat (p + zlen b)) d.
(* [toolkit.py:679, 804, 842] *)
Definition write (b : list Z) : io unit := fun f =>
  match b with
  | [] => (Ok tt, f)
  | _ => (Ok tt, mk_file (write_at (f_data f) (f_pos f) b) (f_pos f + zlen b))
  end.

(* util.py:240-254 file_length *)
Definition file_length : io Z :=
  run pos <- tell ;;
  run _ <- seek_end ;;
  run n <- tell ;;
  run _ <- seek pos ;;
  ret n.

(* util.py:527-532 restored_position_seek around a body that does not raise *)
Definition restored_position_seek {A} (pos : Z) (body : io A) : io A :=
  run original <- tell ;;
  run _ <- seek pos ;;
  run a <- body ;;
  run _ <- seek original ;;
  ret a.
