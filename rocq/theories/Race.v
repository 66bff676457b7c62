(* Model of several processes that open SEG Y files with the same contents and
   the same arguments, using one cache directory.  Each step is one operation on
   the cache file; steps of different processes are taken in any order, and a
   process may die between two steps.  Files are as in POSIX: a name refers to
   an inode; removing the name leaves the inode to those that have it open;
   opening for writing truncates the inode; what is written behind the end of
   the file leaves zeros before it.  Simplified: pickles are byte strings; the
   unpickler is any function that says of the bytes read so far whether it has
   the object, needs more, or refuses them.  What does not touch the cache file
   (hashing, building the reader) belongs to the step before it. *)
From Coq Require Import ZArith List Bool Arith.
From Verif Require Import Py Threads.
Import ListNotations.
Open Scope list_scope.
Open Scope nat_scope.

(* pickle.load on the bytes read so far
   [reader.py:234] *)
Inductive verdict (A : Type) : Type := More | Got (a : A) | Bad.
Arguments More {A}. Arguments Got {A}. Arguments Bad {A}.

(* What create_reader did: it made a reader from the file, it returned one from
   the cache, or it raised.
   [reader.py:149-159] *)
Inductive result (A : Type) : Type := Own | FromCache (a : A) | Raised (e : exn).
Arguments Own {A}. Arguments FromCache {A}. Arguments Raised {A}.

(* Where a process is in create_reader: before the test whether the cache file
   exists, before opening it, reading it, before removing it, before opening it
   for writing, writing it (the number of bytes written), or at the end.
   [reader.py:229, 232, 234, 238, 201, 203, 159] *)
Inductive at_step (A : Type) : Type :=
| Testing
| Opening
| Reading (ino : nat) (got : list Z)
| Unlinking
| Saving
| Writing (ino : nat) (written : nat)
| Returned (r : result A)
| Dead.
Arguments Testing {A}. Arguments Opening {A}. Arguments Reading {A}. Arguments Unlinking {A}. Arguments Saving {A}.
Arguments Writing {A}. Arguments Returned {A}. Arguments Dead {A}.

(* The cache file: the inode its name refers to, the contents of the inodes, the
   number of the next new inode; and the processes.
   [reader.py:146] *)
Record disk (A : Type) : Type := mk_disk { dk_entry : option nat; dk_inodes : nat -> list Z; dk_next : nat; dk_procs : nat -> at_step A }.
Arguments mk_disk {A}. Arguments dk_entry {A}. Arguments dk_inodes {A}. Arguments dk_next {A}. Arguments dk_procs {A}.

(* write(b) at an offset
   [reader.py:203] *)
Definition write_at (l : list Z) (off : nat) (b : list Z) : list Z :=
  firstn off (l ++ repeat 0%Z (off - length l)) ++ b ++ skipn (off + length b) l.

(* What happens: process i takes a step, of at most n bytes and at least one;
   process i dies; somebody else removes the cache file.
   [no line of its own: the operating system] *)
Inductive event : Type := Act (i n : nat) | Die (i : nat) | Remove.

(* [no line of its own] *)
Definition goes {A} (s : disk A) (i : nat) (p : at_step A) : disk A :=
  mk_disk (dk_entry s) (dk_inodes s) (dk_next s) (upd (dk_procs s) i p).

(* One step.  exists() and is_file() count as one test: if they disagree, the file
   was created or removed between, and the answer is that of one of them.  Reading
   never ends before the unpickler has an object, unless the file ends.
   [reader.py:141-159, 191-249] *)
Definition occur {A} (unpickle : list Z -> verdict A) (pickles : nat -> list Z) (ev : event) (s : disk A) : disk A :=
  match ev with
  | Remove => mk_disk None (dk_inodes s) (dk_next s) (dk_procs s)
  | Die i => match dk_procs s i with Returned _ => s | _ => goes s i Dead end
  | Act i n =>
      match dk_procs s i with
      | Testing => goes s i (match dk_entry s with Some _ => Opening | None => Saving end)
      | Opening => goes s i (match dk_entry s with Some ino => Reading ino [] | None => Returned (Raised OSError) end)
      | Reading ino got =>
          match firstn (Nat.max 1 n) (skipn (length got) (dk_inodes s ino)) with
          | [] => goes s i Unlinking
          | b => match unpickle (got ++ b) with
                 | More => goes s i (Reading ino (got ++ b))
                 | Got a => goes s i (Returned (FromCache a))
                 | Bad => goes s i Unlinking
                 end
          end
      | Unlinking => goes (mk_disk None (dk_inodes s) (dk_next s) (dk_procs s)) i Saving
      | Saving =>
          match dk_entry s with
          | Some ino => goes (mk_disk (dk_entry s) (upd (dk_inodes s) ino []) (dk_next s) (dk_procs s)) i (Writing ino 0)
          | None => goes (mk_disk (Some (dk_next s)) (upd (dk_inodes s) (dk_next s) []) (S (dk_next s)) (dk_procs s)) i (Writing (dk_next s) 0)
          end
      | Writing ino k =>
          match firstn (Nat.max 1 n) (skipn k (pickles i)) with
          | [] => goes s i (Returned Own)
          | b => goes (mk_disk (dk_entry s) (upd (dk_inodes s) ino (write_at (dk_inodes s ino) k b)) (dk_next s) (dk_procs s)) i
                   (Writing ino (k + length b))
          end
      | Returned _ | Dead => s
      end
  end.
(* [no line of its own] *)
Definition occur_all {A} (unpickle : list Z -> verdict A) (pickles : nat -> list Z) (evs : list event) (s : disk A) : disk A :=
  fold_left (fun s ev => occur unpickle pickles ev s) evs s.

(* The beginning: the cache has no entry, or one with the given contents.
   [no line of its own] *)
Definition fresh {A} (entry : option (list Z)) : disk A :=
  mk_disk (match entry with Some _ => Some 0 | None => None end) (fun _ => match entry with Some l => l | None => [] end) 1 (fun _ => Testing).
