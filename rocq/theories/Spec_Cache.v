(* Specification vocabulary for the reader cache. *)
From Coq Require Import String ZArith List Bool.
From Verif Require Import Py PyFloat IbmFloat Util Catalog Packing Spec_Packing FileIO Text Toolkit Reader Spec_Reader Cache.
Import ListNotations.
Local Open Scope string_scope.
Open Scope list_scope.
Open Scope Z_scope.

(* what hash_for_file hashes: the contents, their length as little-endian bytes
   without a redundant top byte beyond one, the arguments *)
Definition is_length (n : Z) (b : list Z) : Prop :=
  Forall (fun x => 0 <= x < 256) b /\ fold_right (fun x v => x + 256 * v) 0 b = n /\
  256 ^ (zlen b) > n /\ (zlen b = 1 \/ 256 ^ (zlen b - 1) <= 2 * n).

(* Two readers give the same answers to every method call, whatever was called
   before and wherever the file is positioned; the binary reel headers are equal
   field by field. *)
Definition answers_alike (r r' : reader) : Prop :=
  same_fields (rd_binary r) (rd_binary r') /\
  forall native q s, q <> BinaryReelHeaderOf -> exec native r' q s = exec native r q s.

(* the call without a cache *)
Definition without_cache (c : call) : call :=
  mk_call NoCache (ca_enc c) (ca_bc c) (ca_tc c) (ca_endian c) (ca_progress c) (ca_dim c).

(* The outcome of a call is what it would be without a cache: the same
   exception, or a reader that gives the same answers on the same contents,
   read from the caller's file or from another one. *)
Definition same_outcome (d : list Z) (o plain : outcome) : Prop :=
  match fst o, fst plain with
  | Ok (r, src), Ok (r', _) => answers_alike r' r /\ (src = Callers \/ exists p, src = Reopened (mk_file d p))
  | Err y, Err y' => y = y'
  | _, _ => False
  end.
Definition transparent (c : call) (h : handle) (en : env) : Prop :=
  same_outcome (hd_data h) (fst (create_reader_cached c h en)) (fst (create_reader_cached (without_cache c) h en)).

(* nothing is cached yet *)
Definition empty_cache (en : env) : Prop := forall k, en_cache en k = Missing.

(* classes are not redefined *)
Definition classes_stable (evs : list event) (en : env) : Prop := forall evs1 n c evs2, evs = evs1 ++ Class_defined n c :: evs2 ->
  en_classes (after evs1 en) n = None \/ en_classes (after evs1 en) n = Some c.
(* what others do to the cache is to remove entries or to spoil them so that
   they do not unpickle *)
Definition only_damage (evs : list event) : Prop := forall k x, In (Entry_changed k x) evs -> x = Missing \/ x = Damaged \/ x = NotFile.

(* Calls that differ at most in the cache directory, the progress callback and
   the dimensionality. *)
Definition same_request (c c' : call) : Prop :=
  ca_enc c' = ca_enc c /\ class_repr (ca_bc c') = class_repr (ca_bc c) /\ class_repr (ca_tc c') = class_repr (ca_tc c) /\
  ca_endian c' = ca_endian c.
(* no earlier call made the same request of the same contents for another
   dimensionality *)
Definition one_dimensionality (evs : list event) (c : call) (h : handle) : Prop := forall c' h', In (Called c' h') evs ->
  hd_data h' = hd_data h -> same_request c c' -> ca_dim c' = ca_dim c.
(* Files of which readers were made earlier, with the contents now opened, still
   have those contents, unless they were removed. *)
Definition contents_kept (evs : list event) (en : env) (h : handle) : Prop := forall c' h', In (Called c' h') evs ->
  hd_data h' = hd_data h -> en_files en (hd_name h') = Some (hd_data h) \/ en_files en (hd_name h') = None.

(* The qualified name of a class has no quotes; that of a class defined inside a
   function contains "<locals>", that of another class no "<". *)
Definition named (c : cls) : Prop :=
  match c with
  | Global n => ~ In 39 (string_bytes n) /\ ~ In 60 (string_bytes n)
  | Local f => ~ In 39 (string_bytes (fmt_name f)) /\ In 60 (string_bytes (fmt_name f))
  end.
Definition call_named (c : call) : Prop := named (ca_bc c) /\ named (ca_tc c).
Definition calls_named (evs : list event) : Prop := forall c h, In (Called c h) evs -> call_named c.

(* the path and the cache location can be combined *)
Definition locatable (c : call) (h : handle) : Prop := forall dir n, ca_dir c = Relative dir -> hd_name h <> Descriptor n.
(* the file and the classes are as the other properties of readers ask, and the
   binary header class keeps its fields through pickling *)
Definition request_ok (c : call) (h : handle) (en : env) : Prop := forall bc tc,
  class_of en (ca_bc c) = Some bc -> class_of en (ca_tc c) = Some tc ->
  readable (hd_data h) (ca_enc c) bc tc /\ pickles bc.

(* the collections of a reader that are computed on pickling *)
Definition collections_ok (r : reader) : Prop :=
  (rd_dimensionality r = 2 -> exists s, rd_cdp_numbers r = Ok s) /\
  (rd_dimensionality r = 3 -> exists s s', rd_inline_numbers r = Ok s /\ rd_xline_numbers r = Ok s').
Definition plain_collections (c : call) (h : handle) (en : env) : Prop := forall r src,
  fst (fst (create_reader_cached (without_cache c) h en)) = Ok (r, src) -> collections_ok r.

(* every call of the history opens the file of one name *)
Definition one_path (evs : list event) (n : fname) : Prop := forall c h, In (Called c h) evs -> hd_name h = n.

(* An entry that does not load: it does not unpickle, its version, classes or
   file are not those of now. *)
Definition unusable (en : env) (k : ckey) : Prop :=
  en_cache en k = Damaged \/ exists s y, en_cache en k = Saved s /\ reader_setstate en s = Err y.
