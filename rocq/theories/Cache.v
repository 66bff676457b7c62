(* Model of the reader cache of segpy/reader.py and of hash_for_file in
   segpy/util.py.  No proofs here. *)
From Coq Require Import String Ascii ZArith List Bool.
From Verif Require Import Py PyFloat IbmFloat Util Catalog Packing Formats FileIO Text TextIO Float32 Toolkit Reader.
Import ListNotations.
Local Open Scope string_scope.
Open Scope list_scope.
Open Scope Z_scope.

(* str.encode('utf8') of a string of ASCII characters
   [util.py:474-476] *)
Fixpoint string_bytes (s : string) : list Z :=
  match s with
  | EmptyString => []
  | String a s => Z.of_N (N_of_ascii a) :: string_bytes s
  end.

(* ------------------------------------------------------------------ *)
(* util.py:449-479 hash_for_file                                        *)

(* util.py:465 block_size *)
Definition HASH_BLOCK_SIZE : Z := 512 * 128.
(* util.py:468-469 the chunks handed to sha1.update, concatenated *)
Fixpoint read_chunks (fuel : nat) : io (list Z) :=
  match fuel with
  | O => raise OutOfFuel
  | S fuel =>
      run chunk <- read HASH_BLOCK_SIZE ;;
      match chunk with
      | [] => ret []
      | _ => run rest <- read_chunks fuel ;; ret (chunk ++ rest)
      end
  end.
(* int.to_bytes(n, byteorder='little') for a number that fits *)
Fixpoint le_bytes (n : nat) (v : Z) : list Z :=
  match n with O => [] | S n => v mod 256 :: le_bytes n (v / 256) end.
(* int.bit_length *)
Definition bit_length (n : Z) : Z := if n =? 0 then 0 else Z.log2 (Z.abs n) + 1.
(* util.py:471 *)
Definition length_bytes (n : Z) : list Z := le_bytes (Z.to_nat (bit_length n / 8 + 1)) n.
(* The digest is modelled by the sequence of bytes that is hashed, that is,
   SHA-1 is taken to be injective.  args are the encoded reprs. *)
Definition hash_for_file (args : list (list Z)) : io (list Z) :=
  run _ <- seek 0 ;;
  run data <- (fun f => read_chunks (S (length (f_data f))) f) ;;
  run length <- tell ;;
  run _ <- seek 0 ;;
  ret (data ++ length_bytes length ++ concat args).

(* ------------------------------------------------------------------ *)
(* What the cache depends on                                            *)

(* fh.name: absent, a path, or the number of a file descriptor
   [util.py:257-270] *)
Inductive fname : Set := NoName | Path (p : string) | Descriptor (n : Z).

(* A class as the argument of create_reader: one that pickle can find again by
   its qualified name, or one defined inside a function, which it cannot.
   [reader.py:40-41, 145] *)
Inductive cls : Type := Global (name : string) | Local (c : fmt).

(* cache_directory; a Path is absolute or relative
   [reader.py:144, 178-188] *)
Inductive cache_dir : Set := NoCache | Absolute (dir : string) | Relative (dir : string).

(* the location of a cache file: its directory and its name, a digest
   [reader.py:178-188] *)
Definition ckey : Type := (string * list Z)%type.

(* reader.py:365-391 the state of a pickled reader: the version, the file's
   name and position, the reader without its binary header and class
   references, the state of the binary header and the names of the classes *)
Record saved : Type := mk_saved {
  sv_version : Z; sv_name : fname; sv_pos : Z; sv_reader : reader;
  sv_header : list (string * Z) * list (string * Z);
  sv_bc : string; sv_tc : string }.

(* what is found at a cache location: nothing; something that is not a file; a
   file that cannot be opened; bytes that do not unpickle, such as a part of a
   pickle; the pickle of something else; the pickle of a reader
   [reader.py:229-249] *)
Inductive entry : Type := Missing | NotFile | Unreadable | Damaged | Foreign | Saved (s : saved).

(* The files by name, the cache, the classes by name, segpy.__version__ and
   whether os.makedirs, opening for writing and unlink succeed.
   [reader.py:191-249, 393-419] *)
Record env : Type := mk_env {
  en_files : fname -> option (list Z);
  en_cache : ckey -> entry;
  en_classes : string -> option fmt;
  en_version : Z;
  en_mkdir : bool; en_write : bool; en_unlink : bool }.

(* [the file system of reader.py:229-249] *)
Fixpoint bytes_eqb (a b : list Z) : bool :=
  match a, b with
  | [], [] => true
  | x :: a, y :: b => (x =? y) && bytes_eqb a b
  | _, _ => false
  end.
(* [the file system of reader.py:229-249] *)
Definition key_eqb (a b : ckey) : bool := String.eqb (fst a) (fst b) && bytes_eqb (snd a) (snd b).
(* [the file system of reader.py:393-419] *)
Definition fname_eqb (a b : fname) : bool :=
  match a, b with
  | NoName, NoName => true
  | Path p, Path q => String.eqb p q
  | Descriptor n, Descriptor m => n =? m
  | _, _ => false
  end.

(* [changes by others; no line of its own] *)
Definition set_files (en : env) (n : fname) (d : option (list Z)) : env :=
  mk_env (fun m => if fname_eqb m n then d else en_files en m) (en_cache en) (en_classes en) (en_version en)
    (en_mkdir en) (en_write en) (en_unlink en).
(* [reader.py:201-203, 238] *)
Definition set_entry (en : env) (k : ckey) (x : entry) : env :=
  mk_env (en_files en) (fun j => if key_eqb j k then x else en_cache en j) (en_classes en) (en_version en)
    (en_mkdir en) (en_write en) (en_unlink en).
(* [changes by others; no line of its own] *)
Definition set_class (en : env) (n : string) (c : fmt) : env :=
  mk_env (en_files en) (en_cache en) (fun m => if String.eqb m n then Some c else en_classes en m) (en_version en)
    (en_mkdir en) (en_write en) (en_unlink en).
(* [changes by others; no line of its own] *)
Definition set_version (en : env) (v : Z) : env :=
  mk_env (en_files en) (en_cache en) (en_classes en) v (en_mkdir en) (en_write en) (en_unlink en).
(* [changes by others; no line of its own] *)
Definition set_rights (en : env) (mkdir write unlink : bool) : env :=
  mk_env (en_files en) (en_cache en) (en_classes en) (en_version en) mkdir write unlink.

(* [reader.py:145, 152] *)
Definition class_of (en : env) (c : cls) : option fmt :=
  match c with Global n => en_classes en n | Local f => Some f end.
(* repr of a class
   [util.py:475] *)
Definition class_repr (c : cls) : string :=
  "<class '" ++ match c with Global n => n | Local f => fmt_name f end ++ "'>".
(* repr of the encoding argument; other strings than the two supported
   encodings are represented by one
   [util.py:475] *)
Definition encoding_repr (x : option encoding) : string :=
  match x with None => "None" | Some ASCII => "'ascii'" | Some EBCDIC => "'cp037'" | Some OtherEncoding => "'utf-8'" end.
(* [util.py:475] *)
Definition endian_repr (e : endian) : string := match e with Big => "'>'" | Little => "'<'" end.

(* ------------------------------------------------------------------ *)
(* reader.py:162-188 _locate_cache_file.  Path(seg_y_path) is a TypeError for a
   descriptor number.  Path.resolve() (symbolic links, the working directory)
   is not modelled: paths are taken as they are. *)
Fixpoint dirname_from (s : string) : option string :=
  match s with
  | EmptyString => None
  | String a s' => match dirname_from s' with
                   | Some d => Some (String a d)
                   | None => if Ascii.eqb a "/"%char then Some EmptyString else None
                   end
  end.
(* [reader.py:185] *)
Definition dirname (s : string) : string := match dirname_from s with Some d => d | None => "." end.
(* [reader.py:162-188] *)
Definition locate_cache_file (name : fname) (dir : cache_dir) (sha1 : list Z) : res (option ckey) :=
  match dir with
  | NoCache => Ok None
  | Absolute d => Ok (Some (d, sha1))
  | Relative d => match name with
                  | NoName => Ok None
                  | Path p => Ok (Some ((dirname p ++ "/" ++ d)%string, sha1))
                  | Descriptor _ => Err TypeError
                  end
  end.

(* ------------------------------------------------------------------ *)
(* reader.py:365-391, 641-646, 786-790 __getstate__, with pickling by reference
   of the classes of the binary header and of the packer (an AttributeError or
   PicklingError for a local class).  Evaluating max_num_trace_samples,
   inline_numbers, xline_numbers and cdp_numbers only fills memos. *)
Definition reader_getstate (en : env) (name : fname) (pos : Z) (bc tc : cls) (r : reader) : res saved :=
  do _ <- match rd_kind r with
          | Plain => Ok tt
          | Kind2D _ => do _ <- rd_cdp_numbers r ;; Ok tt
          | Kind3D _ => do _ <- rd_inline_numbers r ;; do _ <- rd_xline_numbers r ;; Ok tt
          end ;;
  match name with
  | NoName => Err TypeError
  | _ =>
      do _ <- rd_max_num_trace_samples r ;;
      do h <- hdr_getstate (rd_binary r) ;;
      match bc, tc with
      | Global b, Global t => Ok (mk_saved (en_version en) name pos r h b t)
      | _, _ => Err AttributeError
      end
  end.

(* reader.py:393-419 __setstate__, header.py:81-92 and packer.py:156-167: the
   classes are looked up by name, the file is opened again by name *)
Definition reader_setstate (en : env) (s : saved) : res (reader * file) :=
  match en_classes en (sv_bc s), en_classes en (sv_tc s) with
  | Some bc, Some tc =>
      do h <- hdr_setstate bc (sv_header s) ;;
      if negb (sv_version s =? en_version en) then Err TypeError
      else match en_files en (sv_name s) with
      | None => Err TypeError
      | Some d =>
          let r := sv_reader s in
          let p := rd_packer r in
          Ok (mk_reader (rd_kind r) (rd_text r) h (rd_ext r) (rd_offsets r) (rd_lengths r)
                (mk_packer tc (pk_endian p) (pk_chunks p) (pk_alloc p) (pk_bijective p))
                (rd_encoding r) (rd_endian r) (rd_revision r) (rd_bps r),
              mk_file d (sv_pos s))
      end
  | _, _ => Err AttributeError
  end.

(* reader.py:211-249 _load_reader_from_cache *)
Definition load_reader (k : ckey) (en : env) : res (option (reader * file)) * env :=
  let stale := (Ok None, if en_unlink en then set_entry en k Missing else en) in
  match en_cache en k with
  | Missing | NotFile => (Ok None, en)
  | Unreadable => (Err OSError, en)
  | Damaged => stale
  | Foreign => (Err TypeError, en)
  | Saved s => match reader_setstate en s with
               | Ok rf => (Ok (Some rf), en)
               | Err _ => stale
               end
  end.

(* reader.py:191-208 _save_reader_to_cache.  What pickle.dump wrote before it
   failed stays in the file. *)
Definition save_reader (k : ckey) (name : fname) (pos : Z) (bc tc : cls) (r : reader) (en : env) : res unit * env :=
  if negb (en_mkdir en) then (Err OSError, en)
  else if negb (en_write en) then (Ok tt, en)
  else match en_cache en k with
  | NotFile => (Ok tt, en)
  | _ => match reader_getstate en name pos bc tc r with
         | Ok s => (Ok tt, set_entry en k (Saved s))
         | Err AttributeError | Err TypeError => (Ok tt, set_entry en k Damaged)
         | Err y => (Err y, set_entry en k Damaged)
         end
  end.

(* ------------------------------------------------------------------ *)
(* reader.py:38-159 create_reader.  A call: the cache directory and the other
   arguments; a handle: its name, attributes and contents.  The position of the
   handle is that of a file just opened. *)
Record call : Type := mk_call {
  ca_dir : cache_dir; ca_enc : option encoding; ca_bc : cls; ca_tc : cls; ca_endian : option endian;
  ca_progress : progress_arg; ca_dim : option Z }.
(* [reader.py:38-46] *)
Record handle : Type := mk_handle { hd_name : fname; hd_attrs : file_attrs; hd_data : list Z }.

(* [reader.py:145, util.py:474-476] *)
Definition hash_args (c : call) (e : endian) : list (list Z) :=
  map string_bytes [encoding_repr (ca_enc c); class_repr (ca_bc c); class_repr (ca_tc c); endian_repr e].

(* The result: the reader and the file it reads, which is the caller's or one
   opened by the cached reader.
   [reader.py:149, 152] *)
Inductive source : Set := Callers | Reopened (f : file).
(* [reader.py:133-159] *)
Definition outcome : Type := (res (reader * source) * list (Z * Z))%type.

(* [reader.py:111-159] *)
Definition create_reader_cached (c : call) (h : handle) (en : env) : outcome * env :=
  let w0 := mk_world (mk_file (hd_data h) 0) [] in
  match create_reader_checks (hd_attrs h) (ca_endian c) (ca_progress c) (ca_dim c) w0 with
  | (Err y, w) => ((Err y, w_log w), en)
  | (Ok e, w) =>
      match class_of en (ca_bc c), class_of en (ca_tc c) with
      | Some bc, Some tc =>
          let build (k : option ckey) (w : world) (en : env) : outcome * env :=
            match make_reader (ca_enc c) bc tc e (ca_dim c) w with
            | (Err y, w) => ((Err y, w_log w), en)
            | (Ok r, w) =>
                match match k with
                      | Some k => save_reader k (hd_name h) (f_pos (w_file w)) (ca_bc c) (ca_tc c) r en
                      | None => (Ok tt, en)
                      end with
                | (Err y, en) => ((Err y, w_log w), en)
                | (Ok _, en) => ((Ok (r, Callers), w_log w ++ [(1, 1)]), en)
                end
            end in
          match ca_dir c with
          | NoCache => build None w en
          | dir =>
              match on_file (hash_for_file (hash_args c e)) w with
              | (Err y, w) => ((Err y, w_log w), en)
              | (Ok sha1, w) =>
                  match locate_cache_file (hd_name h) dir sha1 with
                  | Err y => ((Err y, w_log w), en)
                  | Ok None => build None w en
                  | Ok (Some k) =>
                      match load_reader k en with
                      | (Err y, en) => ((Err y, w_log w), en)
                      | (Ok (Some (r, f)), en) => ((Ok (r, Reopened f), w_log w ++ [(1, 1)]), en)
                      | (Ok None, en) => build (Some k) w en
                      end
                  end
              end
          end
      | _, _ => ((Err AttributeError, w_log w), en)  (* not a class: no such call *)
      end
  end.

(* ------------------------------------------------------------------ *)
(* Histories: what may happen to the files, the cache, the classes and the
   library, calls of create_reader, and calls during which the process dies:
   before the reader is saved or (torn) while the pickle is being written,
   which leaves a part of it.  (A torn save is also allowed where the scan of
   the file would have failed before.)
   [histories of calls; no line of its own] *)
Inductive event : Type :=
| File_changed (n : fname) (d : option (list Z))
| Called (c : call) (h : handle)
| Died (c : call) (h : handle) (torn : bool)
| Entry_changed (k : ckey) (x : entry)
| Class_defined (n : string) (c : fmt)
| Upgraded (v : Z)
| Rights_changed (mkdir write unlink : bool).

(* the cache location a call uses
   [reader.py:144-147] *)
Definition call_location (c : call) (h : handle) : option ckey :=
  match create_reader_checks (hd_attrs h) (ca_endian c) (ca_progress c) (ca_dim c) (mk_world (mk_file (hd_data h) 0) []) with
  | (Ok e, w) =>
      match ca_dir c with
      | NoCache => None
      | dir => match on_file (hash_for_file (hash_args c e)) w with
               | (Ok sha1, _) => match locate_cache_file (hd_name h) dir sha1 with Ok k => k | Err _ => None end
               | _ => None
               end
      end
  | _ => None
  end.
(* [reader.py:144-155, 191-208] *)
Definition die (c : call) (h : handle) (torn : bool) (en : env) : env :=
  match call_location c h with
  | None => en
  | Some k => match load_reader k en with
              | (Ok None, en) =>
                  match en_cache en k with
                  | NotFile => en
                  | _ => if torn && en_mkdir en && en_write en then set_entry en k Damaged else en
                  end
              | (_, en) => en
              end
  end.
(* [histories of calls; no line of its own] *)
Definition step (ev : event) (en : env) : env :=
  match ev with
  | File_changed n d => set_files en n d
  | Called c h => snd (create_reader_cached c h en)
  | Died c h torn => die c h torn en
  | Entry_changed k x => set_entry en k x
  | Class_defined n c => set_class en n c
  | Upgraded v => set_version en v
  | Rights_changed m w u => set_rights en m w u
  end.
(* [histories of calls; no line of its own] *)
Definition after (evs : list event) (en : env) : env := fold_left (fun en ev => step ev en) evs en.
