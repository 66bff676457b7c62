(* Theorems for C70, C71, C72 (hash_for_file), C86 and C87. *)
From Coq Require Import String ZArith List Bool Lia.
From Coq Require Import ZifyBool ZifyNat.
From Verif Require Import Py PyFloat IbmFloat Util Catalog Packing Spec_Packing Formats FileIO Text Toolkit Spec_Segy Reader Spec_Reader OpenFacts Cache Spec_Cache CacheFacts.
Import ListNotations.
Local Open Scope string_scope.
Open Scope list_scope.
Open Scope Z_scope.

(* ---------------- C70 ---------------- *)

(* Full statement: for every environment en0 with an empty cache, history evs,
   call c and handle h, transparent c h (after evs en0).  It fails in several
   ways, see the _refuted theorems below.  It holds for the histories in which
   no class is redefined, entries are only removed or spoilt by others, equal
   requests of equal contents have equal dimensionality, files from which
   readers were cached keep their contents or disappear as far as the contents
   now opened are concerned, the cache directory can be made, the binary header
   class survives pickling, and the line or CDP numbers of the reader exist.
   Calls, crashes while saving, changes of other files, of the version, of the
   access rights and of the cache are otherwise arbitrary. *)
Theorem C70_transparent_partial : forall (en0 : env) (evs : list event) (c : call) (h : handle),
  empty_cache en0 -> only_damage evs -> classes_stable evs en0 -> calls_named evs -> call_named c ->
  one_dimensionality evs c h -> contents_kept evs (after evs en0) h -> locatable c h -> en_mkdir (after evs en0) = true ->
  request_ok c h (after evs en0) -> plain_collections c h (after evs en0) -> transparent c h (after evs en0).
Proof. exact cache_transparent. Qed.
Print Assumptions C70_transparent_partial.

(* In particular for one path whose contents change in any way, if the file
   opened has its present contents. *)
Theorem C70_one_path_partial : forall (en0 : env) (evs : list event) (c : call) (h : handle),
  empty_cache en0 -> only_damage evs -> classes_stable evs en0 -> calls_named evs -> call_named c ->
  one_dimensionality evs c h -> one_path evs (hd_name h) -> en_files (after evs en0) (hd_name h) = Some (hd_data h) ->
  locatable c h -> en_mkdir (after evs en0) = true ->
  request_ok c h (after evs en0) -> plain_collections c h (after evs en0) -> transparent c h (after evs en0).
Proof. exact cache_one_path. Qed.
Print Assumptions C70_one_path_partial.

(* the last condition holds when no dimensionality is forced *)
Theorem C70_automatic : forall (c : call) (h : handle) (en : env), ca_dim c = None -> request_ok c h en -> plain_collections c h en.
Proof. exact plain_auto. Qed.
Print Assumptions C70_automatic.

(* The cache has an effect: a second call with the same request finds the
   reader and reports no progress of a scan. *)
Theorem C70_hit : forall (c : call) (h : handle) (en : env) (k : ckey) (b t : string) (bc tc : fmt) (r : reader) (log : list (Z * Z)) (en' : env),
  call_location c h = Some k -> ca_bc c = Global b -> ca_tc c = Global t ->
  en_classes en b = Some bc -> en_classes en t = Some tc -> readable (hd_data h) (ca_enc c) bc tc -> pickles bc -> plain_collections c h en ->
  en_mkdir en = true -> en_write en = true -> en_cache en k <> NotFile -> hd_name h <> NoName ->
  en_files en (hd_name h) = Some (hd_data h) ->
  create_reader_cached c h en = ((Ok (r, Callers), log), en') ->
  exists r' p, create_reader_cached c h en' = ((Ok (r', Reopened (mk_file (hd_data h) p)), [(1, 1)]), en') /\ answers_alike r r'.
Proof. exact hit. Qed.
Print Assumptions C70_hit.

(* without a cache directory the call is that of the other properties *)
Theorem C70_no_cache : forall (c : call) (h : handle) (en : env) (bc tc : fmt),
  ca_dir c = NoCache -> class_of en (ca_bc c) = Some bc -> class_of en (ca_tc c) = Some tc ->
  let plain := create_reader (hd_attrs h) (ca_enc c) bc tc (ca_endian c) (ca_progress c) (ca_dim c) (mk_world (mk_file (hd_data h) 0) []) in
  create_reader_cached c h en = ((rmap (fun r => (r, Callers)) (fst plain), w_log (snd plain)), en).
Proof. exact no_cache_plain. Qed.
Print Assumptions C70_no_cache.

(* The dimensionality is not part of the key: after a file was opened, asking
   for another dimensionality returns the cached reader. *)
Theorem C70_other_dimensionality_refuted :
  ~ transparent (request (Some 1)) (opened_at "/a" file_3d)
      (after [File_changed (Path "/a") (Some file_3d); Called (request None) (opened_at "/a" file_3d)] start).
Proof. exact dim_witness. Qed.
Print Assumptions C70_other_dimensionality_refuted.

(* A cached reader opens the file it was made from: after a copy is made and
   the original overwritten, opening the copy reads the overwritten file. *)
Theorem C70_copy_refuted :
  ~ transparent (request None) (opened_at "/b" file_3d)
      (after [File_changed (Path "/a") (Some file_3d); Called (request None) (opened_at "/a" file_3d);
              File_changed (Path "/b") (Some file_3d); File_changed (Path "/a") (Some file_2d)] start).
Proof. exact copy_witness. Qed.
Print Assumptions C70_copy_refuted.

(* A class derived from BinaryReelHeader: the cached reader has lost the
   inherited fields, here the sample format. *)
Theorem C70_derived_header_refuted :
  ~ transparent request_mine (opened_at "/a" file_3d)
      (after [Class_defined "Mine" derived_binary; File_changed (Path "/a") (Some file_3d); Called request_mine (opened_at "/a" file_3d)] start).
Proof. exact derived_witness. Qed.
Print Assumptions C70_derived_header_refuted.

(* A trace header class that was edited: the reader of the old class is found. *)
Theorem C70_edited_class_refuted :
  ~ transparent request_edited (opened_at "/a" moved_file)
      (after [Class_defined "Mine" TraceHeaderRev1; File_changed (Path "/a") (Some moved_file); Called request_edited (opened_at "/a" moved_file);
              Class_defined "Mine" moved_inline] start).
Proof. exact edited_witness. Qed.
Print Assumptions C70_edited_class_refuted.

(* A forced dimensionality that the headers do not support works without a
   cache and is a RuntimeError with one. *)
Theorem C70_forced_dimensionality_refuted : ~ transparent (request (Some 3)) (opened_at "/a" file_1d) start.
Proof. exact forced_witness. Qed.
Print Assumptions C70_forced_dimensionality_refuted.

Definition history : list event :=
  [File_changed (Path "/a") (Some file_2d); Called (request None) (opened_at "/a" file_2d);
   File_changed (Path "/a") (Some file_3d); Died (request None) (opened_at "/a" file_3d) true;
   Called (request None) (opened_at "/a" file_3d); Upgraded 2; Called (request None) (opened_at "/a" file_3d)].
(* the last call of the history finds the reader saved by the one before *)
Definition found (o : outcome) : option Z := match fst o with Ok (r, Reopened _) => Some (rd_dimensionality r) | _ => None end.
Example C70_found_example : found (fst (create_reader_cached (request None) (opened_at "/a" file_3d) (after history start))) = Some 3.
Proof. vm_compute. reflexivity. Qed.
Lemma history_calls c h : In (Called c h) history -> c = request None /\ hd_name h = Path "/a".
Proof. intros I. unfold history in I. cbn [In] in I. destruct I as [I|[I|[I|[I|[I|[I|[I|[]]]]]]]]; try discriminate I; injection I; intros <- <-; auto. Qed.
Lemma history_quiet : Forall quiet history.
Proof. unfold history. repeat (apply Forall_cons; [exact I|]). apply Forall_nil. Qed.
Lemma request_named dim : call_named (request dim).
Proof. unfold call_named, named; cbn. split; split; intros H; repeat (destruct H as [H|H]; [discriminate H|]); exact H. Qed.
Lemma request_fine d evs dim : bytesb d = true -> Forall quiet evs -> request_ok (request dim) (opened_at "/a" d) (after evs start).
Proof.
  intros BY Q bc tc B T. cbn [class_of request ca_bc ca_tc] in B, T. rewrite (proj1 (quiet_keeps evs start Q)) in B, T.
  injection B as <-. injection T as <-. split; [|apply binary_pickles]. now apply readable_by.
Qed.
Lemma history_file : en_files (after history start) (Path "/a") = Some file_3d.
Proof.
  rewrite <- (firstn_skipn 3 history). apply file_kept; [exact (file_written (firstn 2 history) _ _ _)|].
  intros d I. unfold history in I. cbn [skipn In] in I. destruct I as [I|[I|[I|[I|[]]]]]; discriminate I.
Qed.
Example C70_example : transparent (request None) (opened_at "/a" file_3d) (after history start).
Proof.
  assert (RQ : request_ok (request None) (opened_at "/a" file_3d) (after history start)).
  { apply request_fine; [vm_compute; reflexivity|exact history_quiet]. }
  apply C70_one_path_partial.
  - intros k. reflexivity.
  - intros k x I. unfold history in I. repeat (destruct I as [I|I]; [discriminate I|]). destruct I.
  - intros e1 n c e2 E. exfalso. assert (I : In (Class_defined n c) history) by (rewrite E; apply in_or_app; right; now left).
    unfold history in I. repeat (destruct I as [I|I]; [discriminate I|]). destruct I.
  - intros c h I. destruct (history_calls c h I) as (-> & _). apply request_named.
  - apply request_named.
  - intros c h I _ _. destruct (history_calls c h I) as (-> & _). reflexivity.
  - intros c h I. exact (proj2 (history_calls c h I)).
  - exact history_file.
  - intros dir n H. discriminate H.
  - rewrite (proj2 (quiet_keeps history start history_quiet)). reflexivity.
  - exact RQ.
  - apply plain_auto; [reflexivity|exact RQ].
Qed.

(* ---------------- C71 ---------------- *)

(* An entry that does not load is ignored: the call answers as if there were
   none, and leaves what it would have left. *)
Theorem C71_rebuilt : forall (c : call) (h : handle) (en : env) (k : ckey), unusable en k -> call_location c h = Some k ->
  fst (create_reader_cached c h en) = fst (create_reader_cached c h (set_entry en k Missing)) /\
  (en_unlink en = true \/ (en_mkdir en = true /\ en_write en = true /\ exists r, fst (fst (create_reader_cached c h en)) = Ok r) ->
   class_of en (ca_bc c) <> None -> class_of en (ca_tc c) <> None ->
   en_cache (snd (create_reader_cached c h en)) k = en_cache (snd (create_reader_cached c h (set_entry en k Missing))) k).
Proof. exact unusable_rebuilt. Qed.
Print Assumptions C71_rebuilt.

(* and the reader is that of a call without a cache *)
Theorem C71_opens_partial : forall (c : call) (h : handle) (en : env) (k : ckey),
  unusable en k \/ en_cache en k = Missing \/ en_cache en k = NotFile -> call_location c h = Some k ->
  en_mkdir en = true -> request_ok c h en -> plain_collections c h en -> transparent c h en.
Proof. exact unusable_opens. Qed.
Print Assumptions C71_opens_partial.

(* A cache file that cannot be opened for reading prevents opening the file. *)
Theorem C71_unreadable_refuted : exists (c : call) (h : handle) (en : env) (k : ckey) (r : reader),
  call_location c h = Some k /\ en_cache en k = Unreadable /\ fst (fst (create_reader_cached c h en)) = Err OSError /\
  fst (fst (create_reader_cached (without_cache c) h en)) = Ok (r, Callers).
Proof. exact unreadable_witness. Qed.
Print Assumptions C71_unreadable_refuted.

(* The pickle of something else is a TypeError, as documented. *)
Theorem C71_foreign : forall (c : call) (h : handle) (en : env) (k : ckey), call_location c h = Some k -> en_cache en k = Foreign ->
  class_of en (ca_bc c) <> None -> class_of en (ca_tc c) <> None ->
  create_reader_cached c h en = ((Err TypeError, []), en).
Proof. exact foreign_error. Qed.
Print Assumptions C71_foreign.

Example C71_example : exists k, call_location (request None) (opened_at "/a" file_3d) = Some k /\
  let en := after [File_changed (Path "/a") (Some file_3d); Died (request None) (opened_at "/a" file_3d) true] start in
  unusable en k /\
  match create_reader_cached (request None) (opened_at "/a" file_3d) en with
  | ((Ok (r, Callers), _), en') => rd_dimensionality r = 3 /\ exists s, en_cache en' k = Saved s
  | _ => False
  end.
Proof. eexists. split; [vm_compute; reflexivity|]. cbv zeta. split; [left; vm_compute; reflexivity|]. vm_compute. split; [reflexivity|eexists; reflexivity]. Qed.

(* ---------------- C72 ---------------- *)

(* the bytes hashed, whatever the position of the file; the position is left at
   the beginning, not restored *)
Theorem C72_hash : forall (args : list (list Z)) (f : file), exists len, is_length (zlen (f_data f)) len /\
  hash_for_file args f = (Ok (f_data f ++ len ++ concat args), mk_file (f_data f) 0).
Proof. exact hash_spec. Qed.
Print Assumptions C72_hash.

(* Requests with equal digests have equal contents, encodings, classes (by
   name) and endianness. *)
Theorem C72_hash_injective : forall (f f' : file) (c c' : call) (e e' : endian) (x : list Z), call_named c -> call_named c' ->
  fst (hash_for_file (hash_args c e) f) = Ok x -> fst (hash_for_file (hash_args c' e') f') = Ok x ->
  f_data f = f_data f' /\ ca_enc c = ca_enc c' /\ class_repr (ca_bc c) = class_repr (ca_bc c') /\
  class_repr (ca_tc c) = class_repr (ca_tc c') /\ e = e'.
Proof. exact hash_injective. Qed.
Print Assumptions C72_hash_injective.

Example C72_hash_example : fst (hash_for_file [[1]; [2; 3]] (mk_file (repeat 7 300) 5)) = Ok (repeat 7 300 ++ [44; 1] ++ [1; 2; 3]).
Proof. vm_compute. reflexivity. Qed.

(* ---------------- C86 ---------------- *)

(* A cache directory that cannot be created prevents opening the file. *)
Theorem C86_mkdir_refuted : exists (c : call) (h : handle) (en : env) (r : reader),
  en_mkdir en = false /\ empty_cache en /\ fst (fst (create_reader_cached c h en)) = Err OSError /\
  fst (fst (create_reader_cached (without_cache c) h en)) = Ok (r, Callers).
Proof. exact mkdir_witness. Qed.
Print Assumptions C86_mkdir_refuted.

(* A cache file that cannot be written does not, nor does one that cannot be
   removed, nor a directory of its name. *)
Theorem C86_unwritable_partial : forall (c : call) (h : handle) (en : env) (k : ckey),
  unusable en k \/ en_cache en k = Missing \/ en_cache en k = NotFile -> call_location c h = Some k ->
  en_mkdir en = true -> en_write en = false -> request_ok c h en -> plain_collections c h en ->
  transparent c h en /\ forall j, j <> k -> en_cache (snd (create_reader_cached c h en)) j = en_cache en j.
Proof. exact unwritable_opens. Qed.
Print Assumptions C86_unwritable_partial.

Example C86_example : let en := set_rights start true false false in
  match fst (fst (create_reader_cached (request None) (opened_at "/a" file_3d) en)) with
  | Ok (r, Callers) => rd_dimensionality r = 3
  | _ => False
  end.
Proof. vm_compute. reflexivity. Qed.

(* ---------------- C87 ---------------- *)

(* Files known by a descriptor number and a relative cache directory such as
   the default: TypeError. *)
Theorem C87_descriptor_refuted : exists (c : call) (h : handle) (en : env) (r : reader),
  ca_dir c = Relative ".segpy" /\ hd_name h = Descriptor 3 /\ fst (fst (create_reader_cached c h en)) = Err TypeError /\
  fst (fst (create_reader_cached (without_cache c) h en)) = Ok (r, Callers).
Proof. exact descriptor_witness. Qed.
Print Assumptions C87_descriptor_refuted.

(* so every file that can be opened without a cache is refused *)
Theorem C87_descriptor : forall (c : call) (h : handle) (en : env) (dir : string) (n : Z) (r : reader) (o : source),
  ca_dir c = Relative dir -> hd_name h = Descriptor n ->
  fst (fst (create_reader_cached (without_cache c) h en)) = Ok (r, o) ->
  fst (fst (create_reader_cached c h en)) = Err TypeError /\ snd (create_reader_cached c h en) = en.
Proof. exact descriptor_fails. Qed.
Print Assumptions C87_descriptor.

(* Files without a name and a relative cache directory are not cached. *)
Theorem C87_no_name : forall (c : call) (h : handle) (en : env) (dir : string),
  ca_dir c = Relative dir -> hd_name h = NoName ->
  create_reader_cached c h en = (fst (create_reader_cached (without_cache c) h en), en).
Proof. exact no_name_plain. Qed.
Print Assumptions C87_no_name.

(* Files without a name and an absolute cache directory are opened; the reader
   cannot be pickled, so none is ever found in the cache. *)
Theorem C87_no_name_absolute_partial : forall (c : call) (h : handle) (en : env) (k : ckey),
  hd_name h = NoName -> call_location c h = Some k -> en_cache en k = Missing \/ en_cache en k = Damaged ->
  en_mkdir en = true -> request_ok c h en -> plain_collections c h en ->
  transparent c h en /\
  (en_cache (snd (create_reader_cached c h en)) k = Missing \/ en_cache (snd (create_reader_cached c h en)) k = Damaged).
Proof. exact no_name_absolute. Qed.
Print Assumptions C87_no_name_absolute_partial.

Example C87_example :
  match fst (fst (create_reader_cached (mk_call (Relative ".segpy") None (Global "BinaryReelHeader") (Global "TraceHeaderRev1") (Some Big) NoProgress None)
                    (mk_handle NoName attrs file_2d) start)) with
  | Ok (r, Callers) => rd_dimensionality r = 2
  | _ => False
  end.
Proof. vm_compute. reflexivity. Qed.
