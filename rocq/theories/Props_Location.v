(* Property C98. *)
From Coq Require Import String Ascii ZArith List Bool.
From Verif Require Import Py Util Packing FileIO Text Toolkit Reader Cache OpenFacts Spec_Location LocationFacts CacheFacts.
Import ListNotations.
Local Open Scope string_scope.
Open Scope list_scope.
Open Scope Z_scope.

(* The cache file of a call is in the documented directory. *)
Theorem C98_directory : forall (c : call) (h : handle) (dir : string) (n : list Z),
  call_location c h = Some (dir, n) -> cache_dir_of (hd_name h) (ca_dir c) dir.
Proof. exact location_dir. Qed.
Print Assumptions C98_directory.

(* No call of create_reader changes any other cache file, or any other file. *)
Theorem C98_nothing_else : forall (c : call) (h : handle) (en : env),
  untouched (call_location c h) en (snd (create_reader_cached c h en)).
Proof. exact call_untouched. Qed.
Print Assumptions C98_nothing_else.

Definition relative : call := mk_call (Relative ".segpy") (Some ASCII) (Global "BinaryReelHeader") (Global "TraceHeaderRev1") (Some Big) Callable None.
Example C98_example :
  option_map fst (call_location relative (opened_at "/data/survey/a.sgy" file_3d)) = Some "/data/survey/.segpy" /\
  option_map fst (call_location relative (opened_at "a.sgy" file_3d)) = Some "./.segpy" /\
  (exists k, call_location relative (opened_at "/a" file_3d) = Some k /\
     en_cache (snd (create_reader_cached relative (opened_at "/a" file_3d) start)) k <> en_cache start k).
Proof.
  split; [vm_compute; reflexivity|]. split; [vm_compute; reflexivity|].
  eexists. split; [vm_compute; reflexivity|]. vm_compute. discriminate.
Qed.
