(* Property C139: the commands that write a file, stopped at any time. *)
From Coq Require Import String ZArith List Bool Lia ZifyBool ZifyNat.
From Verif Require Import Py PyFacts PyFloat IbmFloat Spec_Ibm Packing Spec_Packing Formats FileIO Text Toolkit Spec_Segy Reader
  Transform Props_Transform Commands Spec_Commands CommandsFacts Props_Commands OpenFacts Stops Spec_Stops Props_Stops Plans Spec_Plans PlansFacts.
Import ListNotations.
Local Open Scope string_scope.
Open Scope list_scope.
Open Scope Z_scope.

(* the plan is what the command does: the exit code, the file that is written and
   its contents in the end *)
Theorem C139_plan : forall native parse c argv s, fst (main native parse c argv s) = fst (main_plan native parse c argv s) /\
  match snd (main_plan native parse c argv s) with
  | None => snd (main native parse c argv s) = s
  | Some (out, o, l) => (exists make inn i, asks parse c argv make inn out /\ open_rb s inn = inl i) /\ open_wb s out = inl o /\
      only_written s out o (made l) (snd (main native parse c argv s))
  end.
Proof. exact main_planned. Qed.
Print Assumptions C139_plan.

(* stopped at any time, it has done nothing, or it has written a beginning of what
   it would have written and touched nothing else *)
Theorem C139_stopped : forall native parse c argv s s', sound s -> command_stopped (snd (main_plan native parse c argv s)) s s' ->
  s' = s \/ exists make inn out i o b n, asks parse c argv make inn out /\ open_rb s inn = inl i /\ open_wb s out = inl o /\
    only_written s out o b (snd (main native parse c argv s)) /\ 0 <= n <= zlen b /\ only_written s out o (firstn (Z.to_nat n) b) s'.
Proof. exact command_left. Qed.
Print Assumptions C139_stopped.

(* so the input is what it was, unless it is the output as well *)
Theorem C139_input : forall native parse c argv s s', sound s -> command_stopped (snd (main_plan native parse c argv s)) s s' ->
  forall j, (forall make inn out, asks parse c argv make inn out -> open_wb s out <> inl j) -> fs_data s' j = fs_data s j.
Proof.
  intros native parse c argv s s' S C j N. destruct (C139_stopped native parse c argv s s' S C) as [->|(make & inn & out & i & o & b & n & A & _ & O & _ & _ & (_ & W & _))]; [reflexivity|].
  apply W. intros ->. now apply (N make inn out A).
Qed.
Print Assumptions C139_input.

(* any beginning can be left, nothing at all among them: what an existing output
   held is lost from the start *)
Theorem C139_anywhere : forall native parse c argv s make inn out i o b n, sound s -> asks parse c argv make inn out ->
  open_rb s inn = inl i -> open_wb s out = inl o -> only_written s out o b (snd (main native parse c argv s)) -> 0 <= n <= zlen b ->
  exists s', command_stopped (snd (main_plan native parse c argv s)) s s' /\ only_written s out o (firstn (Z.to_nat n) b) s'.
Proof. exact command_left_anywhere. Qed.
Print Assumptions C139_anywhere.

Lemma copied_length : zlen (fs_data (snd (main Little halved LoadSave ["a"; "e"] (disk file_ibm [7]))) 2) = zlen file_ibm /\ 3600 < zlen file_ibm.
Proof. split; vm_compute; reflexivity. Qed.
Example C139_example : sound (disk file_ibm [7]) /\ asks halved LoadSave ["a"; "e"] (fun ds => Ok ds) "a" "e" /\
  open_rb (disk file_ibm [7]) "a" = inl 1 /\ open_wb (disk file_ibm [7]) "e" = inl 2 /\
  exists b, only_written (disk file_ibm [7]) "e" 2 b (snd (main Little halved LoadSave ["a"; "e"] (disk file_ibm [7]))) /\ 3600 < zlen b.
Proof.
  assert (B : bytesb file_ibm = true) by (vm_compute; reflexivity).
  assert (L := copied_length). revert B L. generalize file_ibm. intros d B (L & L').
  split. { intros i. unfold disk. cbn [fs_data]. destruct (i =? 1); [now apply bytesb_ok|]. destruct (i =? 2); [|constructor]. constructor; [lia|constructor]. }
  split; [constructor|]. split; [reflexivity|]. split; [reflexivity|].
  destruct (C125_opened Little halved LoadSave ["a"; "e"] (disk d [7]) _ "a" "e" (asks_copy _ _ _ _) 1 2 eq_refl eq_refl) as (code & b & s' & M & W & _).
  exists b. rewrite M in *. cbn [snd] in *. split; [exact W|]. destruct W as (<- & _). lia.
Qed.
