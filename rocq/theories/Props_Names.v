(* Properties C144 (the decimal form of revisions) and C145 (names and sentences). *)
From Coq Require Import ZArith List Bool Lia ZifyBool ZifyNat.
From Verif Require Import Py Toolkit Names Spec_Names NamesFacts.
Import ListNotations.
Open Scope list_scope.
Open Scope Z_scope.

(* C144: the bytes of the code are the two numbers; tenths of the result *)
Theorem C144_bytes : forall hi lo, 0 <= hi < 256 -> 0 <= lo < 256 -> decimal_revision (256 * hi + lo) = 10 * hi + lo.
Proof. exact decimal_bytes. Qed.
Print Assumptions C144_bytes.

(* any other integer is taken as the sixteen bits that are stored for it *)
Theorem C144_any : forall r, decimal_revision r = decimal_revision (r mod 65536).
Proof. exact decimal_any. Qed.
Print Assumptions C144_any.

(* the revisions of files that can be read are 0.0 and 1.0 *)
Theorem C144_canonical : forall r k, canonicalize_revision r = Ok k -> decimal_revision k = 0 \/ decimal_revision k = 10.
Proof.
  intros r k. unfold canonicalize_revision. repeat match goal with |- context [match ?c with _ => _ end] => destruct c end; intros [= <-]; vm_compute; auto.
Qed.
Print Assumptions C144_canonical.

(* Missing: codes with a second byte of ten or more, see below. *)
Theorem C144_distinct_partial : forall r r', 0 <= r < 65536 -> 0 <= r' < 65536 -> r mod 256 < 10 -> r' mod 256 < 10 ->
  decimal_revision r = decimal_revision r' -> r = r'.
Proof. exact decimal_distinct. Qed.
Print Assumptions C144_distinct_partial.

(* 0x010A is shown as 2.0 *)
Theorem C144_distinct_refuted : exists r r', 0 <= r < 65536 /\ 0 <= r' < 65536 /\ decimal_revision r = decimal_revision r' /\ r <> r'.
Proof. exists 266, 512. split; [lia|]. split; [lia|]. split; [reflexivity|lia]. Qed.
Print Assumptions C144_distinct_refuted.

Example C144_example : decimal_revision 256 = 10 /\ decimal_revision 258 = 12 /\ decimal_revision (-1) = 2805 /\ canonicalize_revision 100 = Ok 256.
Proof. split; [reflexivity|]. split; [reflexivity|]. split; reflexivity. Qed.

(* C145: every word is capitalized, which says all there is to say about it *)
Theorem C145_camelcase : forall ws, ws <> [] -> Forall (fun w => ~ In 95 w) ws ->
  exists vs, underscores_to_camelcase (joined 95 ws) = concat vs /\ Forall2 capitalized ws vs.
Proof. exact camelcase_words. Qed.
Print Assumptions C145_camelcase.
Theorem C145_capitalized : forall w v v', capitalized w v -> capitalized w v' -> v = v'.
Proof. exact capitalized_unique. Qed.
Print Assumptions C145_capitalized.
(* every string is words with underscores between them *)
Theorem C145_words : forall s, exists ws, ws <> [] /\ Forall (fun w => ~ In 95 w) ws /\ joined 95 ws = s.
Proof. intros s. exists (split_at 95 s). exact (split_parts 95 s). Qed.
Print Assumptions C145_words.
Theorem C145_no_underscore : forall s, ~ In 95 (underscores_to_camelcase s).
Proof. exact camelcase_no_underscore. Qed.
Print Assumptions C145_no_underscore.

(* the string up to and with the first full stop, or all of it *)
Theorem C145_sentence : forall s, exists rest, s = first_sentence s ++ rest /\
  ((exists a, first_sentence s = a ++ [46] /\ ~ In 46 a) \/ (rest = [] /\ ~ In 46 s)).
Proof. exact sentence_ok. Qed.
Print Assumptions C145_sentence.

(* only the first character changes, and only its case *)
Theorem C145_lower_first : lower_first [] = [] /\
  forall c s, exists c', lower_first (c :: s) = c' :: s /\ same_letter c c' /\ ~ capital_letter c'.
Proof. split; [reflexivity|]. intros c s. exists (lower c). split; [reflexivity|]. apply lower_same. Qed.
Print Assumptions C145_lower_first.

(* two underscores, something, two underscores *)
Theorem C145_magic : forall name, is_magic_name name = true <-> exists root, root <> [] /\ name = [95; 95] ++ root ++ [95; 95].
Proof. exact magic_ok. Qed.
Print Assumptions C145_magic.

(* "the_bROWN__fox", "One. Two.", "ABc", "__x__", "____" *)
Example C145_example :
  underscores_to_camelcase [116; 104; 101; 95; 98; 82; 79; 87; 78; 95; 95; 102; 111; 120] = [84; 104; 101; 66; 114; 111; 119; 110; 70; 111; 120] /\
  first_sentence [79; 110; 101; 46; 32; 84; 119; 111; 46] = [79; 110; 101; 46] /\ lower_first [65; 66; 99] = [97; 66; 99] /\
  is_magic_name [95; 95; 120; 95; 95] = true /\ is_magic_name [95; 95; 95; 95] = false.
Proof. split; [reflexivity|]. split; [reflexivity|]. split; [reflexivity|]. split; reflexivity. Qed.
