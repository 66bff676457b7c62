(* Proofs about the location of cache files. *)
From Coq Require Import String Ascii ZArith List Bool Lia.
From Verif Require Import Py PyFloat IbmFloat Util Catalog Packing FileIO Text Toolkit Reader Cache Spec_Location CacheFacts.
Import ListNotations.
Local Open Scope string_scope.
Open Scope list_scope.
Open Scope Z_scope.

Lemma dirname_from_spec s :
  match dirname_from s with
  | Some d => exists base, s = (d ++ "/" ++ base)%string /\ lacks "/"%char base
  | None => lacks "/"%char s
  end.
Proof.
  induction s as [|a s IH]; cbn [dirname_from]; [exact I|]. destruct (dirname_from s) as [d|].
  - destruct IH as (base & -> & L). exists base. auto.
  - destruct (Ascii.eqb a "/"%char) eqn:E.
    + apply Ascii.eqb_eq in E. subst a. exists s. auto.
    + cbn. split; [|exact IH]. intros ->. now rewrite Ascii.eqb_refl in E.
Qed.
Lemma dirname_spec s : parent s (dirname s).
Proof.
  unfold dirname. pose proof (dirname_from_spec s) as H. destruct (dirname_from s); [left|right]; auto.
Qed.
Lemma location_dir c h dir n : call_location c h = Some (dir, n) -> cache_dir_of (hd_name h) (ca_dir c) dir.
Proof.
  unfold call_location. destruct (create_reader_checks _ _ _ _ _) as [[e|] w]; [|discriminate].
  assert (G : forall dd, match on_file (hash_for_file (hash_args c e)) w with
    | (Ok sha1, _) => match locate_cache_file (hd_name h) dd sha1 with Ok k => k | Err _ => None end
    | _ => None end = Some (dir, n) -> cache_dir_of (hd_name h) dd dir).
  { intros dd. destruct (on_file _ w) as [[sha1|] w']; [|discriminate]. unfold locate_cache_file.
    destruct dd as [|d|d]; [discriminate| |].
    - intros [= <- <-]. constructor.
    - destruct (hd_name h) as [|p|m] eqn:N; try discriminate. intros [= <- <-]. econstructor; [reflexivity|apply dirname_spec]. }
  destruct (ca_dir c) as [|d|d]; [discriminate| |]; apply G.
Qed.

Lemma untouched_refl k en : untouched k en en.
Proof. unfold untouched. auto 10. Qed.
Lemma untouched_but k en en' : but_entry k en en' -> untouched (Some k) en en'.
Proof.
  intros (A1 & A2 & A3 & A4 & A5 & A6 & A7). unfold untouched. do 6 (split; [assumption|]). intros j J. apply A7. congruence.
Qed.
Lemma call_untouched c h en : untouched (call_location c h) en (snd (create_reader_cached c h en)).
Proof.
  rewrite cached_unfold. destruct (checked c h) as [e|y] eqn:C; [|apply untouched_refl].
  destruct (class_of en (ca_bc c)) as [bc|]; [|apply untouched_refl]. destruct (class_of en (ca_tc c)) as [tc|]; [|apply untouched_refl].
  destruct (location c h e) as [[k|]|y] eqn:L; [| |apply untouched_refl].
  - replace (call_location c h) with (Some k) by (symmetry; apply location_call; eauto). apply untouched_but.
    cbn [loaded]. destruct (load_reader k en) as [l en1] eqn:LR. destruct (load_env _ _ _ _ LR) as (B1 & _).
    destruct l as [[[r f]|]|y]; try exact B1. unfold build. destruct (scan_file _ _ _ _ _) as [[r|y] w]; [|exact B1].
    destruct (save_reader _ _ _ _ _ _ _) as [u en2] eqn:S. destruct (save_env _ _ _ _ _ _ _ _ _ S) as (B2 & _).
    destruct u; cbn [snd]; eapply but_trans; eauto.
  - cbn [loaded]. unfold build. destruct (scan_file _ _ _ _ _) as [[r|y] w]; apply untouched_refl.
Qed.
