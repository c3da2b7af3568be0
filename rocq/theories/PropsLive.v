(** C86: account objects that a program keeps. *)
From Verif Require Import Base PyStr Env Prog Chain Gpg Mime States Recommendation Account Api Spec AcctSpec Live LiveSpec LiveProofs Obs Toy Demo.

(** A program gets or adds any number of accounts, keeps the objects, and calls their methods in any
    order, while other calls (its own or other processes') happen in between.  If at every method
    call the account still exists with the settings of gpg that it had when the object was made, then
    every answer and the whole state are those of the program that gets the account anew for every
    single call. *)
Theorem C86_kept_objects : forall (E : Env) s ks, reachable s -> settings_kept ks [] s ->
  snd (live_run ks [] s) = snd (fresh_run ks [] s) /\ snd (fst (live_run ks [] s)) = snd (fst (fresh_run ks [] s)).
Proof. exact @c86. Qed.
Print Assumptions C86_kept_objects.

(** In particular: as long as nobody modifies or deletes an account. *)
Theorem C86_while_nobody_modifies_or_deletes : forall (E : Env) s ks, reachable s -> Forall careful ks ->
  snd (live_run ks [] s) = snd (fresh_run ks [] s) /\ snd (fst (live_run ks [] s)) = snd (fst (fresh_run ks [] s)).
Proof. exact @c86_careful. Qed.
Print Assumptions C86_while_nobody_modifies_or_deletes.

#[local] Existing Instance E0.
Definition live_ks : list lcall :=
  [KAdd (L "a") None None (L "gpg") (L "own"); KGet (L "a"); KOther add_b; KGet (L "b");
   KCall 0 (MIncoming (ac_mail bob alice (L "1000") (L "<1>") (L "mutual") keyB) false false);
   KCall 1 (MHeader alice); KCall 2 MExportSec;
   KOther (in_a (ac_mail carol alice (L "1500") (L "<3>") (L "mutual") keyC));
   KCall 0 (MRecommend [bob; carol] false); KCall 0 (MPeer bob); KCall 7 MPeers].
Definition is_ok {A} (x : result A) : bool := match x with Ok _ => true | Err _ => false end.

(** beside the theorems: a run with three objects of two accounts, a mail processed through the
    first object, a header made with the second one *)
Example C86_example :
  @reachable E0 ast0 /\ Forall careful live_ks /\ settings_kept live_ks [] ast0 /\
  map is_ok (snd (live_run live_ks [] ast0)) = [true; true; true; true; true; true; true; true; true; true; false] /\
  map o_acct (fst (fst (live_run live_ks [] ast0))) = [L "a"; L "a"; L "b"] /\
  nth_error (snd (live_run live_ks [] ast0)) 8 = Some (Ok (OOptText (Some (L "available")))).
Proof.
  assert (Hc : Forall careful live_ks) by (repeat constructor).
  split; [apply reachable_init|]. split; [exact Hc|].
  split; [apply careful_kept; [apply reachable_init|constructor|exact Hc]|].
  split; [vm_compute; reflexivity|]. split; vm_compute; reflexivity.
Qed.

(** The proviso about the settings is needed: an object that has used gpg before the account was
    given another gpg program goes on with the old one.  Here the new program does not exist, and the
    kept object still makes the header that a new object refuses to make. *)
Definition live_mod : list lcall :=
  [KAdd (L "a") None None (L "gpg") (L "own"); KOther (AMod (L "a") None None (Some (L "nogpg")) None); KCall 0 (MHeader alice)].
Theorem C86_other_program_refuted : exists (E : Env) (s : ast) ks, reached s /\
  (exists h, nth_error (snd (live_run ks [] s)) 2 = Some (Ok (OText h))) /\
  nth_error (snd (fresh_run ks [] s)) 2 = Some (Err ValueError).
Proof.
  exists E0, ast0, live_mod. split; [apply reached_init|]. split; [eexists; vm_compute; reflexivity|vm_compute; reflexivity].
Qed.
Print Assumptions C86_other_program_refuted.

(** So is the proviso that the account exists: after the account was deleted, a kept object still
    processes mails without an error.  The peer it learns is then in the store, and the next account
    that is added under that name knows it from the beginning. *)
Definition live_del : list lcall :=
  [KAdd (L "a") None None (L "gpg") (L "own"); KOther (ADel (L "a"));
   KCall 0 (MIncoming (ac_mail bob alice (L "1000") (L "<1>") (L "mutual") keyB) false false);
   KOther add_a; KOther (APeers (L "a"))].
Theorem C86_deleted_account_refuted : exists (E : Env) (s : ast) ks b, reached s /\
  (exists x, nth_error (snd (live_run ks [] s)) 2 = Some (Ok x)) /\
  nth_error (snd (live_run ks [] s)) 4 = Some (Ok (OTexts [b])) /\
  nth_error (snd (fresh_run ks [] s)) 2 = Some (Err AccountNotFound) /\
  nth_error (snd (fresh_run ks [] s)) 4 = Some (Ok (OTexts [])).
Proof.
  exists E0, ast0, live_del, bob. split; [apply reached_init|]. split; [eexists; vm_compute; reflexivity|].
  split; [vm_compute; reflexivity|]. split; vm_compute; reflexivity.
Qed.
Print Assumptions C86_deleted_account_refuted.
