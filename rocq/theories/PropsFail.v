(** C74: no failure of gpg is overlooked.  Statements only; proofs are in FailProofs.v, the
    vocabulary is in FailSpec.v. *)
From Verif Require Import Base PyStr Env Prog Chain Gpg Mime States Recommendation Account Fs Api Spec PeerSpec AcctSpec OutSpec Obs
  CliSpec TalkSpec FailSpec FailProofs Toy Demo PropsKey.

(** ** C74 *)
(** If a call returns normally, every gpg process that it started succeeded: exit code 0, and
    for exports nothing on standard error.  The exception are mails that come in: if gpg cannot
    import a key of such a mail, the mail is processed as if it had none; and scan-dir only
    reports what fails. *)
Theorem C74_not_overlooked : forall (E : Env) s c r l, answer s c = Ok r -> did s (after s c) l ->
  Forall (fun x => succeeded (fst x) (snd x) \/ (excused c (fst x) /\ failed_readably (snd x))) l.
Proof. exact @c74_not_overlooked. Qed.
Print Assumptions C74_not_overlooked.
(** The processes recorded are all that touch the key rings. *)
Theorem C74_rings : forall (E : Env) s c, c <> ARemove -> (forall y, c <> ACliDestroy y) ->
  exists gs, a_trace (after s c) = rev gs ++ a_trace s /\ a_rings (after s c) = rings_after (a_rings s) gs.
Proof. exact @c74_rings. Qed.
Print Assumptions C74_rings.

#[local] Existing Instance E0.
Definition gs_of (s s' : ast) : list gcall := rev (firstn (length (a_trace s') - length (a_trace s)) (a_trace s')).
Definition bad_key : api := in_a (ac_mail bob alice (L "100") (L "<1>") (L "mutual") (L "no key at all")).
(** An import that fails for a mail that comes in is not reported. *)
Theorem C74_import_refuted : exists (E : Env) s c r l g res, reached s /\ answer s c = Ok r /\ did s (after s c) l /\ l = [(g, res)] /\
  asks g KImport /\ g_ret res = 2%Z.
Proof.
  exists E0, (after ast0 fresh), bad_key. eexists.
  exists (runs (a_rings (after ast0 fresh)) (gs_of (after ast0 fresh) (after (after ast0 fresh) bad_key))).
  exists (hd (GCall [] [] None None) (gs_of (after ast0 fresh) (after (after ast0 fresh) bad_key))), (GRes 2 [] (L "gpg: failed")).
  split; [exists [fresh]; reflexivity|]. split; [vm_compute; reflexivity|].
  split; [eexists; split; [|reflexivity]; vm_compute; reflexivity|]. split; [vm_compute; reflexivity|].
  split; [|reflexivity]. exists (L "gpg"), [L "--homedir"; L "/dir/gpg/a"], [L "--skip-verify"; L "--import"].
  split; [vm_compute; reflexivity|]. split; [|constructor]. right. eexists. reflexivity.
Qed.
Print Assumptions C74_import_refuted.
Example C74_example :
  let s := after ast0 fresh in
  (exists r, answer ast0 fresh = Ok r) /\ did ast0 s (runs (a_rings ast0) (gs_of ast0 s)) /\
  map (fun x => g_ret (snd x)) (runs (a_rings ast0) (gs_of ast0 s)) = [0; 0]%Z /\
  (* an account made for a key that is not there *)
  answer ast0 (add_system (L "b") (Some (L "FFFF"))) = Err InvocationFailure /\
  (* a key to export that is not there: gpg exits with 0, but says so *)
  (exists e, answer (after ast0 fresh) (AExportPub (L "a") (Some (L "FFFF"))) = Err e).
Proof.
  cbv zeta. split; [eexists; vm_compute; reflexivity|]. split; [eexists; split; [|reflexivity]; vm_compute; reflexivity|].
  split; [vm_compute; reflexivity|]. split; [vm_compute; reflexivity|eexists; vm_compute; reflexivity].
Qed.
