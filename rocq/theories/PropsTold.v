(** C97: every key handle recorded for a peer was reported by a gpg process that ran.
    Statements only; proofs are in ToldProofs*.v, the vocabulary is in ToldSpec.v. *)
From Verif Require Import Base PyStr Env Prog Chain Gpg Mime States Recommendation Account Fs Api Spec PeerSpec AcctSpec OutSpec Obs
  CliSpec GpgSpec KeySpec FailSpec ToldSpec ToldProofs3 Toy Demo PropsCli PropsOut PropsFail PropsKey.

(** In any history that ends with a key handle for a peer, one of the calls started, for this
    account and with the program and home directory the account was configured with, a gpg
    process that imported a key and reported this handle; the recorded key is the imported one,
    or what a later process of the same call exported under the handle. *)
Theorem C97_peer_key : forall (E : Env) h a x v, peer_of (after_all ast0 h) a x = Some v -> pv_keyhandle v <> [] ->
  exists h1 c h2 cfg own l, let s := after_all ast0 h1 in
    h = h1 ++ c :: h2 /\ own_of s a = Some (cfg, own) /\ did s (after s c) l /\
    told_in l cfg a (pv_keydata v) (pv_keyhandle v).
Proof. exact @c97_peer. Qed.
Print Assumptions C97_peer_key.

#[local] Existing Instance E0.
Definition taken : api := AImport (L "a") (Some carol) keyC (L "mutual").
Example C97_example :
  let h := [fresh; hello; taken] in
  (exists v, peer_of (after_all ast0 h) (L "a") bob = Some v /\ pv_keyhandle v <> []) /\
  (exists v, peer_of (after_all ast0 h) (L "a") carol = Some v /\ pv_keyhandle v <> []) /\
  length (gs_of (after ast0 fresh) met) = 1%nat /\ length (gs_of met (after met taken)) = 7%nat.
Proof.
  cbv zeta. split; [eexists; split; [vm_compute; reflexivity|vm_compute; discriminate]|].
  split; [eexists; split; [vm_compute; reflexivity|vm_compute; discriminate]|].
  split; vm_compute; reflexivity.
Qed.
