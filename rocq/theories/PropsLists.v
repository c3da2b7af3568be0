(** C81.  Statements only; proofs are in ListsProofs.v. *)
From Verif Require Import Base PyStr Env Prog Chain Gpg Mime States Account Fs Api Spec PeerSpec OutSpec AcctSpec ListsSpec ListsProofs
  Obs Toy Demo PropsPeer PropsAcct.
From Coq Require Import Sorting.Sorted.
#[local] Existing Instance E0.   (* for the examples *)
Open Scope Z_scope.

(** ** C81: accounts *)
Theorem C81_accounts_listed : forall (E : Env) s, reachable s ->
  StronglySorted before (accounts_of s) /\
  (forall a, has_account s a -> In a (accounts_of s)) /\
  forall a, In a (accounts_of s) -> isalnum a = true.
Proof. exact @c81_accounts. Qed.
Print Assumptions C81_accounts_listed.
Theorem C81_listed_if_created : forall (E : Env) h a, In a (accounts_of (after_all ast0 h)) ->
  exists c mode, In c h /\ creates c = Some (a, mode).
Proof. exact @c81_created. Qed.
Print Assumptions C81_listed_if_created.
Theorem C81_appears : forall (E : Env) s c a, reachable s -> In a (accounts_of (after s c)) -> ~ In a (accounts_of s) ->
  exists mode, creates c = Some (a, mode).
Proof. exact @c81_appears. Qed.
Print Assumptions C81_appears.
Theorem C81_stays : forall (E : Env) s c a, reachable s -> In a (accounts_of s) -> deletes a c = false ->
  In a (accounts_of (after s c)).
Proof. exact @c81_stays. Qed.
Print Assumptions C81_stays.
Theorem C81_deleted : forall (E : Env) s c a x, reachable s -> deletes a c = true -> answer s c = Ok x ->
  ~ In a (accounts_of (after s c)).
Proof. exact @c81_deleted. Qed.
Print Assumptions C81_deleted.

Example C81_accounts_example : accounts_of state2 = [L "a"; L "b"] /\
  accounts_of (after state2 (AAdd (L "Z") None None (L "gpg") (L "own"))) = [L "Z"; L "a"; L "b"] /\
  accounts_of (after state2 (ADel (L "a"))) = [L "b"] /\ answer state2 (ADel (L "a")) = Ok ONone.
Proof. do 3 (split; [vm_compute; reflexivity|]). vm_compute. reflexivity. Qed.

(** ** C81: peers *)
Theorem C81_peers_listed : forall (E : Env) s a l, reachable s -> peers_of s a = Some l ->
  StronglySorted before l /\
  forall x v, peer_of s a x = Some v -> In (norm x) l <-> heard_of v.
Proof. exact @c81_peers. Qed.
Print Assumptions C81_peers_listed.

(** The method that should tell how many there are always fails. *)
Theorem C81_number_of_peers_refuted : exists (E : Env) s a x, reached s /\ peers_of s a = Some [x] /\
  snd (arun (get_num_peers a) s) = Err TypeError.
Proof.
  exists E0, (after_all ast0 [add_a; in_a bob1]), (L "a"), bob. split; [exact (reached_after_all _ _ reached_init)|].
  split; vm_compute; reflexivity.
Qed.
Print Assumptions C81_number_of_peers_refuted.

Example C81_peers_example : let s := after_all ast0 [add_a; in_a bob1] in
  peers_of s (L "a") = Some [bob] /\ norm (L "Bob <BOB@b.org>") = bob /\
  option_map pv_last_seen (peer_of s (L "a") (L "Bob <BOB@b.org>")) = Some 4194304000 /\
  option_map pv_last_seen (peer_of s (L "a") alice) = Some 0 /\
  option_map pv_latest_ac (peer_of s (L "a") alice) = Some None /\ option_map pv_latest_gossip (peer_of s (L "a") alice) = Some None.
Proof. cbv zeta. do 5 (split; [vm_compute; reflexivity|]). vm_compute. reflexivity. Qed.

(** ** C81: verifications *)
Theorem C81_verified : forall (E : Env) h a x, has_account (after_all ast0 h) a ->
  verif_of (after_all ast0 h) a x = Some (last_verified a x (combine h (snd (session h ast0))) None).
Proof. exact @c81_verified. Qed.
Print Assumptions C81_verified.

Example C81_verified_example : let h := [AVerifySelf (L "a") bob keyA; add_a; AVerifySelf (L "a") bob keyB; AVerifyPeer (L "a") alice keyA;
                                         AVerifyPeer (L "a") bob keyA; AVerifyPeer (L "b") bob keyB; in_a bob1] in
  verif_of (after_all ast0 h) (L "a") bob = Some (Some (VerifEntry bob keyA (L "peer"))) /\
  map is_ok (snd (session h ast0)) = [false; true; true; true; true; false; true] /\
  last_verified (L "a") bob (combine h (snd (session h ast0))) None = Some (VerifEntry bob keyA (L "peer")).
Proof. cbv zeta. do 2 (split; [vm_compute; reflexivity|]). vm_compute. reflexivity. Qed.
