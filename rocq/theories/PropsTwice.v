(** C13 for encrypted mail.  Statements only; proofs are in TwiceProofs.v. *)
From Verif Require Import Base PyStr Base64 Env Prog Chain Gpg Mime States Account Fs Api Spec PeerSpec OutSpec TwiceProofs PropsPeer Toy Demo.
#[local] Existing Instance E0.   (* for the examples *)
Open Scope Z_scope.

(** ** C13: false in general (see [C13_processing_again_refuted]).  The full statement has no
    hypotheses about gpg (it decrypts the mail to the same content each time and imports its
    keys under fixed handles) and about how the addresses of the gossip are written. *)
Theorem C13_encrypted_mail_again_partial : forall (E : Env) s a m ign1 ign2 nd2 i d content, reachable s ->
  (forall c, opens a m c -> c = content) ->
  (forall key pref, carries m key pref -> exists kh, imports_as a key kh) ->
  (forall v x key pref, In v (hget_all (opened_as m content) (L "Autocrypt-Gossip")) -> key_header v x key pref ->
     norm x = x /\ exists kh, imports_as a key kh) ->
  answer s (AIncoming a m ign1 false) = Ok (OIncoming (Some i)) ->
  let s1 := after s (AIncoming a m ign1 false) in
  dated m d -> Z.min d (clock (a_tick s)) = Z.min d (clock (a_tick s1)) ->
  forall n, alog (after s1 (AIncoming a m ign2 nd2)) n = alog s1 n.
Proof. exact @c13_encrypted. Qed.
Print Assumptions C13_encrypted_mail_again_partial.

Definition old_content : bytes := skipn 3 (match cipher_of gossip_old with Some c => c | None => [] end).
Lemma E0_opens_old content : @opens E0 (L "a") gossip_old content -> content = old_content.
Proof.
  intros [s [g [enc [s' [infos [Hg [Hc Hd]]]]]]]. apply E0_bingpg in Hg. unfold old_content. rewrite Hc.
  injection Hc as <-. destruct Hg as [->| ->]; vm_compute in Hd; injection Hd as <- _; vm_compute; reflexivity.
Qed.
Lemma E0_imports_keyA : @imports_as E0 (L "a") keyA (skipn 3 keyA).
Proof. intros s g s' H. apply E0_bingpg in H. destruct H as [->| ->]; vm_compute; reflexivity. Qed.
(** a mail with gossip about bob: processed once it is recorded, processed again it is not *)
Example C13_encrypted_example : let s := after_all ast0 [add_a] in let s1 := after s (in_a gossip_old) in
  (forall c, opens (L "a") gossip_old c -> c = old_content) /\
  (forall key pref, ~ carries gossip_old key pref) /\
  (forall v x key pref, In v (hget_all (opened_as gossip_old old_content) (L "Autocrypt-Gossip")) -> key_header v x key pref ->
     norm x = x /\ exists kh, imports_as (L "a") key kh) /\
  (exists i, answer s (in_a gossip_old) = Ok (OIncoming (Some i))) /\ dated gossip_old (2000 * sec) /\
  Z.min (2000 * sec) (clock (a_tick s)) = Z.min (2000 * sec) (clock (a_tick s1)) /\
  length (alog s1 (L "peer:a:bob@b.org")) = 1%nat /\ length (alog (after s1 (in_a gossip_old)) (L "peer:a:bob@b.org")) = 1%nat.
Proof.
  cbv zeta. split; [exact E0_opens_old|]. split.
  { intros key pref [_ [_ [pre [v [post [H _]]]]]]. vm_compute in H. destruct pre; discriminate. }
  split.
  { intros v x key pref Hv [extra Hk]. vm_compute in Hv. destruct Hv as [Hv|[]]. subst v. vm_compute in Hk. injection Hk as <- <- _ _.
    split; [vm_compute; reflexivity|]. exists (skipn 3 keyA). exact E0_imports_keyA. }
  split; [eexists; vm_compute; reflexivity|]. split; [vm_compute; reflexivity|]. split; [vm_compute; reflexivity|]. split; vm_compute; reflexivity.
Qed.
