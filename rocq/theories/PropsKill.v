(** C98: calls whose process is killed.  Statements only; proofs are in KillProofs.v and KillProofs2.v
    and KillProofs3.v, the
    vocabulary is in KillSpec.v.  [killed s c k] is the state that is left when the call [c] is
    made in state [s] and the process is killed after [k] operations. *)
From Verif Require Import Base PyStr Base64 Env Prog Chain Gpg Mime States Account Fs Api Spec Obs PeerSpec AcctSpec KillSpec
  OutSpec KillProofs KillProofs2 KillProofs3 Toy Demo PropsPeer PropsOut PropsTwice.
#[local] Existing Instance E0.   (* for the examples *)
Open Scope Z_scope.

(** What was recorded is kept, and what is new is the oldest part of what the complete call
    would have recorded. *)
Theorem C98_records_kept : forall (E : Env) s c k, reachable s -> keeps_all c ->
  only_adds s (killed s c k) /\ only_adds (killed s c k) (after s c).
Proof. exact @c98_adds. Qed.
Print Assumptions C98_records_kept.

(** The own key of an account stays, whichever call is killed. *)
Theorem C98_own_key_stays : forall (E : Env) s c k a cfg kh, reachable s -> own_of s a = Some (cfg, kh) -> deletes a c = false ->
  exists cfg', own_of (killed s c k) a = Some (cfg', kh) /\ cf_mode cfg' = cf_mode cfg /\ cf_name cfg' = cf_name cfg.
Proof. exact @c98_own. Qed.
Print Assumptions C98_own_key_stays.

(** The timestamp of a peer is between the one before and the one after the complete call. *)
Theorem C98_timestamp_between : forall (E : Env) s c k a x v, reachable s -> peer_of s a x = Some v -> deletes a c = false ->
  exists v' v'', peer_of (killed s c k) a x = Some v' /\ peer_of (after s c) a x = Some v'' /\
    pv_ac_timestamp v <= pv_ac_timestamp v' /\ pv_ac_timestamp v' <= pv_ac_timestamp v''.
Proof. exact @c98_timestamp. Qed.
Print Assumptions C98_timestamp_between.

(** A killed call that names an account leaves the others alone. *)
Theorem C98_other_accounts : forall (E : Env) s c k n b, reachable s -> names c = Some n -> (forall m, c <> ACliDel m) -> b <> n ->
  same_account s (killed s c k) b.
Proof. exact @c98_others. Qed.
Print Assumptions C98_other_accounts.

(** A new account is complete or does not exist. *)
Theorem C98_account_whole_or_absent : forall (E : Env) s c k n mode, reachable s -> creates c = Some (n, mode) -> ~ has_account s n ->
  ~ has_account (killed s c k) n \/ forall b, same_account (after s c) (killed s c k) b.
Proof. exact @c98_new. Qed.
Print Assumptions C98_account_whole_or_absent.

(** A mail that is not decrypted is recorded completely or not at all. *)
Theorem C98_mail_recorded_or_not : forall (E : Env) s a m ign nd k, reachable s -> has_account s a -> nd = true \/ is_encrypted m <> Ok true ->
  let c := AIncoming a m ign nd in
  (forall n, alog (killed s c k) n = alog s n) \/ (forall n, alog (killed s c k) n = alog (after s c) n).
Proof. exact @c98_plain. Qed.
Print Assumptions C98_mail_recorded_or_not.

(** Processing it again gives what the call would have given without the kill.  Missing: mails
    that are decrypted (see below), and keys that gpg does not import the same way each time.
    The full statement has no hypotheses about both. *)
Theorem C98_repeat_partial : forall (E : Env) s a m ign nd k i r d, reachable s ->
  (nd = true \/ is_encrypted m <> Ok true) ->
  (forall key pref, carries m key pref -> exists kh, imports_as a key kh) ->
  let c := AIncoming a m ign nd in let s1 := killed s c k in
  answer s c = Ok (OIncoming (Some i)) -> answer s1 c = Ok (OIncoming r) ->
  dated m d -> Z.min d (clock (a_tick s)) = Z.min d (clock (a_tick s1)) ->
  same_entries (after s c) (after s1 c).
Proof. exact @c98_repeat. Qed.
Print Assumptions C98_repeat_partial.

(** For an encrypted mail it is false if known mails are skipped, as the command line does: when
    the process is killed between the record of the sender and those of the recipients, the mail
    counts as known, and the keys of the recipients are not learned by processing it again. *)
Theorem C98_repeat_encrypted_refuted : exists (E : Env) s a m k x, reached s /\
  let c := AIncoming a m true false in let s1 := killed s c k in
  (exists i, answer s c = Ok (OIncoming (Some i))) /\ answer s1 c = Ok (OIncoming None) /\
  option_map pv_keydata (peer_of (after s c) a x) = Some keyA /\
  option_map pv_keydata (peer_of (after s1 c) a x) = Some [] /\ ~ same_entries (after s c) (after s1 c).
Proof.
  exists E0, (after_all ast0 [add_a]), (L "a"), inside_gossip, 6%nat, bob. split; [apply reached_after_all, reached_init|]. cbv zeta.
  split; [eexists; vm_compute; reflexivity|]. split; [vm_compute; reflexivity|]. split; [vm_compute; reflexivity|].
  split; [vm_compute; reflexivity|]. intros H. specialize (H (L "peer:a:bob@b.org")). vm_compute in H. discriminate H.
Qed.
Print Assumptions C98_repeat_encrypted_refuted.

(** If the second call does not skip the mail, processing an encrypted mail again gives what the
    call would have given without the kill, wherever it was killed.  Missing (the full statement
    has no such hypotheses): that gpg decrypts the mail to the same content each time and
    imports its keys under fixed handles, and that the addresses of the gossip are written in
    the normal form. *)
Theorem C98_repeat_encrypted_partial : forall (E : Env) s a m ign nd k i j d content, reachable s ->
  (nd = false -> forall c, opens a m c -> c = content) ->
  (forall key pref, carries m key pref -> exists kh, imports_as a key kh) ->
  (forall v x key pref, In v (hget_all (opened_as m content) (L "Autocrypt-Gossip")) -> key_header v x key pref ->
     norm x = x /\ exists kh, imports_as a key kh) ->
  let c := AIncoming a m ign nd in let s1 := killed s c k in
  answer s c = Ok (OIncoming (Some i)) -> answer s1 c = Ok (OIncoming (Some j)) ->
  dated m d -> Z.min d (clock (a_tick s)) = Z.min d (clock (a_tick s1)) ->
  same_entries (after s c) (after s1 c).
Proof. exact @c98_repeat_any. Qed.
Print Assumptions C98_repeat_encrypted_partial.

(** ... also if it was tried and killed any number of times before. *)
Theorem C98_repeat_many_partial : forall (E : Env) s a m ign nd ks d content, reachable s ->
  (nd = false -> forall c, opens a m c -> c = content) ->
  (forall key pref, carries m key pref -> exists kh, imports_as a key kh) ->
  (forall v x key pref, In v (hget_all (opened_as m content) (L "Autocrypt-Gossip")) -> key_header v x key pref ->
     norm x = x /\ exists kh, imports_as a key kh) ->
  let c := AIncoming a m ign nd in
  dated m d ->
  (forall ks1 ks2, ks = ks1 ++ ks2 -> (exists i, answer (tried s c ks1) c = Ok (OIncoming (Some i))) /\
     Z.min d (clock (a_tick (tried s c ks1))) = Z.min d (clock (a_tick s))) ->
  same_entries (after s c) (after (tried s c ks) c).
Proof. exact @c98_repeat_many. Qed.
Print Assumptions C98_repeat_many_partial.

Definition inside_content : bytes := skipn 3 (match cipher_of inside_gossip with Some c => c | None => [] end).
Lemma E0_opens_inside content : @opens E0 (L "a") inside_gossip content -> content = inside_content.
Proof.
  intros [s [g [enc [s' [infos [Hg [Hc Hd]]]]]]]. apply E0_bingpg in Hg. unfold inside_content. rewrite Hc.
  injection Hc as <-. destruct Hg as [->| ->]; vm_compute in Hd; injection Hd as <- _; vm_compute; reflexivity.
Qed.
(** killed between the record of the sender and that of the recipient bob, and made again *)
Example C98_repeat_encrypted_example : let s := after_all ast0 [add_a] in let c := AIncoming (L "a") inside_gossip false false in let s1 := killed s c 6 in
  (forall x, opens (L "a") inside_gossip x -> x = inside_content) /\
  (forall key pref, ~ carries inside_gossip key pref) /\
  (forall v x key pref, In v (hget_all (opened_as inside_gossip inside_content) (L "Autocrypt-Gossip")) -> key_header v x key pref ->
     norm x = x /\ exists kh, imports_as (L "a") key kh) /\
  (exists i, answer s c = Ok (OIncoming (Some i))) /\ (exists j, answer s1 c = Ok (OIncoming (Some j))) /\ dated inside_gossip (1000 * sec) /\
  Z.min (1000 * sec) (clock (a_tick s)) = Z.min (1000 * sec) (clock (a_tick s1)) /\
  length (entries s1 (L "peer:a:carol@c.org")) = 1%nat /\ length (entries s1 (L "peer:a:bob@b.org")) = 0%nat /\
  length (entries (after s1 c) (L "peer:a:carol@c.org")) = 1%nat /\ length (entries (after s1 c) (L "peer:a:bob@b.org")) = 1%nat.
Proof.
  cbv zeta. split; [exact E0_opens_inside|]. split.
  { intros key pref [_ [_ [pre [v [post [H _]]]]]]. vm_compute in H. destruct pre; discriminate. }
  split.
  { intros v x key pref Hv [extra Hk]. vm_compute in Hv. destruct Hv as [Hv|[]]. subst v. vm_compute in Hk. injection Hk as <- <- _ _.
    split; [vm_compute; reflexivity|]. exists (skipn 3 keyA). exact E0_imports_keyA. }
  do 2 (split; [eexists; vm_compute; reflexivity|]). do 5 (split; [vm_compute; reflexivity|]). vm_compute; reflexivity.
Qed.
Example C98_repeat_many_example : let s := after_all ast0 [add_a] in let c := AIncoming (L "a") inside_gossip false false in
  (forall ks1 ks2, [2; 6; 8; 3]%nat = ks1 ++ ks2 -> (exists i, answer (tried s c ks1) c = Ok (OIncoming (Some i))) /\
     Z.min (1000 * sec) (clock (a_tick (tried s c ks1))) = Z.min (1000 * sec) (clock (a_tick s))) /\
  length (entries (after (tried s c [2; 6; 8; 3]%nat) c) (L "peer:a:bob@b.org")) = 1%nat.
Proof.
  cbv zeta. split; [|vm_compute; reflexivity]. intros ks1 ks2 H.
  repeat (destruct ks1 as [|k ks1]; [split; [eexists; vm_compute; reflexivity|vm_compute; reflexivity]|]; cbn [app] in H; first [discriminate H|injection H as <- H]).
Qed.

(** Changed settings and deletions: the state is the old one or the new one, and the call can
    be made again. *)
Theorem C98_settings_all_or_nothing : forall (E : Env) s c k n, reachable s -> sets_or_deletes c = Some n -> has_account s n ->
  killed s c k = s \/ killed s c k = after s c.
Proof. exact @c98_all_or_nothing. Qed.
Print Assumptions C98_settings_all_or_nothing.
Theorem C98_settings_again : forall (E : Env) s c k n, reachable s -> sets_or_deletes c = Some n -> has_account s n ->
  after (killed s c k) c = after s c.
Proof. exact @c98_again. Qed.
Print Assumptions C98_settings_again.
Example C98_settings_example : let s := after_all ast0 [add_a] in let c := AMod (L "a") (Some (L "b.*")) None None (Some (L "mutual")) in
  reachable s /\ has_account s (L "a") /\ sets_or_deletes c = Some (L "a") /\
  length (alog (killed s c 3) (L "own:a")) = length (alog s (L "own:a")) /\ length (alog (killed s c 4) (L "own:a")) = S (length (alog s (L "own:a"))) /\
  alog (killed s (ADel (L "a")) 2) (L "own:a") <> [] /\ alog (killed s (ADel (L "a")) 3) (L "own:a") = [].
Proof.
  cbv zeta. split; [apply E0_reachable|]. split; [vm_compute; discriminate|]. split; [reflexivity|]. split; [vm_compute; reflexivity|]. split; [vm_compute; reflexivity|].
  split; [vm_compute; discriminate|vm_compute; reflexivity].
Qed.

(** An account that does not exist may be in the list of accounts, and then no account is found
    by address any more. *)
Theorem C98_list_of_accounts_refuted : exists (E : Env) s c k n adr b, reached s /\ creates c <> None /\
  In n (accounts_of (killed s c k)) /\ ~ has_account (killed s c k) n /\
  answer s (AFind adr true) = Ok (OOptText (Some b)) /\ answer (killed s c k) (AFind adr true) = Err AccountNotFound.
Proof.
  exists E0, (after_all ast0 [add_b]), add_a, 7%nat, (L "a"), bob, (L "b"). split; [apply reached_after_all, reached_init|].
  split; [discriminate|]. split; [vm_compute; auto|]. split; [intros H; apply H; vm_compute; reflexivity|]. split; vm_compute; reflexivity.
Qed.
Print Assumptions C98_list_of_accounts_refuted.

(** a mail that is killed before and after the record, a new account likewise *)
Example C98_example : let s := after_all ast0 [add_a] in let c := in_a bob1 in
  reachable s /\ keeps_all c /\ names c = Some (L "a") /\ is_encrypted bob1 = Ok false /\ carries bob1 keyB (L "mutual") /\
  dated bob1 (1000 * sec) /\ Z.min (1000 * sec) (clock (a_tick s)) = Z.min (1000 * sec) (clock (a_tick (killed s c 7))) /\
  entries (killed s c 7) (L "peer:a:bob@b.org") = [] /\ length (entries (killed s c 8) (L "peer:a:bob@b.org")) = 1%nat /\
  entries (after (killed s c 7) c) (L "peer:a:bob@b.org") = entries (after s c) (L "peer:a:bob@b.org") /\
  entries (after (killed s c 8) c) (L "peer:a:bob@b.org") = entries (after s c) (L "peer:a:bob@b.org") /\
  (exists i, answer s c = Ok (OIncoming (Some i))) /\ (exists r, answer (killed s c 7) c = Ok (OIncoming r)) /\
  (exists r, answer (killed s c 8) c = Ok (OIncoming r)) /\
  own_of (killed ast0 add_a 11) (L "a") = None /\ own_of (killed ast0 add_a 12) (L "a") = own_of s (L "a") /\ own_of s (L "a") <> None /\
  (exists r, answer (killed ast0 add_a 11) add_a = Ok r).
Proof.
  cbv zeta. split; [apply E0_reachable|]. split; [intros a; reflexivity|]. split; [reflexivity|]. split; [vm_compute; reflexivity|].
  split; [exact bob1_carries|]. do 6 (split; [vm_compute; reflexivity|]).
  do 3 (split; [eexists; vm_compute; reflexivity|]). do 2 (split; [vm_compute; reflexivity|]).
  split; [vm_compute; discriminate|eexists; vm_compute; reflexivity].
Qed.
