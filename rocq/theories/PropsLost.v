(** C90: mails that come in do not make encryption impossible.  Statements only; proofs are in
    LostProofs.v, the vocabulary is in LostSpec.v. *)
From Verif Require Import Base PyStr Base64 Env Prog Chain Gpg Mime States Recommendation Account Cmdline Bot Fs Api Spec Obs PeerSpec RecSpec OutSpec
  SeenSpec LostSpec LostProofs Toy Demo PropsOut PropsPeer.
#[local] Existing Instance E0.   (* for the examples *)

(** The full statement: if there is a key for a peer, there is one after any session of mails.
    It holds unless a mail brings a key that gpg refuses, which the result of processing it
    says; then that mail is the newest with a key and hides the key that worked. *)
Theorem C90_only_refused_keys_hide_a_key_partial : forall (E : Env) s h a x v, reachable s -> peer_of s a x = Some v -> pv_keyhandle v <> [] ->
  (forall c, In c h -> plain a c = true) ->
  exists v', peer_of (after_all s h) a x = Some v' /\
    (pv_keyhandle v' <> [] \/
     exists h1 c h2 e, h = h1 ++ c :: h2 /\ pv_latest_ac v' = Some e /\ offered (after_all s h1) c a (norm x) (offer_of e) /\
       me_kh e = [] /\ refused a (me_keydata e) /\ told_refused (after_all s h1) c).
Proof. exact @c90. Qed.
Print Assumptions C90_only_refused_keys_hide_a_key_partial.

(** So it holds if gpg can import all keys that are offered. *)
Theorem C90_good_keys_partial : forall (E : Env) s h a x v, reachable s -> peer_of s a x = Some v -> pv_keyhandle v <> [] ->
  (forall c, In c h -> plain a c = true) ->
  (forall f, offered_in s h a (norm x) f -> exists kh, imports_as a (of_key f) kh) ->
  exists v', peer_of (after_all s h) a x = Some v' /\ pv_keyhandle v' <> [].
Proof. exact @c90_good. Qed.
Print Assumptions C90_good_keys_partial.

(** A mail with an Autocrypt header that holds no key: from then on there is no key for the
    peer, and a mail to them that was encrypted before goes out in clear. *)
Definition junk : msg := ac_mail bob alice (L "3000") (L "<j>") (L "mutual") (L "junk").
Definition goes_encrypted (s : ast) (a : text) (m : msg) : option bool :=
  match answer s (AOutgoing a m) with
  | Ok (OOutgoing o) => match is_encrypted (out_msg o) with Ok b => Some b | Err _ => None end | _ => None end.
Theorem C90_junk_key_refuted : exists (E : Env) s a mm m x i v v', reached s /\
  let s' := after s (AIncoming a mm false false) in
  answer s (AIncoming a mm false false) = Ok (OIncoming (Some i)) /\ from_addr mm = x /\
  peer_of s a x = Some v /\ pv_keyhandle v <> [] /\ peer_of s' a x = Some v' /\ pv_keyhandle v' = [] /\
  is_encrypted m = Ok false /\
  match answer s (AOutgoing a m) with Ok (OOutgoing o) => is_encrypted (out_msg o) = Ok true | _ => False end /\
  match answer s' (AOutgoing a m) with Ok (OOutgoing o) => is_encrypted (out_msg o) = Ok false | _ => False end.
Proof.
  exists E0, state1, (L "a"), junk, (to_both []), bob. do 3 eexists. split; [apply state1_reached|]. cbv zeta.
  split; [vm_compute; reflexivity|]. split; [vm_compute; reflexivity|]. split; [vm_compute; reflexivity|].
  split; [vm_compute; discriminate|]. do 3 (split; [vm_compute; reflexivity|]). split; vm_compute; reflexivity.
Qed.
Print Assumptions C90_junk_key_refuted.

(** A session with a new key of bob: it stays possible. *)
Definition renewed : msg := ac_mail bob alice (L "3000") (L "<r>") (L "mutual") keyC.
Lemma E0_imports_keyC : @imports_as E0 (L "a") keyC (skipn 3 keyC).
Proof. intros s g s' H. apply E0_bingpg in H. destruct H as [->| ->]; vm_compute; reflexivity. Qed.
Example C90_example : reachable state1 /\ plain (L "a") (in_a renewed) = true /\ plain (L "a") (in_a junk) = true /\
  imports_as (L "a") keyC (skipn 3 keyC) /\
  option_map pv_keyhandle (peer_of state1 (L "a") bob) = Some (skipn 3 keyB) /\
  option_map pv_keyhandle (peer_of (after state1 (in_a renewed)) (L "a") bob) = Some (skipn 3 keyC) /\
  option_map pv_keyhandle (peer_of (after state1 (in_a junk)) (L "a") bob) = Some [] /\
  goes_encrypted state1 (L "a") (to_both []) = Some true /\
  goes_encrypted (after state1 (in_a junk)) (L "a") (to_both []) = Some false.
Proof.
  split; [apply state1_reachable|]. do 2 (split; [vm_compute; reflexivity|]). split; [exact E0_imports_keyC|].
  do 4 (split; [vm_compute; reflexivity|]). vm_compute. reflexivity.
Qed.
