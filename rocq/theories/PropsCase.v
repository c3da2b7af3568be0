(** C75: capital letters make no difference.  Statements only; proofs are in CaseProofs.v, the
    vocabulary is in CaseSpec.v. *)
From Verif Require Import Base PyStr Base64 Env Prog Chain Gpg Mime States Recommendation Account Fs Api Spec PeerSpec RecSpec OutSpec Obs
  CaseSpec CaseProofs Toy Demo PropsKey.

(** ** C75 *)
(** Names of header fields, of mails that come in and of their parts *)
Theorem C75_header_names : forall (E : Env) s c c', same_call c c' -> answer s c = answer s c' /\ after s c = after s c'.
Proof. exact @c75_headers. Qed.
Print Assumptions C75_header_names.
(** Addresses of peers: what is known, what is recommended, imports, and encryption *)
Theorem C75_peer : forall (E : Env) s a x y, same_case (parseaddr x) (parseaddr y) -> peer_of s a x = peer_of s a y.
Proof. exact @c75_peer. Qed.
Print Assumptions C75_peer.
Theorem C75_recommend : forall (E : Env) s a xs ys reply, Forall2 (fun x y => same_case (parseaddr x) (parseaddr y)) xs ys ->
  answer s (ARecommend a xs reply) = answer s (ARecommend a ys reply).
Proof. exact @c75_recommend. Qed.
Print Assumptions C75_recommend.
Theorem C75_import : forall (E : Env) s a x y k p, same_case (parseaddr x) (parseaddr y) ->
  answer s (AImport a (Some x) k p) = answer s (AImport a (Some y) k p) /\ after s (AImport a (Some x) k p) = after s (AImport a (Some y) k p).
Proof. exact @c75_import. Qed.
Print Assumptions C75_import.
Theorem C75_encrypt : forall (E : Env) s a m xs ys, Forall2 (fun x y => same_case (parseaddr x) (parseaddr y)) xs ys ->
  answer s (AEncrypt a m xs) = answer s (AEncrypt a m ys) /\ after s (AEncrypt a m xs) = after s (AEncrypt a m ys).
Proof. exact @c75_encrypt. Qed.
Print Assumptions C75_encrypt.

#[local] Existing Instance E0.
Definition BOB : text := L "BOB@B.org".
Lemma lower_bob : same_case (parseaddr BOB) (parseaddr bob).
Proof. apply same_case_b. vm_compute. reflexivity. Qed.
(** A key that was verified is not found when the address is written in another way. *)
Theorem C75_verification_refuted : exists (E : Env) s a x y, reached s /\ same_case (parseaddr x) (parseaddr y) /\
  parseaddr x = x /\ parseaddr y = y /\ verif_of s a x <> verif_of s a y.
Proof.
  exists E0, (after (after ast0 fresh) (AVerifyPeer (L "a") bob keyB)), (L "a"), BOB, bob.
  split; [exists [fresh; AVerifyPeer (L "a") bob keyB]; reflexivity|]. split; [exact lower_bob|].
  split; [vm_compute; reflexivity|]. split; [vm_compute; reflexivity|vm_compute; discriminate].
Qed.
Print Assumptions C75_verification_refuted.
Definition shout (m : msg) : msg := Msg (map (fun h => (map (fun c => if N.leb 97 c && N.leb c 122 then (c - 32)%N else c) (fst h), snd h)) (m_headers m)) (m_body m).
Definition quiet_mail : msg := ac_mail bob alice (L "100") (L "<1>") (L "mutual") keyB.
Example C75_example :
  same_call (AIncoming (L "a") quiet_mail false false) (AIncoming (L "a") (shout quiet_mail) false false) /\ shout quiet_mail <> quiet_mail /\
  option_map pv_keydata (peer_of (after (after ast0 fresh) (AIncoming (L "a") (shout quiet_mail) false false)) (L "a") BOB) = Some keyB /\
  same_case (parseaddr BOB) (parseaddr bob) /\ BOB <> bob.
Proof.
  split; [|split; [vm_compute; discriminate|split; [vm_compute; reflexivity|split; [exact lower_bob|vm_compute; discriminate]]]].
  constructor. constructor; [|constructor].
  repeat (apply Forall2_cons; [split; [right; apply same_case_b; vm_compute; reflexivity|reflexivity]|]). apply Forall2_nil.
Qed.
