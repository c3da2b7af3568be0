(** C76: plugins.  Statements only; proofs are in PluginProofs.v, the vocabulary is in PluginSpec.v. *)
From Verif Require Import Base PyStr Base64 Env Prog Chain Gpg Mime States Account Fs Api Plugins Spec Obs PeerSpec RecSpec OutSpec HeaderSpec
  TalkSpec PluginSpec PluginProofs Toy Demo PropsOut.
#[local] Existing Instance E0.   (* for the examples *)

(** ** C76 *)
(** Without plugins everything is as in the other properties. *)
Theorem C76_none : forall (E : Env) s c, answer_with [] s c = answer s c /\ after_with [] s c = after s c.
Proof. exact @c76_none. Qed.
Print Assumptions C76_none.

(** Incoming mail: whatever plugins do, the state afterwards is the same, and the answer but for
    the gossip in it.  Plugins are called only for mail that was opened. *)
Theorem C76_incoming : forall (E : Env) ps s a m i n, reached s ->
  after_with ps s (AIncoming a m i n) = after s (AIncoming a m i n) /\
  match answer s (AIncoming a m i n) with
  | Ok (OIncoming (Some j)) =>
      answer_with ps s (AIncoming a m i n) = Ok (OIncoming (Some j)) /\ (n = true \/ is_encrypted m = Ok false) \/
      exists c kh data, n = false /\ own_of (after s (AIncoming a m i n)) a = Some (c, kh) /\ is_encrypted m = Ok true /\
        exists r, told_gossip kh ps (in_gossip j, opened_as m data) r /\
          answer_with ps s (AIncoming a m i n) = match r with Ok (d, _) => Ok (OIncoming (Some (with_gossip j d))) | Err e => Err e end
  | r => answer_with ps s (AIncoming a m i n) = r
  end.
Proof. exact @c76_incoming. Qed.
Print Assumptions C76_incoming.

(** Encryption: plugins decide about what is encrypted, and nothing else: not about the headers
    outside, nor the keys it is encrypted to. *)
Theorem C76_encrypt : forall (E : Env) ps s a m to em khs, reached s -> answer_with ps s (AEncrypt a m to) = Ok (OEncrypted em khs) ->
  is_encrypted em = Ok true /\ m_headers em = (L "Content-Type", encrypted_ctype) :: outer_headers m /\
  sealed_with ps s (after_with ps s (AEncrypt a m to)) a m to khs (m_body em).
Proof. exact @c76_encrypt. Qed.
Print Assumptions C76_encrypt.

(** C29 and C34 with plugins *)
Theorem C76_never_sent_in_clear : forall (E : Env) ps s a m o, reached s -> answer_with ps s (AOutgoing a m) = Ok (OOutgoing o) ->
  control m = Some (L "yes") \/ (control m <> Some (L "no") /\ recommended s a (others m) false (L "encrypt")) ->
  is_encrypted (out_msg o) = Ok true /\
  ((is_encrypted m = Ok true /\ prepared m (out_added o) (out_msg o)) \/
   m_headers (out_msg o) = (L "Content-Type", encrypted_ctype) :: without (L "ENCRYPT") (outer_headers m)
     ++ match out_added o with Some v => [(L "Autocrypt", v)] | None => [] end /\
   exists to khs, (forall x, In x to <-> In x (targets m) \/ x = from_addr m) /\
     sealed_with ps s (after_with ps s (AOutgoing a m)) a m to khs (m_body (out_msg o))).
Proof. exact @c76_sealed. Qed.
Print Assumptions C76_never_sent_in_clear.

(** C30 with plugins: they see nothing of such a mail, so they cannot change it *)
Theorem C76_not_encrypted_unless_asked : forall (E : Env) ps s a m o, reached s -> answer_with ps s (AOutgoing a m) = Ok (OOutgoing o) ->
  control m = Some (L "no") \/
  (control m <> Some (L "yes") /\ exists r, recommended s a (others m) false r /\ r <> L "encrypt") ->
  prepared m (out_added o) (out_msg o) /\
  forall g, ran s (after_with ps s (AOutgoing a m)) g -> gc_in g = None.
Proof. exact @c76_clear. Qed.
Print Assumptions C76_not_encrypted_unless_asked.

(** C65 with plugins *)
Theorem C76_commands_of_each_call : forall (E : Env) ps s c g, ran s (after_with ps s c) g -> exists k, In k (may_ask c) /\ asks g k.
Proof. exact @c76_asks. Qed.
Print Assumptions C76_commands_of_each_call.

(** A plugin that raises stops encryption before gpg gets anything, and no mail is given out in
    its place. *)
Theorem C76_objection : forall (E : Env) ps s a m to, objecting ps ->
  (forall g, ran s (after_with ps s (AEncrypt a m to)) g -> False) /\
  (forall g, ran s (after_with ps s (AOutgoing a m)) g -> asks g KExport) /\
  (forall em khs, answer_with ps s (AEncrypt a m to) <> Ok (OEncrypted em khs)) /\
  (forall o, reached s -> answer_with ps s (AOutgoing a m) = Ok (OOutgoing o) -> prepared m (out_added o) (out_msg o)).
Proof. exact @c76_objection. Qed.
Print Assumptions C76_objection.

(** The examples: a plugin that adds a header about the recipients inside, one that raises *)
Definition chatty : plugin := Plugin (fun d key m => Ok ([], m))
  (fun from key d m => Ok (d, hadd m (L "X-Keys") (concat (map fst d)))).
Definition strict : plugin := Plugin (fun d key m => Err ValueError) (fun from key d m => Err ValueError).
Lemma state1_reached : reached state1.
Proof.
  assert (H : forall l s, reached s -> reached (after_all s l)).
  { induction l as [|c l IH]; intros s Hs; [exact Hs|]. rewrite after_all_cons. apply IH. rewrite <- (proj2 (c76_none s c)). apply reached_step, Hs. }
  apply (H known), reached_init.
Qed.
Lemma strict_objects ps : objecting (strict :: ps). Proof. intros from key d m. exists ValueError. apply turn_stop. reflexivity. Qed.
(** the headers of the mail inside *)
Definition inside (m : msg) : list (text * text) :=
  match answer state1 (ADecrypt (L "a") m) with Ok (ODecrypted dm _) => firstn 4 (m_headers dm) | _ => [] end.
Definition to_two : api := AEncrypt (L "a") plain_mail [bob; carol].
Definition encrypted_inside (ps : list plugin) : result (list (text * text)) :=
  match answer_with ps state1 to_two with Ok (OEncrypted em _) => Ok (inside em) | Ok _ => Err TypeError | Err e => Err e end.
Definition sent_with (ps : list plugin) (extra : list (text * text)) : result (result bool) :=
  match answer_with ps state1 (AOutgoing (L "a") (to_both extra)) with Ok (OOutgoing o) => Ok (is_encrypted (out_msg o)) | Ok _ => Err TypeError | Err e => Err e end.
Example C76_example :
  encrypted_inside [chatty] =
    Ok [(L "Content-Type", L "text/plain"); (L "Autocrypt-Gossip", our_value bob [] keyB); (L "Autocrypt-Gossip", our_value carol [] keyC);
        (L "X-Keys", bob ++ carol)] /\
  encrypted_inside [chatty; strict] = Err ValueError /\
  sent_with [strict] yes = Err ValueError /\ sent_with [strict] no = Ok (Ok false) /\ sent_with [chatty] yes = Ok (Ok true).
Proof. do 4 (split; [vm_compute; reflexivity|]). vm_compute. reflexivity. Qed.
(** gossip that a plugin takes away or objects to is recorded all the same *)
Definition met_with (ps : list plugin) : result (list text) :=
  match answer_with ps state1 (AIncoming (L "a") inside_gossip false false) with Ok (OIncoming (Some j)) => Ok (map fst (in_gossip j)) | Ok _ => Err TypeError | Err e => Err e end.
Definition gossip_with (ps : list plugin) : option bytes :=
  match peer_of (after_with ps state1 (AIncoming (L "a") inside_gossip false false)) (L "a") bob with Some v => option_map ge_keydata (pv_latest_gossip v) | None => None end.
Example C76_example_incoming : is_encrypted inside_gossip = Ok true /\
  met_with [] = Ok [bob] /\ met_with [chatty] = Ok [] /\ met_with [strict] = Err ValueError /\
  gossip_with [] = Some keyA /\ gossip_with [chatty] = Some keyA /\ gossip_with [strict] = Some keyA.
Proof. do 6 (split; [vm_compute; reflexivity|]). vm_compute. reflexivity. Qed.
