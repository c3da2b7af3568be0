(** C68: mail that is processed twice.  Statements only; proofs are in OutAgain.v. *)
From Verif Require Import Base PyStr Base64 Env Prog Chain Gpg Mime States Recommendation Account Fs Api Spec PeerSpec RecSpec OutSpec Obs
  OutAgain Toy Demo PropsOut.
#[local] Existing Instance E0.   (* for the examples *)

(** ** C68 *)
(** What process_outgoing made of a mail is left alone when it is processed again: the mail is
    the same, no header is added, gpg is not run.  Not so for a mail that said ENCRYPT: no
    although encryption is recommended. *)
Theorem C68_processed_once_partial : forall (E : Env) s a m o, reachable s -> answer s (AOutgoing a m) = Ok (OOutgoing o) ->
  control m <> Some (L "no") \/ is_encrypted m = Ok true \/ (exists r, recommended s a (others m) false r /\ r <> L "encrypt") ->
  let s' := after s (AOutgoing a m) in
  after s' (AOutgoing a (out_msg o)) = s' /\
  exists o', answer s' (AOutgoing a (out_msg o)) = Ok (OOutgoing o') /\ out_msg o' = out_msg o /\ out_added o' = None.
Proof. exact @c68. Qed.
Print Assumptions C68_processed_once_partial.

(** Encrypted mail with an Autocrypt header is left alone by every account at every time. *)
Theorem C68_encrypted_mail_is_final : forall (E : Env) s a m, reachable s -> has_account s a -> is_encrypted m = Ok true ->
  hget_all m (L "Autocrypt") <> [] -> ~ has_header m (L "ENCRYPT") ->
  after s (AOutgoing a m) = s /\ exists o, answer s (AOutgoing a m) = Ok (OOutgoing o) /\ out_msg o = m /\ out_added o = None.
Proof. exact @c68_encrypted. Qed.
Print Assumptions C68_encrypted_mail_is_final.

(** The mail that was not to be encrypted is encrypted the second time, as its ENCRYPT header
    is gone. *)
Theorem C68_encrypt_no_refuted : exists (E : Env) s a m o o', reached s /\ control m = Some (L "no") /\
  answer s (AOutgoing a m) = Ok (OOutgoing o) /\ is_encrypted (out_msg o) = Ok false /\
  answer (after s (AOutgoing a m)) (AOutgoing a (out_msg o)) = Ok (OOutgoing o') /\ is_encrypted (out_msg o') = Ok true.
Proof.
  exists E0, state1, (L "a"), (to_both no). do 2 eexists. split; [apply state1_reached|].
  repeat (split; [vm_compute; reflexivity|]). vm_compute. reflexivity.
Qed.
Print Assumptions C68_encrypt_no_refuted.

(** Encrypted at the first time, and sent in the clear at the first time. *)
Definition twice (m : msg) : option (bool * bool) :=
  match answer state1 (AOutgoing (L "a") m) with
  | Ok (OOutgoing o) =>
    match answer (after state1 (AOutgoing (L "a") m)) (AOutgoing (L "a") (out_msg o)) with
    | Ok (OOutgoing o') => Some (match out_added o, out_added o' with Some _, None => true | _, _ => false end,
                                 match is_encrypted (out_msg o') with Ok b => b | Err _ => false end)
    | _ => None
    end
  | _ => None
  end.
Example C68_example : reachable state1 /\ has_account state1 (L "a") /\ control (to_both yes) = Some (L "yes") /\
  twice (to_both yes) = Some (true, true) /\
  let m := mail alice (L "dave@d.org") (L "3000") (L "<3>") [] in
  control m = None /\ recommended state1 (L "a") (others m) false (L "disable") /\ twice m = Some (true, false).
Proof.
  split; [apply state1_reachable|]. split; [vm_compute; discriminate|]. repeat (split; [vm_compute; reflexivity|]). vm_compute. reflexivity.
Qed.
