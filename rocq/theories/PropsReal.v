(** C96: what is sent, shown and given out is what the gpg of the account put out in that very
    call.  Statements only; proofs are in RealProofs.v, the vocabulary is in RealSpec.v. *)
From Verif Require Import Base PyStr Env Prog Chain Gpg Mime States Recommendation Account Fs Api Spec PeerSpec AcctSpec OutSpec Obs
  CliSpec TalkSpec FailSpec RealSpec RealProofs Toy Demo PropsKey PropsOut PropsFail.

(** ** C96 *)
(** In all of these theorems [did] lists all processes of the call, in order, with what they put
    out when started with the key rings as they were then. *)
Theorem C96_header : forall (E : Env) s a x v, reachable s -> answer s (AHeader a x) = Ok (OText v) ->
  exists c kh p, own_of s a = Some (c, kh) /\ did s (after s (AHeader a x)) [p] /\ header_process a c kh x v p.
Proof. exact @c96_header. Qed.
Print Assumptions C96_header.
Theorem C96_public_key : forall (E : Env) s a kh key, reachable s -> answer s (AExportPub a kh) = Ok (OBytes key) ->
  exists c own argv res, own_of s a = Some (c, own) /\ did s (after s (AExportPub a kh)) [process_of a c argv None res] /\
    export_command argv true (match kh with Some h => h | None => own end) /\ g_ret res = 0%Z /\ g_err res = [] /\ g_out res = key.
Proof. exact @c96_public. Qed.
Print Assumptions C96_public_key.
Theorem C96_secret_key : forall (E : Env) s a key, reachable s -> answer s (AExportSec a) = Ok (OBytes key) ->
  exists c own argv res, own_of s a = Some (c, own) /\ did s (after s (AExportSec a)) [process_of a c argv None res] /\
    secret_command argv own /\ g_ret res = 0%Z /\ g_err res = [] /\ g_out res = key.
Proof. exact @c96_secret. Qed.
Print Assumptions C96_secret_key.
Theorem C96_encrypt : forall (E : Env) s a m to em khs, reachable s -> answer s (AEncrypt a m to) = Ok (OEncrypted em khs) ->
  exists c own p, own_of s a = Some (c, own) /\ did s (after s (AEncrypt a m to)) [p] /\ encrypt_process s a c own m to khs em p.
Proof. exact @c96_encrypt. Qed.
Print Assumptions C96_encrypt.
Theorem C96_decrypt : forall (E : Env) s a m dm infos, reachable s -> answer s (ADecrypt a m) = Ok (ODecrypted dm infos) ->
  exists c own argv enc res, own_of s a = Some (c, own) /\ cipher_of m = Some enc /\
    did s (after s (ADecrypt a m)) [process_of a c argv (Some enc) res] /\ decrypt_command argv /\ g_ret res = 0%Z /\
    m_body dm = m_body (parse_bytes (g_out res)) /\ m_headers dm = m_headers (parse_bytes (g_out res)) ++ outer_headers m.
Proof. exact @c96_decrypt. Qed.
Print Assumptions C96_decrypt.
(** An outgoing mail: a process for the header, unless there is one; a process for the
    encryption, unless the mail goes out as it is. *)
Theorem C96_outgoing : forall (E : Env) s a m o, reachable s -> answer s (AOutgoing a m) = Ok (OOutgoing o) ->
  exists c own l1 l2, own_of s a = Some (c, own) /\ did s (after s (AOutgoing a m)) (l1 ++ l2) /\
    ((hget_all m (L "Autocrypt") <> [] /\ out_added o = None /\ l1 = []) \/
     (hget_all m (L "Autocrypt") = [] /\ exists v p, out_added o = Some v /\ l1 = [p] /\ header_process a c own (from_addr m) v p)) /\
    ((prepared m (out_added o) (out_msg o) /\ l2 = []) \/
     (is_encrypted m = Ok false /\ exists m2 to khs p, prepared m (out_added o) m2 /\
        (forall x, In x to <-> In x (targets m) \/ x = from_addr m) /\
        l2 = [p] /\ encrypt_process s a c own m2 to khs (out_msg o) p)).
Proof. exact @c96_outgoing. Qed.
Print Assumptions C96_outgoing.

#[local] Existing Instance E0.
(** how many processes there are, and whether the mail goes out encrypted *)
Definition started_by (c : api) : nat := length (gs_of state1 (after state1 c)).
Definition goes_well (c : api) : bool := match answer state1 c with Ok _ => true | Err _ => false end.
Example C96_example : reachable state1 /\
  goes_well (AHeader (L "a") alice) = true /\ started_by (AHeader (L "a") alice) = 1%nat /\
  goes_well (AExportPub (L "a") (Some (skipn 3 keyB))) = true /\ goes_well (AExportSec (L "a")) = true /\
  goes_well (AEncrypt (L "a") (to_both []) [bob; carol]) = true /\
  goes_well (AOutgoing (L "a") (to_both yes)) = true /\ started_by (AOutgoing (L "a") (to_both yes)) = 2%nat /\
  goes_well (AOutgoing (L "a") (to_both no)) = true /\ started_by (AOutgoing (L "a") (to_both no)) = 1%nat /\
  goes_well (ADecrypt (L "a") sealed_mail) = true.
Proof. split; [apply state1_reachable|]. repeat (split; [vm_compute; reflexivity|]). vm_compute. reflexivity. Qed.
