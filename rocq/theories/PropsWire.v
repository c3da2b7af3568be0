(** C95: mails mean the same to their recipient.  Statements only; proofs are in WireProofs.v, the
    vocabulary is in EmailSpec.v and WireSpec.v. *)
From Verif Require Import Base PyStr Base64 Env Prog Chain Gpg Mime States Account Commands Fs Api Spec Obs PeerSpec OutSpec OutProofs2 CmdSpec EmailText EmailSpec EmailProofs EmailUse
  WireSpec WireProofs Toy Demo PropsOut PropsEmail.

(** An encrypted mail is written as text, sent as bytes and read again, perhaps with one more line
    end.  Processing or decrypting what was read gives the same as with the mail itself, in every
    state of every machine.  The full statement: for all mails, as [C95_encrypted_partial] without
    [plain_field]. *)
Theorem C95_encrypted_partial : forall (E : Env) (EL : EmailLib) (Sh : Shell) s a m to em khs, python_wire -> reachable s ->
  answer s (AEncrypt a m to) = Ok (OEncrypted em khs) -> Forall (plain_field false) (outer_headers m) ->
  (forall khs own data enc, gpg_encrypted s (after s (AEncrypt a m to)) khs own data enc -> armored enc) ->
  exists i, on_the_wire em i /\ forall m', received i m' -> means_the_same em m'.
Proof. exact @c95_encrypt. Qed.
Print Assumptions C95_encrypted_partial.

(** The same for mails that are encrypted when they are sent; the header with the own key, if one
    was added, does no harm. *)
Theorem C95_outgoing_partial : forall (E : Env) (EL : EmailLib) (Sh : Shell) s a m o, python_wire -> reachable s ->
  answer s (AOutgoing a m) = Ok (OOutgoing o) -> is_encrypted m = Ok false -> is_encrypted (out_msg o) = Ok true ->
  Forall (plain_field false) (outer_headers m) -> Forall (fun c => 33 <= c <= 126)%N (norm (from_addr m)) ->
  (forall khs own data enc, gpg_encrypted s (after s (AOutgoing a m)) khs own data enc -> armored enc) ->
  exists i, on_the_wire (out_msg o) i /\ forall m', received i m' -> means_the_same (out_msg o) m'.
Proof. exact @c95_outgoing. Qed.
Print Assumptions C95_outgoing_partial.

(** From the text of the sender to the text of the recipient. *)
Theorem C95_letter_partial : forall (E : Env) (EL : EmailLib) (Sh : Shell) s a m to em khs, python_mail -> python_wire -> reachable s ->
  answer s (AEncrypt a m to) = Ok (OEncrypted em khs) ->
  ordinary true (Msg (inner_headers m) (m_body m)) -> Forall (plain_field false) (outer_headers m) -> Forall writable_peer to ->
  (forall khs own data enc, gpg_encrypted s (after s (AEncrypt a m to)) khs own data enc -> armored enc) ->
  exists i, on_the_wire em i /\ forall em', received i em' ->
  forall s2 b dm infos, reachable s2 -> answer s2 (ADecrypt b em') = Ok (ODecrypted dm infos) ->
  (forall khs own data enc, gpg_encrypted s (after s (AEncrypt a m to)) khs own data enc -> forall home argv r,
     ran s2 (after s2 (ADecrypt b em')) (GCall home argv (Some enc) None) -> g_out (snd (gpg r argv (Some enc) None)) = data) ->
  exists gs, Forall2 (fun x => gossip_about s a (norm x)) to gs /\ m_body dm = m_body m /\
    m_headers dm = inner_headers m ++ map (fun v => (L "Autocrypt-Gossip", v)) (concat gs) ++ outer_headers m.
Proof. exact @c95_letter. Qed.
Print Assumptions C95_letter_partial.

(** Mails in the clear, of ASCII characters. *)
Theorem C95_clear_partial : forall (E : Env) (EL : EmailLib) (Sh : Shell) m, python_wire -> ordinary false m ->
  exists t, as_string m = Ok t /\
  (Forall (fun c => c < 128)%N t -> on_the_wire m t /\ mail_read t = m /\
     forall m', received t m' -> m_headers m' = m_headers m /\ means_the_same m m').
Proof. exact @c95_clear. Qed.
Print Assumptions C95_clear_partial.

(** The sendmail command gives to sendmail(8) the bytes of the mail that process-outgoing makes. *)
Theorem C95_sendmail : forall (E : Env) (Sh : Shell) s args m p, outcome_of s (CmdSendmail args m) = Ok p ->
  exists m' path i, answer s (ACliOutgoing m) = Ok (OMsg m') /\ pr_started p = Some (path :: args, i) /\ on_the_wire m' i.
Proof. exact @c95_sendmail. Qed.
Print Assumptions C95_sendmail.

(** ** Examples *)
#[local] Existing Instance E1.
#[local] Existing Instance EL1.
#[local] Instance Sh1 : Shell := {| as_string := @mail_string E1 EL1; ctime := fun _ => []; isoformat := fun _ => []; popen := fun _ _ => Ok 0%Z |}.
Lemma E1_wire : python_wire.
Proof.
  split; [intros m; reflexivity|]. split; [intros ts; exists (L "12"); split; [reflexivity|repeat constructor; vm_compute; discriminate]|]. split; [vm_compute; reflexivity|].
  intros b [ds [Hb Hd]]. split; [reflexivity|]. change (boundary_of (sealed_type b)) with (Some (unquoted (L """" ++ b ++ L """"))). f_equal.
  unfold unquoted. rewrite !filter_app. change (filter _ (L """")) with (@nil N). rewrite app_nil_r. cbn [app].
  assert (Hq : Forall (fun c => c <> 34)%N b).
  { rewrite Hb. apply Forall_app. split; [repeat constructor; discriminate|]. apply Forall_app. split; [|repeat constructor; discriminate].
    eapply Forall_impl; [|exact Hd]. intros c Hc. cbn beta in Hc. lia. }
  clear Hb Hd. induction Hq as [|c b Hc _ IH]; [reflexivity|]. cbn [filter]. rewrite IH. destruct (N.eqb_spec c 34); [contradiction|reflexivity].
Qed.
Definition wired (m : msg) : Prop :=
  Forall (plain_field false) (outer_headers m) /\
  forall khs own data enc, gpg_encrypted here (after here (AEncrypt (L "a") m [bob; carol])) khs own data enc -> armored enc.
Ltac seen := intros khs own data enc [home0 [argv0 [r0 [H1 [_ H3]]]]];
  apply ran_new in H1; vm_compute in H1;
  repeat (destruct H1 as [H1|H1]; [first [discriminate H1|injection H1 as <- <- <-; rewrite <- H3; apply armored_checked; vm_compute; reflexivity]|]); destruct H1.
Definition wire_of (m : msg) : bytes := match as_string m with Ok t => t | Err _ => [] end.
Ltac plain_fields := repeat (constructor; [split; [discriminate|]; split; [chars|]; eexists; exists []; split; [reflexivity|]; split;
  [split; [chars|intros l' He; apply (f_equal (@rev N)) in He; rewrite rev_app_distr in He; discriminate]|]; split; [intros l' He; discriminate|]; split; [discriminate|constructor]|]); constructor.
Definition got (m : msg) : msg := mail_read (wire_of (sealed m) ++ [10%N]).
Example C95_example : python_mail /\ python_wire /\ reachable here /\ both_ways two_parts /\ wired two_parts /\
  Forall writable_peer [bob; carol] /\ ordinary true (Msg (inner_headers two_parts) (m_body two_parts)) /\
  got two_parts <> sealed two_parts /\ is_encrypted (got two_parts) = Ok true /\
  exists infos, answer here (ADecrypt (L "a") (got two_parts)) = Ok (ODecrypted (opened two_parts) infos) /\ m_body (opened two_parts) = m_body two_parts.
Proof.
  split; [exact E1_python|]. split; [exact E1_wire|]. split; [exact here_reachable|]. split; [both_ways|].
  split; [split; [plain_fields|seen]|]. split; [exact peers_writable|]. split; [exact parts_ordinary|].
  split; [vm_compute; discriminate|]. split; [vm_compute; reflexivity|]. eexists. split; vm_compute; reflexivity.
Qed.
(** a mail that is encrypted when it is sent, with an own header *)
Definition urgent : msg := Msg (m_headers tea ++ [(L "Encrypt", L "yes"); (L "Subject", L "Tea," ++ [10%N] ++ L " with a cup")]) (m_body tea).
Definition sent_out : msg := match answer here (AOutgoing (L "a") urgent) with Ok (OOutgoing o) => out_msg o | _ => urgent end.
Example C95_example_outgoing :
  match answer here (AOutgoing (L "a") urgent) with Ok (OOutgoing o) => out_msg o = sent_out /\ out_added o <> None | _ => False end /\
  is_encrypted urgent = Ok false /\ is_encrypted sent_out = Ok true /\ Forall (fun c => 33 <= c <= 126)%N (norm (from_addr urgent)) /\
  (forall khs own data enc, gpg_encrypted here (after here (AOutgoing (L "a") urgent)) khs own data enc -> armored enc) /\
  hget_all (mail_read (wire_of sent_out)) (L "Subject") = [L "Tea," ++ [10%N] ++ L " with a cup"].
Proof.
  split; [vm_compute; split; [reflexivity|discriminate]|]. split; [vm_compute; reflexivity|]. split; [vm_compute; reflexivity|]. split; [chars|].
  split; [seen|vm_compute; reflexivity].
Qed.
(** in the clear *)
Example C95_example_clear : ordinary false tea /\ is_ascii (wire_of tea) = true /\ mail_read (wire_of tea) = tea.
Proof.
  split; [|split; vm_compute; reflexivity]. cbn [ordinary tea with_text]. split; [plain_fields|]. split; [intros r; split; vm_compute; discriminate|].
  split; [apply (Forall_impl (P := fun c => c < 128)%N); [intros c Hc; left; lia|apply lit; vm_compute; reflexivity]|]. split; [vm_compute; intuition discriminate|discriminate].
Qed.
Definition to_sendmail : option (list text * bytes) := match outcome_of here (CmdSendmail [L "-t"] urgent) with Ok p => pr_started p | _ => None end.
Example C95_example_sendmail : match to_sendmail with Some (_, i) => i = wire_of sent_out | None => False end.
Proof. vm_compute. reflexivity. Qed.

(** ** False in general: line ends CR LF become LF, and process-outgoing adds a line end to a text. *)
Definition crlf : msg := Msg [(L "From", alice); (L "To", bob); (L "ENCRYPT", L "no")] (PStr (L "a" ++ [13; 10]%N ++ L "b")).
Definition crlf_out : outgoing := match answer here (AOutgoing (L "a") crlf) with Ok (OOutgoing o) => o | _ => Outgoing crlf [] [] None None end.
Theorem C95_line_ends_refuted : exists (E : Env) (EL : EmailLib) (Sh : Shell) s a m o i, python_mail /\ python_wire /\ reached s /\
  answer s (AOutgoing a m) = Ok (OOutgoing o) /\ m_body (out_msg o) = PStr (L "a" ++ [13; 10]%N ++ L "b") /\ on_the_wire (out_msg o) i /\
  m_body (mail_read i) = PStr (L "a" ++ [10%N] ++ L "b") /\ m_body (mail_read (i ++ [10%N])) = PStr (L "a" ++ [10%N] ++ L "b" ++ [10%N]).
Proof.
  exists E1, EL1, Sh1, here, (L "a"), crlf, crlf_out, (wire_of (out_msg crlf_out)).
  split; [exact E1_python|]. split; [exact E1_wire|]. split; [exact here_reached|]. split; [vm_compute; reflexivity|]. split; [vm_compute; reflexivity|].
  split; [exists (wire_of (out_msg crlf_out)); split; vm_compute; reflexivity|]. split; vm_compute; reflexivity.
Qed.
Print Assumptions C95_line_ends_refuted.
