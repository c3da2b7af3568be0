(** C88, C89: who can read a mail that was encrypted.  Statements only; proofs are in
    AudienceProofs.v, the vocabulary is in AudienceSpec.v. *)
From Verif Require Import Base PyStr Utf8 Base64 Env Prog Chain Gpg Mime States Recommendation Account Cmdline Bot Fs Api Spec Obs PeerSpec RecSpec OutSpec AcctSpec
  CliSpec Commands CmdSpec SeenSpec AudienceSpec AudienceProofs Toy Demo PropsOut PropsCmd.
#[local] Existing Instance E0.   (* for the examples *)
#[local] Existing Instance Sh0.

(** ** C88 *)
(** The full statement: whoever sends an encrypted mail can read it with the own key of the
    account.  It holds as long as no key is recorded for the address of the sender; otherwise
    the mail is encrypted to that key in place of the own one. *)
Theorem C88_sender_reads_unless_a_key_is_recorded_partial : forall (E : Env) s a m o, reachable s ->
  answer s (AOutgoing a m) = Ok (OOutgoing o) -> is_encrypted m = Ok false -> is_encrypted (out_msg o) = Ok true ->
  exists own khs kh, encrypted_for s (after s (AOutgoing a m)) a m o own khs /\ sender_key s a m kh /\
    (kh = [] -> In own khs) /\ (kh <> [] -> In kh khs).
Proof. exact @c88. Qed.
Print Assumptions C88_sender_reads_unless_a_key_is_recorded_partial.

(** So it holds through every session of mails in which no mail claims to come from the own
    address with a key, and none gossips a key for it. *)
Theorem C88_sender_reads_through_a_session_partial : forall (E : Env) s h a m o, reachable s -> sender_key s a m [] ->
  (forall c, In c h -> plain a c = true) ->
  (forall f, ~ offered_in s h a (norm (norm (from_addr m))) f) -> (forall g, ~ gossiped_in s h a (norm (norm (from_addr m))) g) ->
  let s' := after_all s h in
  answer s' (AOutgoing a m) = Ok (OOutgoing o) -> is_encrypted m = Ok false -> is_encrypted (out_msg o) = Ok true ->
  exists own khs, encrypted_for s' (after s' (AOutgoing a m)) a m o own khs /\ In own khs.
Proof. exact @c88_session. Qed.
Print Assumptions C88_sender_reads_through_a_session_partial.

(** A stranger sends a mail with the address of the account as its sender and a key of their
    own.  From then on, mails that the account sends are encrypted to the key of the stranger,
    and the account cannot read its own copy. *)
Definition claiming : msg := ac_mail alice alice (L "2500") (L "<x>") (L "mutual") keyA.
Definition claimed : api := AIncoming (L "a") claiming false false.
Theorem C88_claimed_address_refuted : exists (E : Env) s a mm m own o1 khs1 o2 khs2 kh, reached s /\ from_addr mm = from_addr m /\
  let s' := after s (AIncoming a mm false false) in
  answer s (AOutgoing a m) = Ok (OOutgoing o1) /\ encrypted_for s (after s (AOutgoing a m)) a m o1 own khs1 /\ In own khs1 /\
  answer s' (AOutgoing a m) = Ok (OOutgoing o2) /\ encrypted_for s' (after s' (AOutgoing a m)) a m o2 own khs2 /\ ~ In own khs2 /\
  sender_key s' a m kh /\ In kh khs2.
Proof.
  exists E0, state1, (L "a"), claiming, (to_both yes), (toy_id 0).
  destruct (@encrypted_to E0 state1 (L "a") (to_both yes) [skipn 3 keyB; skipn 3 keyC; toy_id 0]) as [o1 [own1 [khs1 [A1 [A2 A3]]]]];
    [apply state1_reachable|vm_compute; reflexivity|vm_compute; reflexivity|vm_compute; reflexivity|].
  destruct (@encrypted_to E0 (after state1 claimed) (L "a") (to_both yes) [skipn 3 keyB; skipn 3 keyC; skipn 3 keyA]) as [o2 [own2 [khs2 [B1 [B2 B3]]]]];
    [apply reachable_after, state1_reachable|vm_compute; reflexivity|vm_compute; reflexivity|vm_compute; reflexivity|].
  assert (own1 = toy_id 0) as ->.
  { destruct A2 as [_ [_ [[c Hc] _]]]. assert (Hx : option_map snd (own_of state1 (L "a")) = Some (toy_id 0)) by (vm_compute; reflexivity).
    rewrite Hc in Hx. injection Hx as ->. exact eq_refl. }
  assert (own2 = toy_id 0) as ->.
  { destruct B2 as [_ [_ [[c Hc] _]]]. assert (Hx : option_map snd (own_of (after state1 claimed) (L "a")) = Some (toy_id 0)) by (vm_compute; reflexivity).
    rewrite Hc in Hx. injection Hx as ->. exact eq_refl. }
  exists o1, khs1, o2, khs2, (skipn 3 keyA). split; [apply state1_reached|]. split; [vm_compute; reflexivity|]. cbv zeta.
  split; [exact A1|]. split; [exact A2|]. split; [apply A3; right; right; left; exact eq_refl|].
  split; [exact B1|]. split; [exact B2|]. split; [rewrite B3; intros [H|[H|[H|[]]]]; vm_compute in H; discriminate H|].
  split; [|apply B3; right; right; left; exact eq_refl].
  destruct (peer_of (after state1 claimed) (L "a") (norm (from_addr (to_both yes)))) as [v|] eqn:Ev.
  - exists v. split; [exact Ev|].
    assert (Hx : option_map pv_keyhandle (peer_of (after state1 claimed) (L "a") (norm (from_addr (to_both yes)))) = Some (skipn 3 keyA)) by (vm_compute; reflexivity).
    rewrite Ev in Hx. injection Hx as ->. exact eq_refl.
  - assert (Hx : option_map pv_keyhandle (peer_of (after state1 claimed) (L "a") (norm (from_addr (to_both yes)))) = Some (skipn 3 keyA)) by (vm_compute; reflexivity).
    rewrite Ev in Hx. discriminate Hx.
Qed.
Print Assumptions C88_claimed_address_refuted.

Definition own_reads (s : ast) : option (bool * list text) :=
  match answer s (AOutgoing (L "a") (to_both yes)), hd_error (a_trace (after s (AOutgoing (L "a") (to_both yes)))) with
  | Ok (OOutgoing o), Some (GCall _ argv _ _) =>
      Some (match is_encrypted (out_msg o) with Ok b => b | Err _ => false end, skipn 9 argv)
  | _, _ => None end.
Example C88_example : reachable state1 /\ plain (L "a") claimed = true /\ norm (from_addr (to_both yes)) = alice /\
  is_encrypted (to_both yes) = Ok false /\
  option_map pv_keyhandle (peer_of state1 (L "a") alice) = Some [] /\
  own_reads state1 = Some (true, [L "-r"; skipn 3 keyB; L "-r"; skipn 3 keyC; L "-r"; toy_id 0; L "--sign"; L "-u"; toy_id 0; L "--armor"]) /\
  own_reads (after state1 claimed) =
    Some (true, [L "-r"; skipn 3 keyB; L "-r"; skipn 3 keyC; L "-r"; skipn 3 keyA; L "--sign"; L "-u"; toy_id 0; L "--armor"]).
Proof. split; [apply state1_reachable|]. repeat (split; [vm_compute; reflexivity|]). vm_compute. reflexivity. Qed.

(** ** C89 *)
(** The full statement: everybody to whom sendmail is told to deliver an encrypted mail has a
    key in it.  It holds for those who are also named in To or Cc, or are the sender: only
    their keys are used. *)
Theorem C89_named_recipients_can_read_partial : forall (E : Env) (Sh : Shell) s args m p, reachable s ->
  hget m (L "Resent-From") = None \/ hget m (L "Resent-From") = Some [] -> outcome_of s (CmdSendmail args m) = Ok p ->
  exists a o t i path, first_of s (from_addr m) a /\ answer s (AOutgoing a m) = Ok (OOutgoing o) /\
    as_string (out_msg o) = Ok t /\ utf8 i = Some t /\ pr_started p = Some (path :: args, i) /\
    (is_encrypted m = Ok false -> is_encrypted (out_msg o) = Ok true ->
     exists own khs, encrypted_for s (left_by s (CmdSendmail args m)) a m o own khs /\
       (forall y, In y (envelope args m) -> In (norm y) (map norm (targets m)) \/ norm y = norm (from_addr m) ->
         exists kh, key_in_use s a (norm y) kh /\ In kh khs) /\
       forall kh, In kh khs -> exists x, (In x (targets m) \/ x = from_addr m) /\ key_in_use s a (norm x) kh).
Proof. exact @c89. Qed.
Print Assumptions C89_named_recipients_can_read_partial.

(** With options only and no Bcc header, everybody it is delivered to can read it. *)
Theorem C89_recipients_of_the_header_can_read_partial : forall (E : Env) (Sh : Shell) s args m p, reachable s ->
  hget m (L "Resent-From") = None \/ hget m (L "Resent-From") = Some [] ->
  (forall w, In w args -> is_option w = true) -> hget_all m (L "bcc") = [] -> outcome_of s (CmdSendmail args m) = Ok p ->
  exists a o t i path, first_of s (from_addr m) a /\ answer s (AOutgoing a m) = Ok (OOutgoing o) /\
    as_string (out_msg o) = Ok t /\ utf8 i = Some t /\ pr_started p = Some (path :: args, i) /\
    (is_encrypted m = Ok false -> is_encrypted (out_msg o) = Ok true ->
     exists own khs, encrypted_for s (left_by s (CmdSendmail args m)) a m o own khs /\
       forall y, In y (envelope args m) -> exists kh, key_in_use s a (norm y) kh /\ In kh khs).
Proof. exact @c89_header. Qed.
Print Assumptions C89_recipients_of_the_header_can_read_partial.

(** A recipient given as an argument, or in the Bcc header, gets a mail that is not encrypted to
    the key that is recorded for them. *)
Definition to_bob (extra : list (text * text)) : msg := mail alice (L "bob@b.org") (L "3000") (L "<3>") (extra ++ yes).
Theorem C89_recipient_given_as_argument_refuted : exists (E : Env) (Sh : Shell) s args m y, unreadable (E := E) (Sh := Sh) s args m y /\ hget_all m (L "bcc") = [].
Proof.
  exists E0, Sh0, state1, [L "-i"; L "--"; bob; carol], (to_bob []), carol. split; [|vm_compute; reflexivity].
  apply (@unreadable_by E0 Sh0 state1 _ _ carol (L "a") [skipn 3 keyB; toy_id 0] (skipn 3 keyC)); [apply state1_reachable|..]; try (vm_compute; reflexivity).
  - vm_compute. auto.
  - discriminate.
  - intros [H|[H|[]]]; vm_compute in H; discriminate H.
Qed.
Print Assumptions C89_recipient_given_as_argument_refuted.
Theorem C89_blind_copy_refuted : exists (E : Env) (Sh : Shell) s m y, unreadable (E := E) (Sh := Sh) s [L "-t"] m y /\ In y (map snd (getaddresses (hget_all m (L "bcc")))).
Proof.
  exists E0, Sh0, state1, (to_bob [(L "Bcc", carol)]), carol. split; [|vm_compute; auto].
  apply (@unreadable_by E0 Sh0 state1 _ _ carol (L "a") [skipn 3 keyB; toy_id 0] (skipn 3 keyC)); [apply state1_reachable|..]; try (vm_compute; reflexivity).
  - vm_compute. auto.
  - discriminate.
  - intros [H|[H|[]]]; vm_compute in H; discriminate H.
Qed.
Print Assumptions C89_blind_copy_refuted.

Example C89_example : reachable state1 /\ hget (to_both yes) (L "Resent-From") = None /\ hget_all (to_both yes) (L "bcc") = [] /\
  (forall w, In w [L "-t"] -> is_option w = true) /\ envelope [L "-t"] (to_both yes) = [bob; carol] /\
  started (outcome_of state1 (CmdSendmail [L "-t"] (to_both yes))) = Ok ([], 0%Z, Some [L "/usr/sbin/sendmail"; L "-t"]) /\
  match answer state1 (AOutgoing (L "a") (to_both yes)) with Ok (OOutgoing o) => is_encrypted (out_msg o) = Ok true | _ => False end.
Proof. split; [apply state1_reachable|]. do 2 (split; [vm_compute; reflexivity|]). split; [intros w [<-|[]]; reflexivity|].
  do 2 (split; [vm_compute; reflexivity|]). vm_compute. reflexivity. Qed.
