(** Vocabulary for who can read a mail that was encrypted: the own key of the account, and the
    addresses that the program sendmail delivers to. *)
From Verif Require Import Base PyStr Env Prog Chain Gpg Mime States Recommendation Account Cmdline Bot Fs Api Spec Obs PeerSpec RecSpec OutSpec AcctSpec CliSpec Commands CmdSpec.

Section AudienceSpec.
Context {E : Env}.

(** the mail [m] that was handed in left the account as [o]: encrypted now, to the keys [khs],
    where [own] is the own key of the account and [s'] the state after it *)
Definition encrypted_for (s s' : ast) (a : text) (m : msg) (o : outgoing) (own : text) (khs : list text) : Prop :=
  is_encrypted m = Ok false /\ is_encrypted (out_msg o) = Ok true /\
  (exists c, own_of s a = Some (c, own)) /\
  exists data enc, m_body (out_msg o) = pgp_body enc /\ gpg_encrypted s s' khs own data enc.

(** the key handle recorded for the address of the sender *)
Definition sender_key (s : ast) (a : text) (m : msg) (kh : text) : Prop :=
  exists v, peer_of s a (norm (from_addr m)) = Some v /\ pv_keyhandle v = kh.

(** sendmail(8): arguments starting with a dash are options, the others are recipients; with -t
    the recipients named in the header are added *)
Definition is_option (w : text) : bool := match w with c :: _ => N.eqb c 45 | [] => false end.
Definition envelope (args : list text) (m : msg) : list text :=
  filter (fun w => negb (is_option w)) args ++
  (if existsb (fun w => text_eqb w (L "-t")) args
   then map snd (getaddresses (hget_all m (L "to") ++ hget_all m (L "cc") ++ hget_all m (L "bcc"))) else []).

(** sendmail succeeds and delivers the mail to [y], which was encrypted, but not to the key recorded for [y] *)
Definition unreadable {Sh : Shell} (s : ast) (args : list text) (m : msg) (y : text) : Prop :=
  exists p a o own khs v, reachable s /\ outcome_of s (CmdSendmail args m) = Ok p /\ pr_exit p = 0%Z /\
    option_map fst (pr_started p) = Some (L "/usr/sbin/sendmail" :: args) /\
    answer s (AOutgoing a m) = Ok (OOutgoing o) /\ encrypted_for s (after s (AOutgoing a m)) a m o own khs /\
    In y (envelope args m) /\ peer_of s a y = Some v /\ pv_keyhandle v <> [] /\ ~ In (pv_keyhandle v) khs.

End AudienceSpec.
