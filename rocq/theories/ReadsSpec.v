(** Vocabulary of C87: decisions that read the same log several times. *)
From Verif Require Import Base PyStr Env Prog Chain Mime States Account Fs Api Refine Spec Conc StoreProofs WatchSpec.

Section ReadsSpec.
Context {E : Env}.

(** two programs that cannot be told apart when nobody else works on the files *)
Definition same {A} (p q : prog cop A) : Prop := forall s, arun p s = arun q s.

(** the logs that a recommendation is made from: the own settings and the peers asked for *)
Definition asked_log (acct : text) (addrs : list (option text)) (n : text) : Prop :=
  n = own_chain acct \/ exists y, In y addrs /\ n = peerstate_chain acct (parse_email_addr y).

(** during the whole run of the processes [ps], these logs stay as they are in [a] *)
Definition stay {A} (ps : list (prog fop A)) (s : fstate) (N : text -> Prop) (a : ast) : Prop :=
  forall n s1, N n -> at_some_time ps s s1 -> reads s1 n = Ok (alog a n).

(** at moments that follow each other while the processes [ps] work, the logs have these properties *)
Fixpoint in_turn {A} (ps : list (prog fop A)) (s : fstate) (fs : list (text * (list block -> Prop))) : Prop :=
  match fs with
  | [] => True
  | (n, P) :: fs' => exists ps1 s1 l, interleave ps s ps1 s1 /\ reads s1 n = Ok l /\ P l /\ in_turn ps1 s1 fs'
  end.
Definition own_mutual (l : list block) : Prop := exists c, latest_config l = Some c /\ cf_pref c = L "mutual".
Definition direct_key (l : list block) : Prop := exists e, latest_ac_entry l = Some e /\ me_kh e <> [].
Definition direct_mutual (l : list block) : Prop := exists e, latest_ac_entry l = Some e /\ me_kh e <> [] /\ me_pref e = L "mutual".
Definition last_mail_with_key (l : list block) : Prop := exists e, latest_msg_entry l = Some e /\ me_keydata e <> [].
End ReadsSpec.
