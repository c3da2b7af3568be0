(** Vocabulary of the independence of accounts, C67. *)
From Verif Require Import Base PyStr Env Prog Chain Gpg Mime States Account Cmdline Bot Fs Api Spec PeerSpec OutSpec AcctSpec.

Section IndepSpec.
Context {E : Env}.

(** the logs that belong to account [a] *)
Definition belongs (a n : text) : Prop := n = L "own:" ++ a \/ n = L "oob:" ++ a \/ exists x, n = L "peer:" ++ a ++ L ":" ++ x.

(** the version of the state directory, as of its last entry *)
Definition version (s : ast) : option acfg_entry := hd_error (acfg_entries (version_log s)).

(** Two states in which the logs of account [a] and the contents of its key ring are the same
    and which are at the same point of time; everything else may be different.  If the account
    may use the system's key ring, that one is the same, too. *)
Definition alike (system : bool) (a : text) (s1 s2 : ast) : Prop :=
  (forall n, belongs a n -> alog s1 n = alog s2 n) /\ version s1 = version s2 /\
  ring_content s1 (own_gpghome a) = ring_content s2 (own_gpghome a) /\
  (system = true -> ring_content s1 [] = ring_content s2 []) /\
  a_tick s1 = a_tick s2 /\ a_uuid s1 = a_uuid s2.

(** account [a] uses a key ring of its own, or nothing is stored about it *)
Definition private (s : ast) (a : text) : Prop :=
  ~ In a (accounts_of s) \/ exists c kh, own_of s a = Some (c, kh) /\ cf_mode c = L "own".

(** the same state at another time *)
Definition at_time (s : ast) (tick uuid : nat) : ast := AState (a_logs s) (a_rings s) tick uuid (a_trace s).

End IndepSpec.
