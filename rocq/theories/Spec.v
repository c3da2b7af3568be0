(** Observations: what a user of the API sees of a state.  Properties are stated with these. *)
From Verif Require Import Base PyStr Env Prog Chain Gpg Mime States Recommendation Account Cmdline Bot Fs Api.

(** ** What a log should contain, as a function of the operations performed *)
Inductive event :=
| EvAppend (n : text) (t : Z) (e : entry)
| EvRemove (f : text -> bool)
| EvClear.

(** newest first *)
Fixpoint spec_log (n : text) (evs : list event) (l : list block) : list block :=
  match evs with
  | [] => l
  | EvAppend n' t e :: evs' => spec_log n evs' (if text_eqb n' n then Block t e :: l else l)
  | EvRemove f :: evs' => spec_log n evs' (if f n then [] else l)
  | EvClear :: evs' => spec_log n evs' []
  end.

Section Spec.
Context {E : Env}.

(** the result of a call in a state, and the state after it (also if the call raises) *)
Definition answer (s : ast) (c : api) : result outcome := snd (arun (exec c) s).
Definition after (s : ast) (c : api) : ast := fst (arun (exec c) s).
Definition after_all (s : ast) (h : list api) : ast := fst (session h s).

(** what the API reports about a peer of an account, the settings of an account (with its own
    key handle), the peers of an account, a verification, the accounts *)
Definition peer_of (s : ast) (a addr : text) : option peer_view :=
  match answer s (APeer a addr) with Ok (OPeer v) => Some v | _ => None end.
Definition own_of (s : ast) (a : text) : option (cfg_entry * text) :=
  match answer s (AOwn a) with Ok (OOwn c kh) => Some (c, kh) | _ => None end.
Definition peers_of (s : ast) (a : text) : option (list text) :=
  match answer s (APeers a) with Ok (OTexts l) => Some l | _ => None end.
Definition verif_of (s : ast) (a addr : text) : option (option verif_entry) :=
  match answer s (AGetVerif a addr) with Ok (OVerif v) => Some v | _ => None end.
Definition accounts_of (s : ast) : list text :=
  match answer s AList with Ok (OTexts l) => l | _ => [] end.

(** the account exists: its settings and key can be asked for *)
Definition has_account (s : ast) (a : text) : Prop := own_of s a <> None.

(** the address under which a peer is filed *)
Definition norm (addr : text) : text := parse_email_addr (Some addr).

(** ** Calls that delete state *)
Definition deletes_all (c : api) : bool :=
  match c with ARemove => true | ACliDestroy yes => yes | _ => false end.
Definition deletes (a : text) (c : api) : bool :=
  match c with
  | ADel n | ACliDel n => text_eqb n a
  | _ => deletes_all c
  end.

(** ** Mails a call is given to process as incoming *)
Definition mails_of (c : api) : list msg :=
  match c with
  | AIncoming _ m _ _ => [m]
  | ACliIncoming _ _ _ m => [m]
  | ACliScandir _ files => map snd files
  | ABot _ _ m => [m]
  | _ => []
  end.

(** the address in the From field, as passed on to get_peerstate *)
Definition from_addr (m : msg) : text := parse_email_addr (hget m (L "From")).

(** ** Files *)
(** the operations a call, or a session, performs on the logs *)
Definition event_of {X} (o : cop X) (s : ast) : list event :=
  match o with
  | CAppend n e => [EvAppend n (clock (a_tick s)) e]
  | CRemoveIf f => [EvRemove f]
  | CRmTree => [EvClear]
  | _ => []
  end.
Fixpoint events {A} (p : prog cop A) (s : ast) : list event :=
  match p with
  | Vis o k => let (s', x) := astep o s in event_of o s ++ events (k x) s'
  | _ => []
  end.
Fixpoint session_events (h : list api) (s : ast) : list event :=
  match h with
  | [] => []
  | c :: h' => events (exec c) s ++ session_events h' (fst (arun (exec c) s))
  end.

(** the files after a session on a fresh directory *)
Definition files_after (h : list api) : fstate := fst (fsession h fs0).

(** reading a log from the files *)
Definition reads (s : fstate) (n : text) : result (list block) := snd (frun (read_chain n) s).

(** a block file with another content *)
Definition overwrite (s : fstate) (cid : text) (b : bytes) : fstate :=
  FState (f_heads s) (dset (f_blocks s) cid b) (f_rings s) (f_tick s) (f_uuid s) (f_trace s) (f_written s).
(** the file in which the newest entry of a log is stored *)
Definition head_file (s : fstate) (n : text) : option text :=
  match f_heads s with
  | Some b => match load b with Some (PyDict d) => dget d n | _ => None end
  | None => None
  end.

End Spec.
