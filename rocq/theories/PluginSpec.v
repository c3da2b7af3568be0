(** Vocabulary of the properties about plugins (C76). *)
From Verif Require Import Base PyStr Env Prog Chain Gpg Mime States Recommendation Account Cmdline Bot Fs Api Plugins Spec PeerSpec OutSpec.

Section PluginSpec.
Context {E : Env}.

(** answers and states when these plugins are registered *)
Definition answer_with (ps : list plugin) (s : ast) (c : api) : result outcome := snd (arun (exec_with ps c) s).
Definition after_with (ps : list plugin) (s : ast) (c : api) : ast := fst (arun (exec_with ps c) s).
(** states reached by calls, each with some plugins *)
Inductive reached : ast -> Prop :=
| reached_init : reached ast0
| reached_step ps s c : reached s -> reached (after_with ps s c).

(** the same report, but for what plugins did to the gossip in it *)
Definition with_gossip (i : incoming) (d : dict pah) : incoming := Incoming (in_id i) (in_date i) (in_chain i) (in_acct i) (in_pah i) d.

(** Plugins are asked one after the other.  Each gets what the one before it left; the first
    that raises ends it. *)
Inductive in_turn {A} (call : plugin -> A -> result A) : list plugin -> A -> result A -> Prop :=
| turn_all x : in_turn call [] x (Ok x)
| turn_next p ps x y r : call p x = Ok y -> in_turn call ps y r -> in_turn call (p :: ps) x r
| turn_stop p ps x e : call p x = Err e -> in_turn call (p :: ps) x (Err e).
Definition told_gossip (key : text) : list plugin -> dict pah * msg -> result (dict pah * msg) -> Prop :=
  in_turn (fun p x => on_gossip p (fst x) key (snd x)).
Definition told_payload (from key : text) : list plugin -> dict bytes * msg -> result (dict bytes * msg) -> Prop :=
  in_turn (fun p x => before_encryption p from key (fst x) (snd x)).

(** The recorded keys of the peers among these addresses *)
Definition keys_of (s : ast) (a : text) (to : list text) (keys : dict bytes) : Prop :=
  forall y key, dget keys y = Some key <->
    exists x v, In x to /\ y = norm x /\ peer_of s a y = Some v /\ pv_keyhandle v <> [] /\ key = pv_keydata v.

(** What gpg encrypted to the keys [khs] for these recipients is the mail with its gossip as the
    plugins left it.  They were told the sender, its key, and the keys of the recipients. *)
Definition sealed_with (ps : list plugin) (s s' : ast) (a : text) (m : msg) (to khs : list text) (body : payload) : Prop :=
  Forall2 (fun x => key_in_use s a (norm x)) to khs /\
  exists c own gs keys clear keys' payload data enc, own_of s a = Some (c, own) /\
    Forall2 (fun x => gossip_about s a (norm x)) to gs /\ keys_of s a to keys /\
    m_body clear = m_body m /\
    m_headers clear = inner_headers m ++ map (fun v => (L "Autocrypt-Gossip", v)) (concat gs) /\
    told_payload (from_addr m) own ps (keys, clear) (Ok (keys', payload)) /\
    flatten payload = Ok data /\ gpg_encrypted s s' khs own data enc /\ body = pgp_body enc.

(** these plugins always raise when something is to be encrypted *)
Definition objecting (ps : list plugin) : Prop := forall from key d m, exists e, told_payload from key ps (d, m) (Err e).
End PluginSpec.
