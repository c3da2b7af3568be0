(** Vocabulary for C91: two people, each with an account on a computer of their own, who write
    to each other over a network that may delay, reorder, repeat and lose mails, while both
    also do other things. *)
From Verif Require Import Base PyStr Env Prog Chain Gpg Mime States Recommendation Account Cmdline Bot Fs Api Spec PeerSpec RecSpec OutSpec AcctSpec CliSpec TalkSpec.

Section ConvSpec.
Context {E : Env}.
(** the accounts and the addresses of the two *)
Context (acct adr : bool -> text).

(** the state of the two computers, and the mails sent to each of the two so far *)
Record world := World { w_at : bool -> ast; w_way : bool -> list msg }.
Definition put {A} (f : bool -> A) (i : bool) (x : A) : bool -> A := fun j => if Bool.eqb j i then x else f j.

Inductive event :=
| Sends (i : bool) (m : msg)                     (* [i] hands a mail to process_outgoing, and sends the result to the other *)
| Gets (i : bool) (r : msg) (ign nodec : bool)   (* [i] processes a mail of the other *)
| Else (i : bool) (c : api).                     (* [i] does something else *)

Definition next (w : world) (e : event) : world :=
  match e with
  | Sends i m =>
      let c := AOutgoing (acct i) m in
      World (put (w_at w) i (after (w_at w i) c))
        match answer (w_at w i) c with Ok (OOutgoing o) => put (w_way w) (negb i) (out_msg o :: w_way w (negb i)) | _ => w_way w end
  | Gets i r ign nodec => World (put (w_at w) i (after (w_at w i) (AIncoming (acct i) r ign nodec))) (w_way w)
  | Else i c => World (put (w_at w) i (after (w_at w i) c)) (w_way w)
  end.
Definition goes (w : world) (es : list event) : world := fold_left next es w.

(** what gpg gives out for a key handle, with the key ring of [s] *)
Definition gives_out (s s' : ast) (kh : text) (key : bytes) : Prop :=
  exists argv, ran s s' (GCall (argv_home argv) argv None None) /\
    (exists pre, argv = pre ++ [L "--export-options=export-minimal"; L "--export"; kh]) /\
    g_out (snd (gpg (ring_at (a_rings s) (argv_home argv)) argv None None)) = key.
(** the address of [i] as the other records it *)
Definition name_of (i : bool) : text := norm (norm (adr i)).
(** an ordinary mail of [i]; and the other's gpg can import the key that is sent with it *)
Definition letter (w : world) (i : bool) (m : msg) : Prop :=
  sender_of m = name_of i /\ hget_all m (L "Autocrypt") = [] /\ (length (getaddresses (hget_all m (L "From"))) <= 1)%nat /\
  get_content_type m <> L "multipart/report" /\ plain_address (sender_of m) /\
  forall kh key, gives_out (w_at w i) (after (w_at w i) (AOutgoing (acct i) m)) kh key ->
    is_bytes key = true /\ key <> [] /\ exists h, imports_as (acct (negb i)) key h.
(** Nobody else writes in the name of the two, and they do not import keys by hand, change their
    settings or delete their accounts. *)
Definition honest (w : world) (e : event) : Prop :=
  match e with
  | Sends i m => letter w i m
  | Gets i r _ _ => exists o, In o (w_way w i) /\ delivered o r
  | Else i c => plain (acct i) c = true /\ modifies (acct i) c = false /\
      forall m ign nodec, c = AIncoming (acct i) m ign nodec -> sender_of m <> name_of (negb i)
  end.
Fixpoint honestly (w : world) (es : list event) : Prop :=
  match es with [] => True | e :: es => honest w e /\ honestly (next w e) es end.

(** in the beginning: both want encryption, neither has heard of the other *)
Definition strangers (w : world) : Prop := forall i,
  reachable (w_at w i) /\ (exists c kh, own_of (w_at w i) (acct i) = Some (c, kh) /\ cf_pref c = mutual) /\
  (exists v, peer_of (w_at w i) (acct i) (norm (adr (negb i))) = Some v /\ pv_latest_ac v = None /\ pv_last_seen v = 0%Z) /\
  w_way w i = [].

(** [i] knows the key that came with a mail of the other, and no later mail was without *)
Definition acquainted (w : world) (i : bool) (key : bytes) (kh : text) : Prop :=
  (exists d, knows (w_at w i) (acct i) (norm (adr (negb i))) key kh mutual d) /\ kh <> [] /\ imports_as (acct i) key kh /\
  exists o, In o (w_way w i) /\ carries o key mutual.

End ConvSpec.
