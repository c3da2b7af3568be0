(** Vocabulary for the dates of mails over a whole session. *)
From Verif Require Import Base PyStr Env Prog Chain Gpg Mime States Account Fs Api Spec PeerSpec.

Section SeenSpec.
Context {E : Env}.

(** [d] is the newest date: [d0], or that of a mail of peer [x] that was handed over in the
    session; and no mail of [x] processed in the session is newer *)
Definition newest (d0 : Z) (s : ast) (h : list api) (a x : text) (d : Z) : Prop :=
  (d0 <= d)%Z /\ (d = d0 \/ mailed_in s h a x d) /\ forall d', processed_in s h a x d' -> (d' <= d)%Z.

(** mails handed to account [a], whoever sent them; [d] is the Date, capped by the clock *)
Definition received (s : ast) (c : api) (a : text) (d : Z) : Prop :=
  exists m ign nd d0, c = AIncoming a m ign nd /\ dated m d0 /\ d = Z.min d0 (clock (a_tick s)).
Definition received_in (s : ast) (h : list api) (a : text) (d : Z) : Prop :=
  exists h1 c h2, h = h1 ++ c :: h2 /\ received (after_all s h1) c a d.
(** they come in the order of their dates *)
Definition sorted (s : ast) (h : list api) (a : text) : Prop :=
  forall h1 c1 h2 c2 h3 d1 d2, h = h1 ++ c1 :: h2 ++ c2 :: h3 ->
    received (after_all s h1) c1 a d1 -> received (after_all s (h1 ++ c1 :: h2)) c2 a d2 -> (d1 <= d2)%Z.

(** the decrypted mail of call [c] gossips the key of [g] about [x] *)
Definition gossiped (s : ast) (c : api) (a x : text) (g : gossip_entry) : Prop :=
  exists m ign d content w r pref, c = AIncoming a m ign false /\ is_encrypted m = Ok true /\ dated m d /\
    ge_date g = Z.min d (clock (a_tick s)) /\ ge_id g = msg_id_text m /\
    opens a m content /\ In w (hget_all (opened_as m content) (L "Autocrypt-Gossip")) /\
    key_header w r (ge_keydata g) pref /\ norm r = x.
Definition gossiped_in (s : ast) (h : list api) (a x : text) (g : gossip_entry) : Prop :=
  exists h1 c h2, h = h1 ++ c :: h2 /\ gossiped (after_all s h1) c a x g.

End SeenSpec.
