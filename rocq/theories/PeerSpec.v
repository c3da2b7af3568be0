(** Vocabulary of the properties about peers: what a mail says, independent of how
    process_incoming goes about it. *)
From Verif Require Import Base PyStr Env Prog Chain Gpg Mime States Recommendation Account Cmdline Bot Fs Api Spec.

Section PeerSpec.
Context {E : Env}.

(** the peer a mail is filed under *)
Definition sender_of (m : msg) : text := norm (from_addr m).

(** the value of the Date field as a number (0 if missing or malformed) *)
Definition dated (m : msg) (d : Z) : Prop := parse_date_to_float (hget m (L "Date")) = Ok d.

(** an Autocrypt header value that is valid and states key and preference for address x *)
Definition key_header (v x : text) (key : bytes) (pref : text) : Prop :=
  exists extra, parse_ac_headervalue v = Ok (PAH (Some key) (Some x) (Some pref) (Some extra) None).

(** a mail carries a key: it is no report, has at most one From address, and exactly one of
    its Autocrypt headers is valid for that address (and no header is so malformed that the
    parser raises) *)
Definition carries (m : msg) (key : bytes) (pref : text) : Prop :=
  get_content_type m <> L "multipart/report" /\
  length (getaddresses (hget_all m (L "From"))) <= 1 /\
  exists pre v post, hget_all m (L "Autocrypt") = pre ++ v :: post /\
    key_header v (sender_of m) key pref /\
    forall w, In w (pre ++ post) ->
      (exists p, parse_ac_headervalue w = Ok p) /\ forall k p, ~ key_header w (sender_of m) k p.

(** ** What mails offer *)
Record offer := Offer { of_date : Z; of_pref : text; of_key : bytes; of_id : text }.
Definition offer_of (e : msg_entry) : offer := Offer (me_date e) (me_pref e) (me_keydata e) (me_id e).

(** Call [c] in state [s] hands the account [a] a mail of peer [x] that offers a key.  The
    date is capped by the clock; mails dated before 1970 and empty keys do not count. *)
Definition offered (s : ast) (c : api) (a x : text) (o : offer) : Prop :=
  exists m ign nodec d, c = AIncoming a m ign nodec /\ sender_of m = x /\ dated m d /\
    of_date o = Z.min d (clock (a_tick s)) /\ of_id o = msg_id_text m /\
    (0 <= of_date o)%Z /\ of_key o <> [] /\ carries m (of_key o) (of_pref o).

(** somewhere in a session *)
Definition offered_in (s : ast) (h : list api) (a x : text) (o : offer) : Prop :=
  exists h1 c h2, h = h1 ++ c :: h2 /\ offered (after_all s h1) c a x o.
(** and that call processed the mail (it did not raise and did not skip it as known) *)
Definition taken_in (s : ast) (h : list api) (a x : text) (o : offer) : Prop :=
  exists h1 c h2 i, h = h1 ++ c :: h2 /\ offered (after_all s h1) c a x o /\
    answer (after_all s h1) c = Ok (OIncoming (Some i)).

(** ** Kinds of calls *)
Definition imports (a : text) (c : api) : bool :=
  match c with AImport n _ _ _ => text_eqb n a | _ => false end.
(** process_incoming on some account, or a call that neither processes mail nor imports a key
    for the account nor deletes it *)
Definition plain (a : text) (c : api) : bool :=
  match c with
  | AIncoming _ _ _ _ => true
  | _ => negb (nonempty (mails_of c)) && negb (imports a c) && negb (deletes a c)
  end.
(** mails a call may process for account [a] *)
Definition mails_for (a : text) (c : api) : list msg :=
  match c with
  | AIncoming n m _ _ | ACliIncoming (Some n) _ _ m => if text_eqb n a then [m] else []
  | _ => mails_of c
  end.

(** what is known about a peer except its newest gossip entry *)
Definition but_gossip (v : peer_view) : peer_view :=
  PeerView (pv_addr v) (pv_last_seen v) (pv_ac_timestamp v) (pv_keyhandle v) (pv_keydata v)
    (pv_pref v) (pv_direct v) (pv_entry v) (pv_latest_ac v) None.

(** may the call decrypt mail? *)
Definition decrypts (c : api) : bool :=
  match c with AIncoming _ _ _ nd | ACliIncoming _ _ nd _ => negb nd | _ => true end.

(** a mail after decryption: the protected part, with the outer headers added to it *)
Definition opened_as (m : msg) (content : bytes) : msg := transfer_non_content_headers m (parse_bytes content).
(** the encrypted data of a mail *)
Definition cipher_of (m : msg) : option bytes :=
  match m_body m with
  | PParts [_; p] => match m_body p with PBytes d | PStr d => Some d | _ => None end
  | _ => None
  end.
(** content that the gpg program of account [a] puts out, in some state of the keyring, when
    asked to decrypt the mail *)
Definition opens (a : text) (m : msg) (content : bytes) : Prop :=
  exists s g enc s' infos, snd (arun (get_bingpg a) s) = Ok g /\ cipher_of m = Some enc /\ snd (arun (gpg_decrypt g enc) s') = Ok (content, infos).
(** x is a To/Cc recipient of the mail *)
Definition recipient (m : msg) (x : text) : Prop := exists r, In r (get_target_emailadr m) /\ norm r = x.

(** mails of peer [x] handed to account [a]; [d] is the Date, capped by the clock *)
Definition mailed (s : ast) (c : api) (a x : text) (d : Z) : Prop :=
  exists m ign nd d0, c = AIncoming a m ign nd /\ sender_of m = x /\ dated m d0 /\ d = Z.min d0 (clock (a_tick s)).
Definition mailed_in (s : ast) (h : list api) (a x : text) (d : Z) : Prop :=
  exists h1 c h2, h = h1 ++ c :: h2 /\ mailed (after_all s h1) c a x d.
(** and processed: neither skipped nor failed *)
Definition processed_in (s : ast) (h : list api) (a x : text) (d : Z) : Prop :=
  exists h1 c h2 i, h = h1 ++ c :: h2 /\ mailed (after_all s h1) c a x d /\
    answer (after_all s h1) c = Ok (OIncoming (Some i)).
(** mails arrive in the order of their dates *)
Definition in_order (s : ast) (h : list api) (a x : text) : Prop :=
  forall h1 c1 h2 c2 h3 d1 d2, h = h1 ++ c1 :: h2 ++ c2 :: h3 ->
    mailed (after_all s h1) c1 a x d1 -> mailed (after_all s (h1 ++ c1 :: h2)) c2 a x d2 -> (d1 <= d2)%Z.

(** every call of the session processed its mail: none was skipped, none raised *)
Definition all_processed (s : ast) (h : list api) : Prop :=
  Forall (fun r => exists i, r = Ok (OIncoming (Some i))) (snd (session h s)).
(** process_incoming without duplicate detection *)
Definition mail_call (a : text) (m : msg) (c : api) : Prop := exists nd, c = AIncoming a m false nd.

(** the gpg program and keyring of account [a] import the key under the same handle, in
    whatever state the keyring is *)
Definition imports_as (a : text) (key : bytes) (kh : text) : Prop :=
  forall s g s', snd (arun (get_bingpg a) s) = Ok g -> snd (arun (import_keydata g key false) s') = Ok kh.

End PeerSpec.
