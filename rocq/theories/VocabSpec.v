(** What a mail says, in words that do not use the functions of the program (C79), and which key
    of a peer counts (C80). *)
From Verif Require Import Base PyStr Env Prog Chain Gpg Mime States Recommendation Account Cmdline Bot Fs Api Spec PeerSpec OutSpec CliSpec AcctSpec GpgSpec TalkSpec FailSpec KeySpec GpgMore GpgMoreSpec.

(** ** Characters *)
(** what str.isspace knows *)
Definition white_space : list N :=
  [9; 10; 11; 12; 13; 28; 29; 30; 31; 32; 133; 160; 5760; 8192; 8193; 8194; 8195; 8196; 8197; 8198; 8199; 8200; 8201; 8202; 8232; 8233; 8239; 8287; 12288]%N.
Definition capital (c : N) : Prop := (65 <= c <= 90)%N.
Definition ascii (s : text) : Prop := forall c, In c s -> (c < 128)%N.
(** [d] is the small letter of [c], or [c] itself if [c] is no capital letter *)
Definition small_of (c d : N) : Prop := (capital c /\ d = (c + 32)%N) \/ (~ capital c /\ d = c).
Definition letter_or_digit (c : N) : Prop := (48 <= c <= 57 \/ 65 <= c <= 90 \/ 97 <= c <= 122)%N.

(** ** UTF-8 (RFC 3629): one code point *)
Definition in_utf8 (c : N) (b : bytes) : Prop :=
  ((c < 128)%N /\ b = [c]) \/
  (exists x y, b = [192 + x; 128 + y]%N /\ (y < 64)%N /\ c = (x * 64 + y)%N /\ (128 <= c < 2048)%N) \/
  (exists x y z, b = [224 + x; 128 + y; 128 + z]%N /\ (y < 64 /\ z < 64)%N /\ c = (x * 4096 + y * 64 + z)%N /\
     (2048 <= c < 65536)%N /\ ~ (55296 <= c <= 57343)%N) \/
  (exists w x y z, b = [240 + w; 128 + x; 128 + y; 128 + z]%N /\ (x < 64 /\ y < 64 /\ z < 64)%N /\
     c = (w * 262144 + x * 4096 + y * 64 + z)%N /\ (65536 <= c <= 1114111)%N).

(** ** Words *)
(** the words of a text, separated by white space *)
Inductive in_words : text -> list text -> Prop :=
| W_none w : Forall (fun c => In c white_space) w -> in_words w []
| W_last w x : Forall (fun c => In c white_space) w -> x <> [] -> Forall (fun c => ~ In c white_space) x -> in_words (w ++ x) [x]
| W_word w x c rest ws : Forall (fun c => In c white_space) w -> x <> [] -> Forall (fun c => ~ In c white_space) x ->
    In c white_space -> in_words rest ws -> in_words (w ++ x ++ c :: rest) (x :: ws).
(** the order of texts by code points *)
Definition not_after (a b : text) : Prop :=
  (exists r, b = a ++ r) \/ (exists p x y a' b', a = p ++ x :: a' /\ b = p ++ y :: b' /\ (x < y)%N).

Section VocabSpec.
Context {E : Env}.

(** ** Header fields *)
(** the values of the fields with this name, in their order *)
Inductive fields (n : text) : list (text * text) -> list text -> Prop :=
| F_none : fields n [] []
| F_this k v hs vs : lower k = lower n -> fields n hs vs -> fields n ((k, v) :: hs) (v :: vs)
| F_other k v hs vs : lower k <> lower n -> fields n hs vs -> fields n ((k, v) :: hs) vs.
(** the first one of them *)
Definition field (m : msg) (n v : text) : Prop := exists vs, fields n (m_headers m) (v :: vs).
Definition no_field (m : msg) (n : text) : Prop := forall k v, In (k, v) (m_headers m) -> lower k <> lower n.

(** ** The content type (RFC 2045): what stands before the first semicolon, if it has one slash *)
Definition one_slash (t : text) : Prop := exists p q, t = p ++ L "/" ++ q /\ ~ In 47%N p /\ ~ In 47%N q.
Definition type_stated (v t : text) : Prop :=
  exists a rest b, v = a ++ rest /\ ~ In 59%N a /\ (rest = [] \/ exists r, rest = L ";" ++ r) /\ trimmed a b /\ t = lower b.
Definition content_type (m : msg) (t : text) : Prop :=
  (no_field m (L "Content-Type") /\ t = L "text/plain") \/
  (exists v t', field m (L "Content-Type") v /\ type_stated v t' /\
     ((one_slash t' /\ t = t') \/ (~ one_slash t' /\ t = L "text/plain"))).

(** ** Encrypted mail (RFC 3156) *)
Definition pgp_mime (m : msg) : Prop :=
  content_type m (L "multipart/encrypted") /\
  exists p q, m_body m = PParts [p; q] /\ content_type p (L "application/pgp-encrypted") /\ content_type q (L "application/octet-stream").
(** says that it is encrypted, but has no parts *)
Definition headless (m : msg) : Prop :=
  content_type m (L "multipart/encrypted") /\
  (m_body m = PNone \/ exists x y, m_body m = PStr [x; y] \/ m_body m = PBytes [x; y]).

(** ** Who, when, which *)
Definition address (v x : text) : Prop := x = lower (parseaddr v).
Definition comes_from (m : msg) (x : text) : Prop :=
  (no_field m (L "From") /\ x = []) \/ (exists v, field m (L "From") v /\ address v x).
(** parsedate_tz finds a date and mktime a time for it; otherwise it counts as 1970 *)
Definition date_says (v : text) (d : Z) : Prop :=
  (parsedate_tz v = None /\ d = 0%Z) \/
  (exists civil zone, parsedate_tz v = Some (civil, zone) /\ (mktime civil = Ok d \/ (mktime civil = Err TypeError /\ d = 0%Z))).
Definition written_at (m : msg) (d : Z) : Prop :=
  (no_field m (L "Date") /\ d = 0%Z) \/ (exists v, field m (L "Date") v /\ date_says v d).
Definition id_of (m : msg) (i : text) : Prop :=
  (no_field m (L "Message-Id") /\ i = L "None") \/ field m (L "Message-Id") i.
(** addressed to [y] (as written) *)
Definition goes_to (m : msg) (y : text) : Prop :=
  exists tos ccs name, fields (L "To") (m_headers m) tos /\ fields (L "Cc") (m_headers m) ccs /\ In (name, y) (getaddresses (tos ++ ccs)).
(** [m'] has the fields of [m] that do not describe its body, after its own ones *)
Definition describes_body (k : text) : Prop := In (lower k) [L "content-type"; L "mime-version"; L "content-transfer-encoding"].
Inductive kept_fields : list (text * text) -> list (text * text) -> Prop :=
| K_none : kept_fields [] []
| K_kept k v hs ks : ~ describes_body k -> kept_fields hs ks -> kept_fields ((k, v) :: hs) ((k, v) :: ks)
| K_left k v hs ks : describes_body k -> kept_fields hs ks -> kept_fields ((k, v) :: hs) ks.
Definition with_outer (m c m' : msg) : Prop :=
  m_body m' = m_body c /\ exists ks, kept_fields (m_headers m) ks /\ m_headers m' = m_headers c ++ ks.

(** ** Keys of peers *)
(** the entry whose key counts: the last key received directly if gpg could import it, otherwise
    the last one received by gossip *)
Definition importable (v : peer_view) (e : msg_entry) : Prop := pv_latest_ac v = Some e /\ me_kh e <> [].
Definition key_counts (v : peer_view) (kh : text) (key : bytes) (pref : text) : Prop :=
  (exists e, importable v e /\ kh = me_kh e /\ key = me_keydata e /\ pref = me_pref e) \/
  ((forall e, ~ importable v e) /\ exists g, pv_latest_gossip v = Some g /\ kh = ge_kh g /\ key = ge_keydata g /\ pref = []) \/
  ((forall e, ~ importable v e) /\ pv_latest_gossip v = None /\ kh = [] /\ key = [] /\ pref = []).
End VocabSpec.
