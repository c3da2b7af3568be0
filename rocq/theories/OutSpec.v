(** Vocabulary of the properties about outgoing mail. *)
From Verif Require Import Base PyStr Env Prog Chain Gpg Mime States Recommendation Account Cmdline Bot Fs Api Spec PeerSpec.

Section OutSpec.
Context {E : Env}.

(** what the sender's program asks for: the (first) ENCRYPT header *)
Definition control (m : msg) : option text := option_map strip (hget m (L "ENCRYPT")).

(** the addresses in the To and Cc fields *)
Definition targets (m : msg) : list text := map snd (getaddresses (hget_all m (L "to") ++ hget_all m (L "cc"))).
(** those that are not the sender *)
Definition others (m : msg) : list text := filter (fun x => negb (text_eqb (norm x) (from_addr m))) (targets m).

Definition has_header (m : msg) (name : text) : Prop := exists k v, In (k, v) (m_headers m) /\ lower k = lower name.
Definition named (names : list text) (kv : text * text) : bool := mem_text (lower (fst kv)) names.
(** headers that describe the body; only the first two are kept with it *)
Definition body_headers : list text := [L "content-transfer-encoding"; L "content-type"].
Definition mime_headers : list text := [L "content-type"; L "mime-version"; L "content-transfer-encoding"].
Definition outer_headers (m : msg) : list (text * text) := filter (fun kv => negb (named mime_headers kv)) (m_headers m).
Definition inner_headers (m : msg) : list (text * text) := filter (named body_headers) (m_headers m).

(** a gpg process started between two states *)
Definition ran (s s' : ast) (g : gcall) : Prop := exists l, a_trace s' = l ++ a_trace s /\ In g l.
(** signed with the given key; not signed without one *)
Definition signing (sign : text) : list text := match sign with [] => [] | _ => [L "--sign"; L "-u"; sign] end.
(** a gpg command line that encrypts to exactly these keys and signs *)
Definition encrypt_command (argv khs : list text) (sign : text) : Prop :=
  exists path home loopback, argv = [path; L "--batch"] ++ home ++ [L "--passphrase"; L "123"] ++ loopback
      ++ [L "--encrypt"; L "--always-trust"] ++ concat (map (fun k => [L "-r"; k]) khs) ++ signing sign ++ [L "--armor"] /\
    (home = [] \/ exists h, home = [L "--homedir"; h]) /\ (loopback = [] \/ loopback = [L "--pinentry-mode=loopback"]).
(** and one that decrypts *)
Definition decrypt_command (argv : list text) : Prop :=
  exists path home loopback, argv = [path; L "--batch"] ++ home ++ [L "--passphrase"; L "123"] ++ loopback
      ++ [L "--with-colons"; L "--decrypt"] /\
    (home = [] \/ exists h, home = [L "--homedir"; h]) /\ (loopback = [] \/ loopback = [L "--pinentry-mode=loopback"]).
(** the body of a mail made by encryption; [enc] is what gpg put out *)
Definition pgp_body (enc : bytes) : payload :=
  PParts [Msg [(L "Content-Type", L "application/pgp-encrypted")] (PStr (L "version: 1"));
          Msg [(L "Content-Type", L "application/octet-stream")] (PBytes enc)].

(** Between [s] and [s'] gpg encrypted [data] to the keys [khs], signed by [sign], giving [enc]. *)
Definition gpg_encrypted (s s' : ast) (khs : list text) (sign : text) (data enc : bytes) : Prop :=
  exists home argv r, ran s s' (GCall home argv (Some data) None) /\ encrypt_command argv khs sign /\
    g_out (snd (gpg r argv (Some data) None)) = enc.

(** the key used to encrypt to an address: that of the peer; without one, for own addresses,
    the own key *)
Definition key_in_use (s : ast) (a y kh : text) : Prop :=
  exists v, peer_of s a y = Some v /\
    ((pv_keyhandle v <> [] /\ kh = pv_keyhandle v) \/
     (pv_keyhandle v = [] /\ exists c, own_of s a = Some (c, kh) /\ re_match (cf_regex c) y = Ok true)).

(** the gossip header for an address, if its peer has a key *)
Definition gossip_about (s : ast) (a y : text) (g : list text) : Prop :=
  exists v, peer_of s a y = Some v /\
    ((pv_keyhandle v = [] /\ g = []) \/
     (pv_keyhandle v <> [] /\ exists h, make_ac_header_value y (pv_keydata v) (L "nopreference") = Ok h /\ g = [h])).

(** gpg gives out this key for the account's own key handle *)
Definition own_public_key (s s' : ast) (kh : text) (key : bytes) : Prop :=
  exists home argv r, ran s s' (GCall home argv None None) /\
    (exists pre, argv = pre ++ [L "--export-options=export-minimal"; L "--export"; kh]) /\
    g_out (snd (gpg r argv None None)) = key.

(** the mail as prepared: without ENCRYPT headers, with an Autocrypt header *)
Definition without (name : text) (h : list (text * text)) : list (text * text) :=
  filter (fun kv => negb (text_eqb (lower (fst kv)) (lower name))) h.
Definition prepared (m : msg) (added : option text) (m' : msg) : Prop :=
  m_body m' = m_body m /\
  m_headers m' = without (L "ENCRYPT") (m_headers m) ++ match added with Some v => [(L "Autocrypt", v)] | None => [] end.

(** A header value that is read, but found wrong. *)
Definition error_header (v : text) : Prop := exists p, parse_ac_headervalue v = Ok p /\ has_error p = true.
End OutSpec.
