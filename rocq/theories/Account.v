(** /repo/muacrypt/account.py: AccountManager and Account.  An Account object is represented
    by its name; an address passed to get_recommendation may be None (missing From header).
    No plugins are registered (the hooks at lines 103, 341, 511 do nothing); see Plugins.v. *)
From Verif Require Import Base PyStr Base64 Env Prog Chain Gpg Mime States Recommendation.

Section Account.
Context {E : Env}.

(** account.py:29-33 parse_date_to_float.  A missing or unparsable date makes mktime raise
    TypeError, which gives 0.0; other exceptions of mktime propagate. *)
Definition parse_date_to_float (date : option text) : result Z :=
  match date with
  | None => Ok 0%Z
  | Some d =>
    match parsedate d with
    | None => Ok 0%Z
    | Some civil =>
      match mktime civil with
      | Err TypeError => Ok 0%Z
      | r => r
      end
    end
  end.

(** account.py:36-38 effective_date *)
Definition effective_date (date : Z) : prog cop Z :=
  now <- perform CTime ;; Ret (Z.min date now).

(** account.py:86-95 init, _ensure_init, exists *)
Definition ensure_init : prog cop unit :=
  v <- mgr_version ;;
  match v with
  | Some _ => Ret tt
  | None =>
    v' <- mgr_version ;;
    assert_ (match v' with None => true | Some _ => false end) ;;;
    set_version (L "0.1")
  end.

(** account.py:305-307 Account.exists *)
Definition account_exists (acct : text) : prog cop bool :=
  l <- perform (CRead (own_chain acct)) ;; Ret (is_configured l).

(** account.py:97-107 get_account with 197-204 Account.__init__ *)
Definition get_account (name : text) (check : bool) : prog cop text :=
  ensure_init ;;;
  assert_ (isalnum name) ;;;
  if check then
    ex <- account_exists name ;;
    if ex then Ret name else Raise AccountNotFound
  else Ret name.

(** account.py:109-110 *)
Definition list_account_names : prog cop (list text) := get_account_names.

(** account.py:271-283 Account.bingpg.  Building the NotInitialized message reads self.dir,
    which an Account does not have: AttributeError.  (The property is cached per Account
    object; the calls of [Api.v] get the account anew, so that here it is built anew.  [Live.v]
    has the objects with their cache, and C86 says when there is no difference.) *)
Definition get_bingpg (acct : text) : prog cop bingpg :=
  c <- own_config acct ;;
  if negb (nonempty (cf_bin c)) then Raise AttributeError
  else if text_eqb (cf_mode c) (L "own") then lift (mk_bingpg (Some (own_gpghome acct)) (cf_bin c))
  else if text_eqb (cf_mode c) (L "system") then lift (mk_bingpg None (cf_bin c))
  else Raise AttributeError.

(** account.py:223-256 Account.create *)
Definition create (acct : text) (regex : text) (kh : option text) (gpgbin gpgmode : text) : prog cop unit :=
  assert_ (mem_text gpgmode [L "own"; L "system"]) ;;;
  new_config acct (CfgEntry (L "nopreference") acct regex gpgmode gpgbin) ;;;
  kh' <- match kh with
         | None =>
           id <- perform CUuid ;;
           g <- get_bingpg acct ;;
           gen_secret_key g (id ++ L "@random.muacrypt.org")
         | Some h =>
           g <- get_bingpg acct ;;
           r <- get_secret_keyhandle g h ;;
           match r with Some h' => Ret h' | None => Raise ValueError end
         end ;;
  g <- get_bingpg acct ;;
  keydata <- get_secret_keydata g kh' false ;;
  append_keygen acct keydata kh'.

(** account.py:112-132 add_account *)
Definition add_account (name : text) (regex kh : option text) (gpgbin gpgmode : text) : prog cop text :=
  a <- get_account name false ;;
  ex <- account_exists a ;;
  if ex then Raise AccountExists
  else
    create a (match regex with Some r => r | None => L ".*" end) kh gpgbin gpgmode ;;;
    Ret a.

(** account.py:134-154 mod_account with 258-266 Account.modify: the keyhandle argument is
    accepted and ignored. *)
Definition mod_account (name : text) (regex kh gpgbin pref : option text) : prog cop (bool * text) :=
  a <- get_account name true ;;
  changed <- change_config a pref regex gpgbin ;;
  Ret (changed, a).

(** account.py:156-159 del_account, 268-269 delete *)
Definition del_account (name : text) : prog cop unit :=
  a <- get_account name true ;;
  remove_account a.

(** account.py:161-168 get_account_from_emailadr: the loop, then the final raise *)
Fixpoint account_loop (names : list text) (emailadr : text) : prog cop (option text) :=
  match names with
  | [] => Ret None
  | n :: names' =>
    a <- get_account n true ;;
    c <- own_config a ;;
    b <- lift (re_match (cf_regex c) emailadr) ;;
    if b then Ret (Some a) else account_loop names' emailadr
  end.
Definition get_account_from_emailadr (emailadr : text) (raising : bool) : prog cop (option text) :=
  names <- list_account_names ;;
  r <- account_loop names emailadr ;;
  match r with
  | Some a => Ret (Some a)
  | None => if raising then Raise AccountNotFound else Ret None
  end.

(** account.py:170-181 get_matching_account_for_incoming_message *)
Fixpoint first_match (l : list (text * text)) (adr : text) : result (option text) :=
  match l with
  | [] => Ok None
  | (regex, a) :: l' =>
    rbind (re_match regex (lower adr)) (fun b => if b then Ok (Some a) else first_match l' adr)
  end.
Fixpoint match_addrs (l : list (text * text)) (adrs : list text) : result (option text) :=
  match adrs with
  | [] => Ok None
  | adr :: adrs' =>
    rbind (first_match l adr) (fun r => match r with Some a => Ok (Some a) | None => match_addrs l adrs' end)
  end.
Definition get_matching_account (m : msg) : prog cop text :=
  names <- list_account_names ;;
  l <- mapM (fun n => a <- get_account n true ;; c <- own_config a ;; Ret (cf_regex c, a)) names ;;
  r <- lift (match_addrs l (get_target_emailadr m)) ;;
  match r with
  | Some a => Ret a
  | None =>
    delivto <- lift (get_delivered_to m None) ;;
    r' <- get_account_from_emailadr delivto true ;;
    match r' with Some a => Ret a | None => Raise AccountNotFound end
  end.

(** account.py:183-189 remove *)
Definition remove_all : prog cop unit := perform CRmTree.

(** account.py:209-211 get_peerstate: the chain of a peer *)
Definition peerstate_chain (acct addr : text) : text := peer_chain acct (parse_email_addr (Some addr)).

(** account.py:213-218 get_recommendation: the peerstates dictionary addr -> chain, then the
    recommendation object is (own preference, reply_to_enc, peers) *)
Definition rec_peers (acct : text) (addrs : list (option text)) (from : option text) : dict text :=
  fold_left (fun d a => if otext_eqb (Some a) from then d else dset d a (peerstate_chain acct a))
            (map parse_email_addr addrs) [].
Definition recommend (acct : text) (addrs : list (option text)) (reply_to_enc : bool) (from : option text) : prog cop (option text) :=
  c <- own_config acct ;;
  ui_recommendation (cf_pref c) reply_to_enc (map snd (rec_peers acct addrs from)).

(** account.py:285-303 make_ac_header *)
Definition make_ac_header (acct emailadr : text) : prog cop text :=
  g <- get_bingpg acct ;;
  kh <- own_keyhandle acct ;;
  kd <- get_public_keydata g kh false ;;
  c <- own_config acct ;;
  lift (make_ac_header_value emailadr kd (cf_pref c)).

(** account.py:309-319 export_public_key, export_secret_key *)
Definition export_public_key (acct : text) (kh : option text) : prog cop bytes :=
  h <- match kh with Some h => Ret h | None => own_keyhandle acct end ;;
  g <- get_bingpg acct ;;
  get_public_keydata g h true.
Definition export_secret_key (acct : text) : prog cop bytes :=
  g <- get_bingpg acct ;;
  kh <- own_keyhandle acct ;;
  get_secret_keydata g kh true.

(** account.py:434-439 _import_key: returns the handle (or None) and the updated pah *)
Definition import_key (acct : text) (p : pah) : prog cop (option text * pah) :=
  g <- get_bingpg acct ;;
  match p_keydata p with
  | None => Raise AssertionError   (* unreachable: only called for results without error *)
  | Some kd =>
    catch (kh <- import_keydata g kd false ;; Ret (Some kh, p))
          (fun e => match e with
                    | InvocationFailure =>
                      Some (Ret (None, PAH (p_keydata p) (p_addr p) (p_pref p) (p_extra p)
                                           (Some (L "failed to import key"))))
                    | _ => None
                    end)
  end.

(** account.py:358-371 process_autocrypt_header *)
Definition process_autocrypt_header (acct : text) (m : msg) (from chain : text) (date : Z) (id : text) : prog cop pah :=
  p <- lift (parse_one_ac_header_from_msg m [from]) ;;
  '(kh, p') <- (if has_error p then Ret (None, p) else import_key acct p) ;;
  update_from_msg chain id date (p_pref p') (p_keydata p') kh ;;;
  Ret p'.

(** account.py:531-548 decrypt_mime: decrypted message and (key id, uid) list.  Python keeps
    only strings: set_payload(bytes) turns non-ASCII bytes into surrogates, and get_payload
    gives back replacement characters for them (CPython 3.11 email/message.py:292-302), so
    line 541 raises UnicodeEncodeError for both kinds of payload.  (Not modelled: a part that
    declares a charset in which non-ASCII bytes stand for ASCII characters.) *)
Definition decrypt_mime (acct : text) (m : msg) : prog cop (msg * list (text * text)) :=
  b <- lift (is_encrypted m) ;;
  assert_ b ;;;
  match m_body m with
  | PParts [_; p1] =>
    enc_data <- match m_body p1 with
                | PBytes s | PStr s => if is_ascii s then Ret s else Raise UnicodeError
                | PNone | PParts _ => Raise AttributeError
                end ;;
    g <- get_bingpg acct ;;
    '(dec, infos) <- gpg_decrypt g enc_data ;;
    Ret (transfer_non_content_headers m (parse_bytes dec), infos)
  | _ => Raise AssertionError
  end.

(** account.py:410-432 process_gossip_headers.  The dictionary addr2pah and the processed
    dictionary share the pah objects, so an import failure recorded in pah.error is visible
    to a later recipient entry of the same address. *)
Definition gossip_recipient (acct : text) (date : Z) (id : text)
  (st : dict pah * dict pah) (recipient : text) : prog cop (dict pah * dict pah) :=
  let '(addr2pah, processed) := st in
  match dget addr2pah recipient with
  | None => Ret st
  | Some p =>
    '(kh, p') <- import_key acct p ;;
    update_from_msg_gossip (peerstate_chain acct recipient) id date (p_keydata p') kh ;;;
    Ret (dset addr2pah recipient p', dset processed recipient p')
  end.
Definition process_gossip_headers (acct : text) (m : msg) (date : Z) (id : text) : prog cop (dict pah) :=
  addr2pah <- lift (get_gossip_headers_from_msg m) ;;
  st <- foldM (gossip_recipient acct date id) (get_target_emailadr m) (addr2pah, []) ;;
  Ret (snd st).

(** account.py:572-579 ProcessIncomingResult *)
Record incoming := Incoming {
  in_id : text; in_date : Z; in_chain : text; in_acct : text; in_pah : pah; in_gossip : dict pah }.

(** six.text_type(msg["Message-Id"]) *)
Definition msg_id_text (m : msg) : text :=
  match hget m (L "Message-Id") with Some i => i | None => L "None" end.

(** account.py:321-356 process_incoming *)
Definition process_incoming (acct : text) (m : msg) (ignore_existing no_decrypt : bool) : prog cop (option incoming) :=
  let from := parse_email_addr (hget m (L "From")) in
  let chain := peerstate_chain acct from in
  d <- lift (parse_date_to_float (hget m (L "Date"))) ;;
  date <- effective_date d ;;
  let id := msg_id_text m in
  l <- perform (CRead chain) ;;
  if ignore_existing && has_message l id then Ret None
  else
    p <- process_autocrypt_header acct m from chain date id ;;
    enc <- (if no_decrypt then Ret false else lift (is_encrypted m)) ;;
    gossip <- (if enc then
                 '(dec, _) <- decrypt_mime acct m ;;
                 gp <- process_gossip_headers acct dec date id ;;
                 own_keyhandle acct ;;;
                 Ret gp
               else Ret []) ;;
    Ret (Some (Incoming id date chain acct p gossip)).

(** account.py:591-597 ImportKeyResult *)
Record import_result := ImportResult {
  ir_addrs : list text; ir_pref : text; ir_kh : text; ir_keydata : bytes }.

(** account.py:373-408 import_keydata_as_autocrypt *)
Definition import_keydata_as_autocrypt (acct : text) (addr : option text) (keydata : bytes) (pref : text) : prog cop import_result :=
  g <- get_bingpg acct ;;
  kh <- import_keydata g keydata false ;;
  uid_addrs <- match addr with
               | Some a => Ret [parse_email_addr (Some a)]
               | None =>
                 l <- list_public_keyinfos g kh ;;
                 Ret (match find (fun k => text_eqb (ki_id k) kh) l with
                      | Some k => map (fun u => parse_email_addr (Some u)) (ki_uids k)
                      | None => []
                      end)
               end ;;
  kh <- import_keydata g keydata true ;;
  mapM (fun a =>
          now <- perform CTime ;;
          kd <- get_public_keydata g kh false ;;
          update_from_msg (peerstate_chain acct a) [] now (Some pref) (Some kd) (Some kh))
       uid_addrs ;;;
  kd <- get_public_keydata g kh false ;;
  Ret (ImportResult uid_addrs pref kh kd).

(** account.py:482-529 encrypt_mime: one recipient of the loop 496-509; the state is
    (keyhandles, clear_payload_msg) *)
Definition encrypt_recipient (acct : text) (st : list text * msg) (addr : text) : prog cop (list text * msg) :=
  let '(khs, clear) := st in
  l <- perform (CRead (peerstate_chain acct addr)) ;;
  let kh := public_keyhandle l in
  if negb (nonempty kh) then
    c <- own_config acct ;;
    b <- lift (re_match (cf_regex c) addr) ;;
    if b then
      own <- own_keyhandle acct ;;
      Ret (khs ++ [own], clear)
    else Raise ValueError
  else
    v <- lift (make_ac_header_value addr (public_keydata l) (L "nopreference")) ;;
    Ret (khs ++ [kh], hadd clear (L "Autocrypt-Gossip") v).

(** mime.py's set_param('protocol', ...) on the fresh multipart message *)
Definition encrypted_ctype : text := L "multipart/encrypted; protocol=""application/pgp-encrypted""".

Definition encrypt_mime (acct : text) (m : msg) (toaddrs : list text) : prog cop (msg * list text) :=
  assert_ (nonempty toaddrs) ;;;
  '(khs, clear) <- foldM (encrypt_recipient acct)
                         (map (fun t => parse_email_addr (Some t)) toaddrs)
                         ([], make_content_message_from_email m) ;;
  own <- own_keyhandle acct ;;
  clear_data <- lift (flatten clear) ;;
  g <- get_bingpg acct ;;
  enc_data <- gpg_encrypt g clear_data khs own ;;
  let enc := make_message (L "application/pgp-encrypted") (PStr (L "version: 1")) in
  let data := make_message (L "application/octet-stream") (PBytes enc_data) in
  let newmsg := make_message encrypted_ctype (PParts [enc; data]) in
  Ret (transfer_non_content_headers m newmsg, khs).

(** account.py:582-588 ProcessOutgoingResult *)
Record outgoing := Outgoing {
  out_msg : msg; out_acct : text; out_addr : text; out_added : option text; out_had : option text }.

(** account.py:441-480 process_outgoing *)
Definition process_outgoing (acct : text) (m : msg) : prog cop outgoing :=
  '(enc_header, m) <-
     match hget m (L "ENCRYPT") with
     | Some h =>
       assert_ (mem_text (strip h) [L "opportunistic"; L "yes"; L "no"]) ;;;
       Ret (Some (strip h), hdel m (L "ENCRYPT"))
     | None => Ret (None, m)
     end ;;
  let addr := parse_email_addr (hget m (L "From")) in
  '(added, m) <-
     (if hin m (L "Autocrypt") then Ret (None, m)
      else v <- make_ac_header acct addr ;; Ret (Some v, hadd m (L "Autocrypt") v)) ;;
  b <- lift (is_encrypted m) ;;
  m <- (if b then Ret m
        else
          let recipients := get_target_emailadr m in
          match hget_all m (L "From") with
          | [f] =>
            let from_addr := parse_email_addr (Some f) in
            rec <- recommend acct (map Some recipients) false (Some from_addr) ;;
            let recipients := if mem_text from_addr recipients then recipients
                              else recipients ++ [from_addr] in
            if otext_eqb enc_header (Some (L "no")) then Ret m
            else if otext_eqb rec (Some (L "encrypt"))
                    || (negb (otext_eqb rec (Some (L "disable"))) && otext_eqb enc_header (Some (L "yes")))
            then '(em, _) <- encrypt_mime acct m recipients ;; Ret em
            else if otext_eqb enc_header (Some (L "yes")) then Raise ValueError
            else Ret m
          | _ => Raise AssertionError
          end) ;;
  Ret (Outgoing m acct addr added (hget m (L "Autocrypt"))).

End Account.
