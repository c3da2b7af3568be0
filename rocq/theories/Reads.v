(** Reading piece by piece.  Every property of PeerState and OwnState walks through the log anew
    (states.py:119-172, 240-243), so that one decision takes several reads of the same log.
    States.v, Recommendation.v and Account.v read the log once for one decision.  Here the decisions
    are written once more with all the reads of the Python code; C87 compares the two. *)
From Verif Require Import Base PyStr Env Prog Chain Gpg Mime States Recommendation Account.

Section Reads.
Context {E : Env}.

(** states.py:151-155 _latest_ac_entry, 157-163 latest_gossip_entry, _latest_msg_entry *)
Definition r_ac_entry (chain : text) : prog cop (option msg_entry) := l <- perform (CRead chain) ;; Ret (latest_ac_entry l).
Definition r_gossip_entry (chain : text) : prog cop (option gossip_entry) := l <- perform (CRead chain) ;; Ret (latest_gossip_entry l).
Definition r_msg_entry (chain : text) : prog cop (option msg_entry) := l <- perform (CRead chain) ;; Ret (latest_msg_entry l).

(** states.py:120-126 *)
Definition r_last_seen (chain : text) : prog cop Z :=
  e <- r_msg_entry chain ;; Ret (match e with Some e => me_date e | None => 0%Z end).
Definition r_timestamp (chain : text) : prog cop Z :=
  e <- r_ac_entry chain ;; Ret (match e with Some e => me_date e | None => 0%Z end).
(** states.py:136-145: the log is read a second time if there is no direct key *)
Definition r_has_direct_key (chain : text) : prog cop bool :=
  e <- r_ac_entry chain ;; Ret (match e with Some e => nonempty (me_kh e) | None => false end).
Definition r_entry_for_encryption (chain : text) : prog cop (option (msg_entry + gossip_entry)) :=
  direct <- r_ac_entry chain ;;
  if match direct with Some e => nonempty (me_kh e) | None => false end then Ret (option_map inl direct)
  else g <- r_gossip_entry chain ;; Ret (option_map inr g).
(** states.py:128-134, 147-149 *)
Definition r_keyhandle (chain : text) : prog cop text :=
  x <- r_entry_for_encryption chain ;;
  Ret (match x with Some (inl e) => me_kh e | Some (inr e) => ge_kh e | None => [] end).
Definition r_keydata (chain : text) : prog cop bytes :=
  x <- r_entry_for_encryption chain ;;
  Ret (match x with Some (inl e) => me_keydata e | Some (inr e) => ge_keydata e | None => [] end).
Definition r_pref (chain : text) : prog cop text :=
  x <- r_entry_for_encryption chain ;;
  Ret (match x with Some (inl e) => me_pref e | _ => [] end).

(** recommendation.py:61-71 (the first read is for the debug line) *)
Definition r_preliminary (chain : text) : prog cop text :=
  r_keyhandle chain ;;;
  kh <- r_keyhandle chain ;;
  if negb (nonempty kh) then Ret (L "disable")
  else
    d <- r_has_direct_key chain ;;
    if negb d then Ret (L "discourage")
    else
      seen <- r_last_seen chain ;;
      ts <- r_timestamp chain ;;
      if Z.ltb timeout (seen - ts) then Ret (L "discourage") else Ret (L "available").

(** recommendation.py:45-56 *)
Definition r_peer_recommendation (own_pref : text) (reply_to_enc : bool) (chain : text) : prog cop text :=
  pre <- r_preliminary chain ;;
  if (text_eqb pre (L "available") || text_eqb pre (L "discourage")) && reply_to_enc then Ret (L "encrypt")
  else if text_eqb pre (L "available") && text_eqb own_pref (L "mutual") then
    p <- r_pref chain ;;
    if text_eqb p (L "mutual") then
      e <- r_msg_entry chain ;;
      match e with
      | None => Raise AttributeError
      | Some e => if nonempty (me_keydata e) then Ret (L "encrypt") else Ret pre
      end
    else Ret pre
  else Ret pre.

(** recommendation.py:12-25, account.py:213-218 *)
Definition r_recommend (acct : text) (addrs : list (option text)) (reply_to_enc : bool) (from : option text) : prog cop (option text) :=
  c <- own_config acct ;;
  recs <- mapM (r_peer_recommendation (cf_pref c) reply_to_enc) (map snd (rec_peers acct addrs from)) ;;
  lift (aggregate (cf_pref c) recs).

(** recommendation.py:27-30 *)
Definition r_target_keyhandles (peers : dict text) : prog cop (list (text * text)) :=
  mapM (fun '(addr, c) => kh <- r_keyhandle c ;; Ret (addr, kh)) peers.

(** states.py:165-172 *)
Definition r_message_entry (chain id : text) : prog cop (option msg_entry) :=
  l <- perform (CRead chain) ;; Ret (get_message_entry l id).
Definition r_gossip_message_entry (chain id : text) : prog cop (option gossip_entry) :=
  l <- perform (CRead chain) ;; Ret (get_gossip_message_entry l id).

(** states.py:175-199 update_from_msg *)
Definition r_update_from_msg (chain : text) (id : text) (date : Z)
  (pref : option text) (kd : option bytes) (kh : option text) : prog cop unit :=
  ts <- r_timestamp chain ;;
  if Z.ltb date ts then Ret tt
  else
    entry <- r_message_entry chain id ;;
    if match entry with
       | Some e => Z.eqb (me_date e) date && eq_opt (me_keydata e) kd && eq_opt (me_kh e) kh && eq_opt (me_pref e) pref
       | None => false end then Ret tt
    else
      let kd' := match kd with Some k => k | None => [] end in
      if negb (nonempty kd') then
        seen <- r_last_seen chain ;;
        if Z.ltb seen date then
          e <- lift (mk_msg_entry id date (Some (L "nopreference")) [] []) ;;
          perform (CAppend chain e)
        else Ret tt
      else
        e <- lift (mk_msg_entry id date pref kd' (match kh with Some h => h | None => [] end)) ;;
        perform (CAppend chain e).

(** states.py:201-214 update_from_msg_gossip *)
Definition r_update_from_msg_gossip (chain : text) (id : text) (date : Z)
  (kd : option bytes) (kh : option text) : prog cop unit :=
  ts <- r_timestamp chain ;;
  if Z.ltb date ts then Ret tt
  else
    let kd' := match kd with Some k => k | None => [] end in
    if negb (nonempty kd') then Raise AssertionError
    else
      entry <- r_gossip_message_entry chain id ;;
      if match entry with
         | Some e => Z.eqb (ge_date e) date && eq_opt (ge_keydata e) kd && eq_opt (ge_kh e) kh
         | None => false end then Ret tt
      else
        e <- lift (mk_gossip_entry id date kd' kh) ;;
        perform (CAppend chain e).

(** account.py:271-283: the settings are read three times *)
Definition r_get_bingpg (acct : text) : prog cop bingpg :=
  c1 <- own_config acct ;;
  home <- (if text_eqb (cf_mode c1) (L "own") then Ret (Some (Some (own_gpghome acct)))
           else if text_eqb (cf_mode c1) (L "system") then Ret (Some None) else Ret None) ;;
  match home with
  | None => Raise AttributeError
  | Some h =>
    c2 <- own_config acct ;;
    if negb (nonempty (cf_bin c2)) then Raise AttributeError
    else c3 <- own_config acct ;; lift (mk_bingpg h (cf_bin c3))
  end.

(** account.py:285-303 make_ac_header *)
Definition r_make_ac_header (acct emailadr : text) : prog cop text :=
  g <- r_get_bingpg acct ;;
  kh <- own_keyhandle acct ;;
  kd <- get_public_keydata g kh false ;;
  c <- own_config acct ;;
  lift (make_ac_header_value emailadr kd (cf_pref c)).

(** account.py:309-319 *)
Definition r_export_public_key (acct : text) (kh : option text) : prog cop bytes :=
  h <- match kh with Some h => Ret h | None => own_keyhandle acct end ;;
  g <- r_get_bingpg acct ;;
  get_public_keydata g h true.
Definition r_export_secret_key (acct : text) : prog cop bytes :=
  g <- r_get_bingpg acct ;;
  kh <- own_keyhandle acct ;;
  get_secret_keydata g kh true.

(** account.py:434-439 *)
Definition r_import_key (acct : text) (p : pah) : prog cop (option text * pah) :=
  g <- r_get_bingpg acct ;;
  match p_keydata p with
  | None => Raise AssertionError   (* unreachable: only called for results without error *)
  | Some kd =>
    catch (kh <- import_keydata g kd false ;; Ret (Some kh, p))
          (fun e => match e with
                    | InvocationFailure =>
                      Some (Ret (None, PAH (p_keydata p) (p_addr p) (p_pref p) (p_extra p)
                                           (Some (L "failed to import key"))))
                    | _ => None
                    end)
  end.

(** account.py:358-371 *)
Definition r_process_autocrypt_header (acct : text) (m : msg) (from chain : text) (date : Z) (id : text) : prog cop pah :=
  p <- lift (parse_one_ac_header_from_msg m [from]) ;;
  '(kh, p') <- (if has_error p then Ret (None, p) else r_import_key acct p) ;;
  r_update_from_msg chain id date (p_pref p') (p_keydata p') kh ;;;
  Ret p'.

(** account.py:531-548 *)
Definition r_decrypt_mime (acct : text) (m : msg) : prog cop (msg * list (text * text)) :=
  b <- lift (is_encrypted m) ;;
  assert_ b ;;;
  match m_body m with
  | PParts [_; p1] =>
    enc_data <- match m_body p1 with
                | PBytes s | PStr s => if is_ascii s then Ret s else Raise UnicodeError
                | PNone | PParts _ => Raise AttributeError
                end ;;
    g <- r_get_bingpg acct ;;
    '(dec, infos) <- gpg_decrypt g enc_data ;;
    Ret (transfer_non_content_headers m (parse_bytes dec), infos)
  | _ => Raise AssertionError
  end.

(** account.py:410-432 *)
Definition r_gossip_recipient (acct : text) (date : Z) (id : text)
  (st : dict pah * dict pah) (recipient : text) : prog cop (dict pah * dict pah) :=
  let '(addr2pah, processed) := st in
  match dget addr2pah recipient with
  | None => Ret st
  | Some p =>
    '(kh, p') <- r_import_key acct p ;;
    r_update_from_msg_gossip (peerstate_chain acct recipient) id date (p_keydata p') kh ;;;
    Ret (dset addr2pah recipient p', dset processed recipient p')
  end.
Definition r_process_gossip_headers (acct : text) (m : msg) (date : Z) (id : text) : prog cop (dict pah) :=
  addr2pah <- lift (get_gossip_headers_from_msg m) ;;
  st <- foldM (r_gossip_recipient acct date id) (get_target_emailadr m) (addr2pah, []) ;;
  Ret (snd st).

(** account.py:321-356: the log is only looked at for ignore_existing *)
Definition r_process_incoming (acct : text) (m : msg) (ignore_existing no_decrypt : bool) : prog cop (option incoming) :=
  let from := parse_email_addr (hget m (L "From")) in
  let chain := peerstate_chain acct from in
  d <- lift (parse_date_to_float (hget m (L "Date"))) ;;
  date <- effective_date d ;;
  let id := msg_id_text m in
  known <- (if ignore_existing then l <- perform (CRead chain) ;; Ret (has_message l id) else Ret false) ;;
  if known : bool then Ret None
  else
    p <- r_process_autocrypt_header acct m from chain date id ;;
    enc <- (if no_decrypt then Ret false else lift (is_encrypted m)) ;;
    gossip <- (if enc then
                 '(dec, _) <- r_decrypt_mime acct m ;;
                 gp <- r_process_gossip_headers acct dec date id ;;
                 own_keyhandle acct ;;;
                 Ret gp
               else Ret []) ;;
    Ret (Some (Incoming id date chain acct p gossip)).

(** account.py:373-408 *)
Definition r_import_keydata_as_autocrypt (acct : text) (addr : option text) (keydata : bytes) (pref : text) : prog cop import_result :=
  g <- r_get_bingpg acct ;;
  kh <- import_keydata g keydata false ;;
  uid_addrs <- match addr with
               | Some a => Ret [parse_email_addr (Some a)]
               | None =>
                 l <- list_public_keyinfos g kh ;;
                 Ret (match find (fun k => text_eqb (ki_id k) kh) l with
                      | Some k => map (fun u => parse_email_addr (Some u)) (ki_uids k)
                      | None => []
                      end)
               end ;;
  kh <- import_keydata g keydata true ;;
  mapM (fun a =>
          now <- perform CTime ;;
          kd <- get_public_keydata g kh false ;;
          r_update_from_msg (peerstate_chain acct a) [] now (Some pref) (Some kd) (Some kh))
       uid_addrs ;;;
  kd <- get_public_keydata g kh false ;;
  Ret (ImportResult uid_addrs pref kh kd).

(** account.py:496-509: the key handle is read once, the key twice *)
Definition r_encrypt_recipient (acct : text) (st : list text * msg) (addr : text) : prog cop (list text * msg) :=
  let '(khs, clear) := st in
  kh <- r_keyhandle (peerstate_chain acct addr) ;;
  if negb (nonempty kh) then
    c <- own_config acct ;;
    b <- lift (re_match (cf_regex c) addr) ;;
    if b then
      own <- own_keyhandle acct ;;
      Ret (khs ++ [own], clear)
    else Raise ValueError
  else
    r_keydata (peerstate_chain acct addr) ;;;
    kd <- r_keydata (peerstate_chain acct addr) ;;
    v <- lift (make_ac_header_value addr kd (L "nopreference")) ;;
    Ret (khs ++ [kh], hadd clear (L "Autocrypt-Gossip") v).

(** account.py:482-529: the own key handle is read for the plugins and for gpg *)
Definition r_encrypt_mime (acct : text) (m : msg) (toaddrs : list text) : prog cop (msg * list text) :=
  assert_ (nonempty toaddrs) ;;;
  '(khs, clear) <- foldM (r_encrypt_recipient acct)
                         (map (fun t => parse_email_addr (Some t)) toaddrs)
                         ([], make_content_message_from_email m) ;;
  own_keyhandle acct ;;;
  clear_data <- lift (flatten clear) ;;
  g <- r_get_bingpg acct ;;
  own <- own_keyhandle acct ;;
  enc_data <- gpg_encrypt g clear_data khs own ;;
  let enc := make_message (L "application/pgp-encrypted") (PStr (L "version: 1")) in
  let data := make_message (L "application/octet-stream") (PBytes enc_data) in
  let newmsg := make_message encrypted_ctype (PParts [enc; data]) in
  Ret (transfer_non_content_headers m newmsg, khs).

(** account.py:441-480 *)
Definition r_process_outgoing (acct : text) (m : msg) : prog cop outgoing :=
  '(enc_header, m) <-
     match hget m (L "ENCRYPT") with
     | Some h =>
       assert_ (mem_text (strip h) [L "opportunistic"; L "yes"; L "no"]) ;;;
       Ret (Some (strip h), hdel m (L "ENCRYPT"))
     | None => Ret (None, m)
     end ;;
  let addr := parse_email_addr (hget m (L "From")) in
  '(added, m) <-
     (if hin m (L "Autocrypt") then Ret (None, m)
      else v <- r_make_ac_header acct addr ;; Ret (Some v, hadd m (L "Autocrypt") v)) ;;
  b <- lift (is_encrypted m) ;;
  m <- (if b then Ret m
        else
          let recipients := get_target_emailadr m in
          match hget_all m (L "From") with
          | [f] =>
            let from_addr := parse_email_addr (Some f) in
            rec <- r_recommend acct (map Some recipients) false (Some from_addr) ;;
            let recipients := if mem_text from_addr recipients then recipients
                              else recipients ++ [from_addr] in
            if otext_eqb enc_header (Some (L "no")) then Ret m
            else if otext_eqb rec (Some (L "encrypt"))
                    || (negb (otext_eqb rec (Some (L "disable"))) && otext_eqb enc_header (Some (L "yes")))
            then '(em, _) <- r_encrypt_mime acct m recipients ;; Ret em
            else if otext_eqb enc_header (Some (L "yes")) then Raise ValueError
            else Ret m
          | _ => Raise AssertionError
          end) ;;
  Ret (Outgoing m acct addr added (hget m (L "Autocrypt"))).
End Reads.
